(** * Properties C31-C32: union of two meshes of a segment.  The notions are in UnionSpec.v. *)
From Verif Require Import Base GeoModel GeoProof UnionModel UnionSpec UnionProof UnionProof2 UnionProof3.
Local Open Scope Qc_scope.

(** C31. For any two lists of points without the point -1 (used as a marker by the code), in any order. *)
Theorem C31_points_partial g one two : minus_one ∉ one -> minus_one ∉ two ->
  exists pts, CreateUnionPoints g one two [] = Ok pts /\
    spaced (same_distance g) pts.*1 /\ (forall k, k ∈ pts.*1 -> k ∈ one \/ k ∈ two) /\
    (forall c, c ∈ one \/ c ∈ two -> exists k, k ∈ pts.*1 /\ near g k c).
Proof. exact (points_spaced g one two). Qed.
Print Assumptions C31_points_partial.

(** For meshes whose points are well separated: the types and the indices. *)
Theorem C31_types_partial g one two : minus_one ∉ one -> minus_one ∉ two ->
  spaced (same_distance g) one -> spaced (same_distance g + same_distance g) two ->
  exists pts, CreateUnionPoints g one two [] = Ok pts /\
    (forall i a, one !! i = Some a -> exists x, (a, x) ∈ pts /\ from_first (up_type x) = true /\ up_indices x !! 0%nat = Some i) /\
    (forall j b, two !! j = Some b ->
       exists k x, (k, x) ∈ pts /\ near g k b /\ from_second (up_type x) = true /\ up_indices x !! 1%nat = Some j) /\
    (forall k x, (k, x) ∈ pts ->
       (from_first (up_type x) = true -> exists i, up_indices x !! 0%nat = Some i /\ one !! i = Some k) /\
       (from_second (up_type x) = true -> exists j b, up_indices x !! 1%nat = Some j /\ two !! j = Some b /\ near g k b) /\
       (from_first (up_type x) = false -> from_second (up_type x) = true /\ k ∈ two /\ forall a, a ∈ one -> ~ near g k a)).
Proof. exact (types_ok g one two). Qed.
Print Assumptions C31_types_partial.

Definition union_g : geo_config := GeoConfig (Q2Qc (1 # 1000)) (Q2Qc (1 # 100)).
Definition union_one : list Qc := [Q2Qc 0; Q2Qc (1 # 4); Q2Qc (1 # 2); Q2Qc 1].
Definition union_two : list Qc := [Q2Qc (1 # 8); Q2Qc (501 # 1000); Q2Qc (3 # 2)].

(** The hypotheses hold of these meshes; the results are given with rational keys. *)
Definition shown (p : Qc * upoint) : Q * utype * list nat := (this p.1, up_type p.2, up_indices p.2).
Definition shown_segment (s : usegment) : utype * (Q * Q) * (nat * nat) :=
  (us_type s, (this (us_points s).1, this (us_points s).2), us_indices s).

Lemma spaced_check d l : forallb (fun p => qlt (p.1 + d) p.2) (zip l (tail l)) = true -> spaced d l.
Proof.
  intros H i x y Hx Hy. rewrite forallb_forall in H. destruct (qlt_spec (x + d) y) as [|Hn]; [done|exfalso].
  specialize (H (x, y)). cbn in H. destruct (qlt_spec (x + d) y); [done|]. discriminate H. 
  apply elem_of_list_In, elem_of_list_lookup. exists i. apply lookup_zip_with_Some. exists x, y. split_and!; [done|done|].
  by destruct l.
Qed.

Lemma no_minus_one l : forallb (fun x => negb (qeq x minus_one)) l = true -> minus_one ∉ l.
Proof.
  rewrite forallb_forall. intros H Hin%elem_of_list_In. specialize (H _ Hin). destruct (qeq_spec minus_one minus_one); done.
Qed.

Example C31_example :
  minus_one ∉ union_one /\ minus_one ∉ union_two /\ spaced (same_distance union_g) union_one /\
  spaced (same_distance union_g + same_distance union_g) union_two /\
  match CreateUnionMesh union_g union_one union_two with
  | Ok (pts, segs) =>
      map shown pts =
        [(0%Q, UFirst, [0; 0]%nat); ((1 # 8)%Q, USecond, [0; 0]%nat); ((1 # 4)%Q, UFirst, [1; 0]%nat);
         ((1 # 2)%Q, UBoth, [2; 1]%nat); (1%Q, UFirst, [3; 0]%nat); ((3 # 2)%Q, USecond, [0; 2]%nat)] /\
      map shown_segment segs =
        [(UFirst, (0, 1 # 8)%Q, (0, 0)%nat); (UBoth, (1 # 8, 1 # 4)%Q, (0, 0)%nat); (UBoth, (1 # 4, 1 # 2)%Q, (1, 0)%nat);
         (UBoth, (1 # 2, 1)%Q, (2, 1)%nat); (USecond, (1, 3 # 2)%Q, (0, 1)%nat)]
  | _ => False
  end.
Proof.
  split_and!; [apply no_minus_one|apply no_minus_one|apply spaced_check|apply spaced_check|]; vm_compute; done.
Qed.

(** The point -1 common to both meshes is taken for a new point of the second one: its type does not say that it comes
    from the first mesh. *)
Theorem C31_sentinel_refuted :
  exists g one two pts a x, spaced (same_distance g + same_distance g) one /\ spaced (same_distance g + same_distance g) two /\
    CreateUnionPoints g one two [] = Ok pts /\ a ∈ one /\ a ∈ two /\ (a, x) ∈ pts /\ from_first (up_type x) = false.
Proof.
  set (t := match CreateUnionPoints union_g [Q2Qc (-1); 0] [Q2Qc (-1); 0] [] with Ok ((k, x) :: _) => qeq k (Q2Qc (-1)) && negb (from_first (up_type x)) | _ => false end).
  assert (Ht : t = true) by (vm_compute; reflexivity). unfold t in Ht.
  destruct (CreateUnionPoints union_g [Q2Qc (-1); 0] [Q2Qc (-1); 0] []) as [[|[k x] pts]| | | |] eqn:E; try done.
  exists union_g, [Q2Qc (-1); 0], [Q2Qc (-1); 0], ((k, x) :: pts), k, x.
  destruct (qeq_spec k (Q2Qc (-1))) as [->|]; [|done]. cbn in Ht. apply negb_true_iff in Ht.
  split_and!; try done; try (apply spaced_check; vm_compute; reflexivity); left.
Qed.
Print Assumptions C31_sentinel_refuted.

(** Two points of the second mesh more than the tolerance apart can be attached to the same point of the first: the
    index of one of them is lost. *)
Theorem C31_close_points_refuted :
  exists g one two pts, spaced (same_distance g) one /\ spaced (same_distance g) two /\ minus_one ∉ one /\ minus_one ∉ two /\
    CreateUnionPoints g one two [] = Ok pts /\ length two = 2%nat /\
    forall k x, (k, x) ∈ pts -> from_second (up_type x) = true -> up_indices x !! 1%nat <> Some 0%nat.
Proof.
  set (one := [Q2Qc (1 # 2)]). set (two := [Q2Qc (991 # 2000); Q2Qc (1013 # 2000)]).
  set (t := match CreateUnionPoints union_g one two [] with
            | Ok pts => forallb (fun p => negb (from_second (up_type p.2)) || negb (bool_decide (up_indices p.2 !! 1%nat = Some 0%nat))) pts | _ => false end).
  assert (Ht : t = true) by (vm_compute; reflexivity). unfold t in Ht.
  destruct (CreateUnionPoints union_g one two []) as [pts| | | |] eqn:E; try done.
  exists union_g, one, two, pts.
  split_and!; try done; try (apply spaced_check; vm_compute; reflexivity); try (apply no_minus_one; vm_compute; reflexivity).
  intros k x Hin Hs. rewrite forallb_forall in Ht. apply elem_of_list_In in Hin. specialize (Ht _ Hin). cbn in Ht. rewrite Hs in Ht.
    cbn in Ht. apply negb_true_iff, bool_decide_eq_false in Ht. done.
Qed.
Print Assumptions C31_close_points_refuted.

(** C32. Each segment of the union names the parent segments that contain it.  The construction stops only for meshes
    without a common part. *)
Theorem C32_parent_segments g one two : minus_one ∉ one -> minus_one ∉ two ->
  spaced (same_distance g) one -> spaced (same_distance g + same_distance g) two -> one <> [] -> two <> [] ->
  (exists pts segs, CreateUnionMesh g one two = Ok (pts, segs) /\ length pts = S (length segs) /\
     forall i s, segs !! i = Some s ->
       exists x y, pts.*1 !! i = Some x /\ pts.*1 !! S i = Some y /\ us_points s = (x, y) /\
         let '(j1, j2) := us_indices s in
         match us_type s with
         | UBoth => inside_segment 0 one j1 x y /\ inside_segment (same_distance g) two j2 x y
         | UFirst => inside_segment 0 one j1 x y /\ outside_mesh (same_distance g) two x y
         | USecond => outside_mesh 0 one x y /\ inside_segment (same_distance g) two j2 x y
         | UUnknown => False
         end) \/
  (CreateUnionMesh g one two = Abort /\
     exists a a' b b', head one = Some a /\ last one = Some a' /\ head two = Some b /\ last two = Some b' /\ (b' < a \/ a' < b)).
Proof. exact (segments_ok g one two). Qed.
Print Assumptions C32_parent_segments.

Example C32_example : union_one <> [] /\ union_two <> [] /\
  match CreateUnionMesh union_g [Q2Qc 0; Q2Qc 1] [Q2Qc 2; Q2Qc 3] with Abort => True | _ => False end.
Proof. split_and!; [done|done|]. vm_compute. done. Qed.
