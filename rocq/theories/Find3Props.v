(** * Property C103: where a point lies in a mesh of polyhedra. *)
From Coq Require Import QArith Qcanon.
From Coq Require Import ZArith ZifyBool ZifyNat ZifyN.
From Verif Require Import Base BaseProof QcTac FillModel GeoModel MapModel PointModel PointSpec PointProof PointProps ConcatModel CsrModel MeshModel MeshSpec MeshHist MeshWit
  OutlineSpec SolidModel SolidSpec SolidProof SolidProps FindModel FindSpec Find3Model Find3Spec Find3Proof.
Local Open Scope nat_scope.

(** All polyhedra: those found are the active ones that contain the point, each once, in the order of the search. *)
Theorem C103_all g p m pos solids boxes start : exact g -> reachable m -> drawn_solids pos m solids boxes ->
  (N.of_nat (start + num D3 m) <= 4294967296)%N ->
  exists found, FindPointCell3D g p m solids boxes false (N.of_nat start) = Ok found /\
    sublist (found.*1) (from_polygon start (num D3 m)) /\ NoDup (found.*1) /\ forall i, i ∈ found.*1 <-> solid_contains m solids p i.
Proof.
  intros G R D W. destruct (find3_all g p m pos solids boxes G R D start W) as (found & E & _ & A). exists found. split; [exact E|exact A].
Qed.
Print Assumptions C103_all.

(** Only the first: none if the point is in no polyhedron, otherwise the first one from the starting polyhedron on. *)
Theorem C103_first g p m pos solids boxes start : exact g -> reachable m -> drawn_solids pos m solids boxes ->
  (N.of_nat (start + num D3 m) <= 4294967296)%N ->
  exists found, FindPointCell3D g p m solids boxes true (N.of_nat start) = Ok found /\
    ((found = [] /\ forall i, ~ solid_contains m solids p i) \/
     exists i r before after, found = [(i, r)] /\ from_polygon start (num D3 m) = before ++ i :: after /\ solid_contains m solids p i /\
       forall j, j ∈ before -> ~ solid_contains m solids p j).
Proof.
  intros G R D W. destruct (find3_first g p m pos solids boxes G R D start W) as (found & E & _ & A). exists found. split; [exact E|exact A].
Qed.
Print Assumptions C103_first.

(** The cells named for the polyhedra found are these polyhedra or faces, edges or vertices of them, and the point lies on them. *)
Theorem C103_place g p m pos solids boxes first start : exact g -> reachable m -> drawn_solids pos m solids boxes ->
  (N.of_nat (start + num D3 m) <= 4294967296)%N ->
  exists found ps, FindPointCell3D g p m solids boxes first (N.of_nat start) = Ok found /\ FindPointMeshPosition3 found m = Ok ps /\
    Forall2 (fun f x => lies_on_part pos m solids p f.1 x) found ps.
Proof. intros G R D W. exact (find3_place g p m pos solids boxes G R D first start W). Qed.
Print Assumptions C103_place.

(** A mesh of two polyhedra, of which the second one is the unit cube and the first one is not active. *)
Definition w_cube : list op :=
  [OInitDimension 3; OAppend D0 8] ++ ((fun v => OState D0 v true) <$> seq 0 8) ++
  [OAppend D1 12; OExtremes 0 0 1; OExtremes 1 1 2; OExtremes 2 2 3; OExtremes 3 3 0; OExtremes 4 4 5; OExtremes 5 5 6; OExtremes 6 6 7; OExtremes 7 7 4;
   OExtremes 8 0 4; OExtremes 9 1 5; OExtremes 10 2 6; OExtremes 11 3 7] ++ ((fun e => OState D1 e true) <$> seq 0 12) ++
  [OAppend D2 6; OAdd V2 0 [0; 1; 2; 3]%N; OAdd V2 1 [4; 5; 6; 7]%N; OAdd V2 2 [0; 3; 7; 4]%N; OAdd V2 3 [1; 2; 6; 5]%N;
   OAdd V2 4 [0; 4; 5; 1]%N; OAdd V2 5 [3; 7; 6; 2]%N] ++ ((fun f => OState D2 f true) <$> seq 0 6) ++
  [OAppend D3 2; OAdd V3 1 [0; 1; 2; 3; 4; 5; 6; 7]%N; OAdd E3 1 [0; 1; 2; 3; 4; 5; 6; 7; 8; 9; 10; 11]%N; OAdd F3 1 [0; 1; 2; 3; 4; 5]%N;
   OState D3 0 false; OState D3 1 true].
Definition cube_mesh : mesh := after w_cube.
Lemma cube_mesh_reachable : reachable cube_mesh.
Proof. apply after_reachable, plain_allowed. vm_compute. reflexivity. Qed.
Definition cube_places : list vec3 :=
  [(0, 0, 0); (1, 0, 0); (1, 1, 0); (0, 1, 0); (0, 0, 1); (1, 0, 1); (1, 1, 1); (0, 1, 1)]%Qc.
Definition cube_pos (v : N) : vec3 := nth (N.to_nat v) cube_places (0, 0, 0)%Qc.
Definition cube_solids : list (list face) := [[]; cube].
Definition cube_boxes : list (vec3 * vec3) := [((0, 0, 0), (0, 0, 0)); ((0, 0, 0), (1, 1, 1))]%Qc.
Definition face_rows : list (list N) := [[0; 1; 2; 3]; [4; 5; 6; 7]; [0; 3; 7; 4]; [1; 2; 6; 5]; [0; 4; 5; 1]; [3; 7; 6; 2]]%N.
Lemma cube_points : fc_points <$> cube = (fun row => cube_pos <$> row) <$> face_rows.
Proof.
  unfold cube, face_rows. cbn [fmap list_fmap square_face fc_points unit_square].
  repeat (apply (f_equal2 cons); [repeat (apply (f_equal2 cons); [apply vec_same; apply Qc_is_canon; vm_compute; reflexivity|]); reflexivity|]).
  reflexivity.
Qed.
(** The columns of the faces, checked one by one. *)
Definition column_fits (row : list N) (k : nat) (x : N * N) : bool :=
  match row !! k, row !! ((k + 1) mod length row) with
  | Some u, Some w => bool_decide (u = x.1) && bool_decide ((x.1 < 8)%N) && bool_decide ((x.2 < 12)%N) &&
      match Cell1DOrigin (N.to_nat x.2) cube_mesh, Cell1DEnd (N.to_nat x.2) cube_mesh with
      | Ok o, Ok e => (bool_decide (o = u) && bool_decide (e = w)) || (bool_decide (o = w) && bool_decide (e = u))
      | _, _ => false
      end
  | _, _ => false
  end.
Lemma columns_fit : forallb (fun rc => forallb (fun kx => column_fits rc.1 kx.1 kx.2) (imap pair rc.2)) (zip face_rows (fc_columns <$> cube)) = true.
Proof. vm_compute. reflexivity. Qed.
Lemma numbers_lookup (n : nat) (x : N) : (x < N.of_nat n)%N -> (N.of_nat <$> seq 0 n) !! N.to_nat x = Some x.
Proof. intros L. rewrite list_lookup_fmap, lookup_seq_lt by lia. cbn. f_equal. lia. Qed.
Lemma cube_faces_of : faces_of cube_pos cube_mesh 1 cube.
Proof.
  exists (N.of_nat <$> seq 0 8), (N.of_nat <$> seq 0 12), (N.of_nat <$> seq 0 6).
  split; [vm_compute; reflexivity|]. split; [vm_compute; reflexivity|]. split; [vm_compute; reflexivity|].
  intros f c FC. assert (exists row, face_rows !! f = Some row) as [row RW].
  { apply lookup_lt_is_Some_2. apply lookup_lt_Some in FC. exact FC. }
  pose proof (lookup_lt_Some _ _ _ RW) as L. cbn in L. exists (N.of_nat f), row.
  split; [rewrite list_lookup_fmap, lookup_seq_lt by lia; reflexivity|].
  split.
  { rewrite Nat2N.id. assert (forallb (fun f => match RelRow V2 f cube_mesh, face_rows !! f with Ok r, Some r' => bool_decide (r = r') | _, _ => false end) (seq 0 6) = true) as A
      by (vm_compute; reflexivity).
    rewrite forallb_forall in A. specialize (A f ltac:(apply in_seq; lia)). rewrite RW in A. destruct (RelRow V2 f cube_mesh); [|discriminate..].
    apply bool_decide_eq_true in A. rewrite A. reflexivity. }
  split.
  { pose proof (f_equal (fun l => l !! f) cube_points) as P. cbn beta in P. rewrite !list_lookup_fmap, FC, RW in P. apply (inj Some) in P. exact P. }
  intros k v e CO. pose proof columns_fit as A. rewrite forallb_forall in A. specialize (A (row, fc_columns c)).
  cbn [fst snd] in A. assert (forallb (fun kx => column_fits row kx.1 kx.2) (imap pair (fc_columns c)) = true) as B.
  { apply A. apply elem_of_list_In. apply elem_of_list_lookup. exists f. apply lookup_zip_with_Some. exists row, (fc_columns c).
    split; [reflexivity|]. split; [exact RW|]. rewrite list_lookup_fmap, FC. reflexivity. }
  clear A. rewrite forallb_forall in B. specialize (B (k, (v, e))). cbn [fst snd] in B.
  assert (column_fits row k (v, e) = true) as D.
  { apply B. apply elem_of_list_In. apply elem_of_list_lookup. exists k. rewrite list_lookup_imap, CO. reflexivity. }
  clear B. unfold column_fits in D. destruct (row !! k) as [u|] eqn:RU; [|discriminate]. destruct (row !! ((k + 1) mod length row)) as [w|] eqn:RW2; [|discriminate].
  apply andb_true_iff in D as [D J]. apply andb_true_iff in D as [D LE]. apply andb_true_iff in D as [EU LV]. cbn [fst snd] in *.
  apply bool_decide_eq_true in EU, LV, LE. subst u.
  exists v, w, e. split; [apply (numbers_lookup 8); exact LV|]. split; [reflexivity|]. split; [reflexivity|].
  split; [apply (numbers_lookup 12); exact LE|].
  unfold joins. destruct (Cell1DOrigin (N.to_nat e) cube_mesh) as [o| | | |]; [|discriminate..].
  destruct (Cell1DEnd (N.to_nat e) cube_mesh) as [t| | | |]; [|discriminate..].
  apply orb_true_iff in J as [J|J]; apply andb_true_iff in J as [J1 J2]; apply bool_decide_eq_true in J1, J2; subst o t; [left|right]; split; reflexivity.
Qed.
Lemma cube_drawn : drawn_solids cube_pos cube_mesh cube_solids cube_boxes.
Proof.
  intros i A. assert (i < 2) as L.
  { unfold IsActive in A. apply bind_ok in A as (u & A & _). apply require_ok in A. apply Nat.ltb_lt in A. exact A. }
  destruct i as [|[|i]]; [vm_compute in A; discriminate| |exfalso; lia].
  exists cube, (0, 0, 0)%Qc, (1, 1, 1)%Qc. split; [reflexivity|]. split; [reflexivity|]. split; [exact cube_proper|]. split; [exact cube_faces_of|].
  intros p P. apply cube_solid in P. exact P.
Qed.
Definition cube_find (p : vec3) (first : bool) (start : N) : outcome (list (nat * solid_position) * list (dim * N)) :=
  found ← FindPointCell3D zero_tolerances p cube_mesh cube_solids cube_boxes first start;
  ps ← FindPointMeshPosition3 found cube_mesh; Ok (found, ps).
Example C103_nonvacuous : exact zero_tolerances /\ reachable cube_mesh /\ drawn_solids cube_pos cube_mesh cube_solids cube_boxes /\
  cube_find (half, half, half) false 1 = Ok ([(1, SInside)], [(D3, 1%N)]) /\
  cube_find (half, half, 1%Qc) true 0 = Ok ([(1, SBorderFace 1)], [(D2, 1%N)]) /\
  cube_find (1, half, 1)%Qc false 0 = Ok ([(1, SBorderEdge 5)], [(D1, 5%N)]) /\
  cube_find (0, 1, 1)%Qc false 0 = Ok ([(1, SBorderVertex 7)], [(D0, 7%N)]) /\
  cube_find (0, 1, 1 + half)%Qc false 0 = Ok ([], []).
Proof.
  split; [done|]. split; [exact cube_mesh_reachable|]. split; [exact cube_drawn|]. repeat (split; [vm_compute; reflexivity|]). vm_compute. reflexivity.
Qed.
