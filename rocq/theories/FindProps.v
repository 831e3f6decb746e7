(** * Property C101: where a point lies in a mesh of polygons. *)
From Coq Require Import QArith Qcanon.
From Coq Require Import ZArith ZifyBool ZifyNat ZifyN.
From Verif Require Import Base BaseProof QcTac FillModel GeoModel MapModel PointModel PointSpec PointProof PointProps ConcatModel CsrModel MeshModel MeshSpec MeshHist MeshWit
  JoinSpec OutlineSpec WeldProps FindModel FindSpec FindProof.
Local Open Scope nat_scope.

(** All polygons: those found are the active ones that contain the point, each once, in the order of the search.  In particular
    the boxes never hide one. *)
Theorem C101_all g p m pos vss boxes start : exact g -> flat p -> reachable m -> drawn pos m vss boxes ->
  (N.of_nat (start + num D2 m) <= 4294967296)%N ->
  exists found, FindPointCell2D g p m vss boxes false (N.of_nat start) = Ok found /\
    sublist (found.*1) (from_polygon start (num D2 m)) /\ NoDup (found.*1) /\ forall i, i ∈ found.*1 <-> contains pos m p i.
Proof.
  intros G F R D W. destruct (find_all g p m pos vss boxes G F R D start W) as (found & E & _ & A). exists found. split; [exact E|exact A].
Qed.
Print Assumptions C101_all.

(** Only the first: none if the point is in no polygon, otherwise the first one from the starting polygon on. *)
Theorem C101_first g p m pos vss boxes start : exact g -> flat p -> reachable m -> drawn pos m vss boxes ->
  (N.of_nat (start + num D2 m) <= 4294967296)%N ->
  exists found, FindPointCell2D g p m vss boxes true (N.of_nat start) = Ok found /\
    ((found = [] /\ forall i, ~ contains pos m p i) \/
     exists i r before after, found = [(i, r)] /\ from_polygon start (num D2 m) = before ++ i :: after /\ contains pos m p i /\
       forall j, j ∈ before -> ~ contains pos m p j).
Proof.
  intros G F R D W. destruct (find_first g p m pos vss boxes G F R D start W) as (found & E & _ & A). exists found. split; [exact E|exact A].
Qed.
Print Assumptions C101_first.

(** The cells named for the polygons found are these polygons or edges or vertices of them, and the point lies on them. *)
Theorem C101_place g p m pos vss boxes first start : exact g -> flat p -> reachable m -> drawn pos m vss boxes ->
  (N.of_nat (start + num D2 m) <= 4294967296)%N ->
  exists found ps, FindPointCell2D g p m vss boxes first (N.of_nat start) = Ok found /\ FindPointMeshPosition found m = Ok ps /\
    Forall2 (fun f x => part_of m f.1 x /\ lies_on pos m p x) found ps.
Proof. intros G F R D W. exact (find_place g p m pos vss boxes G F R D first start W). Qed.
Print Assumptions C101_place.

(** The search starts where it is told and goes around: every polygon comes once. *)
Theorem C101_around start n : NoDup (from_polygon start n) /\ forall i, i < n -> i ∈ from_polygon start n.
Proof. split; [exact (from_nodup start n)|]. intros i L. exact (from_elem start n i L). Qed.
Print Assumptions C101_around.

(** The three triangles of [tri_row]. *)
Definition tri_places : list vec3 := [q2 0 0; q2 2 0; q2 0 2; q2 2 2; q2 0 4].
Definition tri_pos (v : N) : vec3 := nth (N.to_nat v) tri_places (q2 0 0).
Definition tri_vertices : list (list vec3) := [[q2 0 0; q2 2 0; q2 0 2]; [q2 2 0; q2 2 2; q2 0 2]; [q2 2 2; q2 0 4; q2 0 2]].
Definition tri_boxes : list (vec3 * vec3) := [(q2 0 0, q2 2 2); (q2 0 0, q2 2 2); (q2 0 2, q2 2 4)].
Lemma triangle_turns a b c : flat a -> flat b -> flat c -> a <> b -> b <> c -> c <> a ->
  (0 < orient a b c)%Qc -> left_turning [a; b; c] /\ convex [a; b; c].
Proof.
  intros FA FB FC AB BC CA O.
  assert (0 < orient b c a)%Qc as O2 by (replace (orient b c a) with (orient a b c) by (unfold orient; ring); done).
  assert (0 < orient c a b)%Qc as O3 by (replace (orient c a b) with (orient a b c) by (unfold orient; ring); done).
  split; [split; [by repeat constructor|split]|].
  - apply (corner_cases [a; b; c] (fun _ x y _ => x <> y)); [done|]. intros i L. cbn in L.
    destruct i as [|[|[|i]]]; [exact AB|exact BC|exact CA|lia].
  - apply (corner_cases [a; b; c] (fun _ x y z => (0 < orient x y z)%Qc \/ exists k, (1 < k)%Qc /\ on_line x y k z)); [done|]. intros i L. cbn in L. left.
    destruct i as [|[|[|i]]]; [exact O|exact O2|exact O3|lia].
  - intros i j. revert i. apply (corner_cases [a; b; c] (fun _ x y _ => (0 <= orient x y (corner [a; b; c] j))%Qc)); [done|].
    intros i L. unfold corner at 3. pose proof (Nat.mod_upper_bound j (length [a; b; c]) ltac:(done)) as M.
    generalize dependent (j mod length [a; b; c]). intros k M. cbn in L, M.
    assert (forall x y, orient x y x = Q2Qc 0 /\ orient x y y = Q2Qc 0) as Z by (intros; unfold orient; split; ring).
    destruct i as [|[|[|i]]]; [| | |lia]; (destruct k as [|[|[|k]]]; [| | |lia]); cbn -[orient];
      try rewrite (proj1 (Z _ _)); try rewrite (proj2 (Z _ _)); first [by apply Qcle_refl | by apply Qclt_le_weak].
Qed.
Lemma tri_drawn : drawn tri_pos tri_row tri_vertices tri_boxes.
Proof.
  intros i A. assert (i < 3) as L.
  { unfold IsActive in A. apply bind_ok in A as (u & A & _). apply require_ok in A. apply Nat.ltb_lt in A. exact A. }
  assert (forall i row es b, RelRow V2 i tri_row = Ok row -> RelRow E2 i tri_row = Ok es ->
    closed_line tri_row row es -> 2 < length row -> (left_turning (tri_pos <$> row) /\ convex (tri_pos <$> row)) ->
    tri_vertices !! i = Some (tri_pos <$> row) -> tri_boxes !! i = Some b ->
    PointsBoundingBox (tri_pos <$> row) = Ok b ->
    exists row es b, RelRow V2 i tri_row = Ok row /\ RelRow E2 i tri_row = Ok es /\ closed_line tri_row row es /\
      2 < length row /\ left_turning (tri_pos <$> row) /\ convex (tri_pos <$> row) /\
      tri_vertices !! i = Some (tri_pos <$> row) /\ PointsBoundingBox (tri_pos <$> row) = Ok b /\ tri_boxes !! i = Some b) as K.
  { intros i' row es b H1 H2 H3 H4 [H5 H6] H7 H8 H9. exists row, es, b. split; [exact H1|]. split; [exact H2|]. split; [exact H3|].
    split; [exact H4|]. split; [exact H5|]. split; [exact H6|]. split; [exact H7|]. split; [exact H9|exact H8]. }
  assert (forall row es, length row = length es -> 2 <= length es -> NoDup row -> NoDup es ->
    (forall k, k < length es -> exists e u v, es !! k = Some e /\ row !! k = Some u /\ row !! ((k + 1) mod length row) = Some v /\ joins tri_row e u v) ->
    closed_line tri_row row es) as CL.
  { intros row es H1 H2 H3 H4 H5. split; [exact H1|exact H2|exact H3|exact H4|]. intros k e E.
    destruct (H5 k (lookup_lt_Some _ _ _ E)) as (e' & u & v & E' & U & V & J). rewrite E in E'. injection E' as <-. exists u, v. auto. }
  destruct i as [|[|[|i]]]; [| | |exfalso; lia].
  - apply (K 0 [0; 1; 2]%N [0; 1; 2]%N (q2 0 0, q2 2 2)).
    1, 2, 6, 7, 8: vm_compute; reflexivity.
    + apply CL; [reflexivity|cbn; lia|apply (bool_decide_unpack _); exact I|apply (bool_decide_unpack _); exact I|].
      intros k LK. cbn in LK. destruct k as [|[|[|k]]]; [| | |exfalso; lia]; eexists _, _, _; (split; [reflexivity|split; [reflexivity|split; [reflexivity|]]]); vm_compute; tauto.
    + cbn; lia.
    + apply triangle_turns; [reflexivity|reflexivity|reflexivity|vm_compute; discriminate|vm_compute; discriminate|vm_compute; discriminate|vm_compute; reflexivity].
  - apply (K 1 [1; 3; 2]%N [3; 4; 1]%N (q2 0 0, q2 2 2)).
    1, 2, 6, 7, 8: vm_compute; reflexivity.
    + apply CL; [reflexivity|cbn; lia|apply (bool_decide_unpack _); exact I|apply (bool_decide_unpack _); exact I|].
      intros k LK. cbn in LK. destruct k as [|[|[|k]]]; [| | |exfalso; lia]; eexists _, _, _; (split; [reflexivity|split; [reflexivity|split; [reflexivity|]]]); vm_compute; tauto.
    + cbn; lia.
    + apply triangle_turns; [reflexivity|reflexivity|reflexivity|vm_compute; discriminate|vm_compute; discriminate|vm_compute; discriminate|vm_compute; reflexivity].
  - apply (K 2 [3; 4; 2]%N [5; 6; 4]%N (q2 0 2, q2 2 4)).
    1, 2, 6, 7, 8: vm_compute; reflexivity.
    + apply CL; [reflexivity|cbn; lia|apply (bool_decide_unpack _); exact I|apply (bool_decide_unpack _); exact I|].
      intros k LK. cbn in LK. destruct k as [|[|[|k]]]; [| | |exfalso; lia]; eexists _, _, _; (split; [reflexivity|split; [reflexivity|split; [reflexivity|]]]); vm_compute; tauto.
    + cbn; lia.
    + apply triangle_turns; [reflexivity|reflexivity|reflexivity|vm_compute; discriminate|vm_compute; discriminate|vm_compute; discriminate|vm_compute; reflexivity].
Qed.
(** The point (1,1) is on the edge common to the first two triangles, (0,2) is a vertex of all three, (1,3) is on the outer edge of
    the third one, whose inside is searched from itself. *)
Definition tri_find (p : vec3) (first : bool) (start : N) : outcome (list (nat * polygon_position) * list (dim * N)) :=
  found ← FindPointCell2D zero_tolerances p tri_row tri_vertices tri_boxes first start;
  ps ← FindPointMeshPosition found tri_row; Ok (found, ps).
Example C101_nonvacuous : exact zero_tolerances /\ flat (q2 1 1) /\ reachable tri_row /\ drawn tri_pos tri_row tri_vertices tri_boxes /\
  tri_find (q2 1 1) false 1 = Ok ([(1, BorderEdge 2); (0, BorderEdge 1)], [(D1, 1%N); (D1, 1%N)]) /\
  tri_find (q2 1 1) true 2 = Ok ([(0, BorderEdge 1)], [(D1, 1%N)]) /\
  tri_find (q2 0 2) false 0 = Ok ([(0, BorderVertex 2); (1, BorderVertex 2); (2, BorderVertex 2)], [(D0, 2%N); (D0, 2%N); (D0, 2%N)]) /\
  tri_find (q2 1 3) true 0 = Ok ([(2, BorderEdge 0)], [(D1, 5%N)]) /\
  tri_find (q2 3 3) false 0 = Ok ([], []).
Proof.
  split; [done|]. split; [reflexivity|]. split; [exact tri_row_reachable|]. split; [exact tri_drawn|].
  split; [vm_compute; reflexivity|]. split; [vm_compute; reflexivity|]. split; [vm_compute; reflexivity|]. split; vm_compute; reflexivity.
Qed.

(** A starting polygon so large that its sum with the step wraps around: the first triangle is looked at twice and reported twice, the
    third one never, so that a point on it is not found. *)
Theorem C101_wrap_refuted : reachable tri_row /\ drawn tri_pos tri_row tri_vertices tri_boxes /\ contains tri_pos tri_row (q2 1 3) 2 /\
  tri_find (q2 1 3) false 4294967295 = Ok ([], []) /\
  tri_find (q2 1 1) false 4294967295 = Ok ([(0, BorderEdge 1); (0, BorderEdge 1); (1, BorderEdge 2)], [(D1, 1%N); (D1, 1%N); (D1, 1%N)]).
Proof.
  split; [exact tri_row_reachable|]. split; [exact tri_drawn|]. split.
  - split; [vm_compute; reflexivity|]. exists [3; 4; 2]%N. split; [vm_compute; reflexivity|].
    apply (corner_cases (tri_pos <$> [3; 4; 2]%N) (fun _ x y _ => (0 <= orient x y (q2 1 3))%Qc)); [discriminate|]. intros i L. cbn in L.
    destruct i as [|[|[|i]]]; [vm_compute; discriminate|vm_compute; discriminate|vm_compute; discriminate|exfalso; lia].
  - split; vm_compute; reflexivity.
Qed.
Print Assumptions C101_wrap_refuted.
