(** * Meshes used by the examples about the checks. *)
From Coq Require Import QArith Qcanon.
From Verif Require Import Base BaseProof QcTac FillModel GeoModel MapModel PointModel PointSpec PolyModel PolySpec HullModel HullSpec ConvexProof CsrModel MeshModel MeshSpec MeshHist
  MeshWit UtilModel UtilSpec RefineModel RefineSpec RefineWit CheckModel CheckSpec CheckProof CheckProof2.
From Coq Require Import ZifyBool ZifyNat ZifyN.
Local Open Scope nat_scope.

(** All checks on. *)
Definition all_2D : config2D := Config2D true true true true true true true true true.
Definition all_3D : config3D := Config3D true true true true true true true true true.
Definition all_data (q1 : list Qc * list Qc) (q2 : list Qc) : data_config := DataConfig true true true true q1 q2.

Definition balanced_check (m : mesh) : bool :=
  forallb (fun c => match RelRow V2 c m, RelRow E2 c m with Ok v, Ok e => length v =? length e | _, _ => false end) (seq 0 (num D2 m)).
Lemma balanced_check_ok m : reachable m -> balanced_check m = true -> balanced m.
Proof.
  intros R H c vs es V E. unfold balanced_check in H. rewrite forallb_forall in H. specialize (H c). rewrite <- elem_of_list_In, elem_of_seq in H.
  pose proof (row_lt m R _ _ _ V) as L. cbn [src] in L. specialize (H ltac:(lia)). rewrite V, E in H. by apply Nat.eqb_eq.
Qed.
Definition edgy_check (m : mesh) : bool :=
  forallb (fun c => match RelRow V3 c m, RelRow E3 c m with Ok v, Ok e => length v <? length e | _, _ => false end) (seq 0 (num D3 m)).
Lemma edgy_check_ok m : reachable m -> edgy_check m = true -> forall c, edgy m c.
Proof.
  intros R H c vs es V E. unfold edgy_check in H. rewrite forallb_forall in H. specialize (H c). rewrite <- elem_of_list_In, elem_of_seq in H.
  pose proof (row_lt m R _ _ _ V) as L. cbn [src] in L. specialize (H ltac:(lia)). rewrite V, E in H. by apply Nat.ltb_lt.
Qed.

(** Two squares side by side; the neighbours given for edge [e]: on the right and on the left. *)
Definition w_pair (v2 : list N) (sides : list (N * N)) : list op :=
  [OInitDimension 2; OAppend D0 6; at_point 0 0 0; at_point 1 1 0; at_point 2 1 1; at_point 3 0 1; at_point 4 2 0; at_point 5 2 1] ++
  ((fun v => OState D0 v true) <$> seq 0 6) ++
  [OAppend D1 7; OExtremes 0 0 1; OExtremes 1 1 2; OExtremes 2 2 3; OExtremes 3 3 0; OExtremes 4 1 4; OExtremes 5 4 5; OExtremes 6 5 2] ++
  ((fun e => OState D1 e true) <$> seq 0 7) ++ ((fun e => OInitOne R12 e 2) <$> seq 0 7) ++ [OAppend D2 2] ++
  concat (imap (fun e p => (if (p.1 =? UINT_MAX)%N then [] else [OInsert R12 e 0 p.1]) ++ (if (p.2 =? UINT_MAX)%N then [] else [OInsert R12 e 1 p.2])) sides) ++
  [OAdd V2 0 v2; OAdd E2 0 [0; 1; 2; 3]%N; OAdd V2 1 [1; 4; 5; 2]%N; OAdd E2 1 [4; 5; 6; 1]%N;
   OState D2 0 true; OState D2 1 true].
Definition X := UINT_MAX.
Definition pair_mesh : mesh := after (w_pair [0; 1; 2; 3]%N [(X, 0); (1, 0); (X, 0); (X, 0); (X, 1); (X, 1); (X, 1)]%N).
Definition pair_swapped : mesh := after (w_pair [0; 1; 2; 3]%N [(0, X); (0, 1); (0, X); (0, X); (1, X); (1, X); (1, X)]%N).
Definition pair_alone : mesh := after (w_pair [0; 1; 2; 3]%N [(X, X); (X, X); (X, X); (X, X); (X, X); (X, X); (X, X)]%N).
Lemma pair_mesh_reachable : reachable pair_mesh.
Proof. apply after_reachable, plain_allowed. vm_compute. reflexivity. Qed.
Lemma pair_swapped_reachable : reachable pair_swapped.
Proof. apply after_reachable, plain_allowed. vm_compute. reflexivity. Qed.
Lemma pair_alone_reachable : reachable pair_alone.
Proof. apply after_reachable, plain_allowed. vm_compute. reflexivity. Qed.

(** A triangle; the polygon also lists the middle of its last edge as a vertex. *)
Definition w_extra : list op :=
  [OInitDimension 2; OAppend D0 4; at_point 0 0 0; at_point 1 2 0; at_point 2 0 2; at_point 3 0 1] ++
  ((fun v => OState D0 v true) <$> seq 0 4) ++
  [OAppend D1 3; OExtremes 0 0 1; OExtremes 1 1 2; OExtremes 2 2 0] ++
  ((fun e => OState D1 e true) <$> seq 0 3) ++ ((fun e => OInitOne R12 e 2) <$> seq 0 3) ++
  [OAppend D2 1; OInsert R12 0 1 0; OInsert R12 1 1 0; OInsert R12 2 1 0; OAdd V2 0 [0; 1; 2; 3]%N; OAdd E2 0 [0; 1; 2]%N; OState D2 0 true].
Definition extra_vertex : mesh := after w_extra.
(** An edge whose neighbour has no edges. *)
Definition w_bare : list op :=
  [OInitDimension 2; OAppend D0 2; at_point 0 0 0; at_point 1 2 0; OAppend D1 1; OExtremes 0 0 1; OInitOne R12 0 2; OAppend D2 1; OInsert R12 0 1 0].
Definition bare_neighbour : mesh := after w_bare.
(** A star: a polygon of five sides which cross each other. *)
Definition w_star : list op :=
  [OInitDimension 2; OAppend D0 5; at_point 0 0 0; at_point 1 5 3; at_point 2 (-1) 3; at_point 3 4 0; at_point 4 2 5] ++
  ((fun v => OState D0 v true) <$> seq 0 5) ++
  [OAppend D1 5; OExtremes 0 0 1; OExtremes 1 1 2; OExtremes 2 2 3; OExtremes 3 3 4; OExtremes 4 4 0] ++
  ((fun e => OState D1 e true) <$> seq 0 5) ++ ((fun e => OInitOne R12 e 2) <$> seq 0 5) ++ [OAppend D2 1] ++
  ((fun e => OInsert R12 e 1 0) <$> seq 0 5) ++
  [OAdd V2 0 [0; 1; 2; 3; 4]%N; OAdd E2 0 [0; 1; 2; 3; 4]%N; OState D2 0 true].
Definition star : mesh := after w_star.
Lemma extra_vertex_reachable : reachable extra_vertex.
Proof. apply after_reachable, plain_allowed. vm_compute. reflexivity. Qed.
Lemma bare_neighbour_reachable : reachable bare_neighbour.
Proof. apply after_reachable, plain_allowed. vm_compute. reflexivity. Qed.
Lemma star_reachable : reachable star.
Proof. apply after_reachable, plain_allowed. vm_compute. reflexivity. Qed.

(** A tetrahedron with the given vertices and edges; edge 6 joins the ends of edge 5 and is not active. *)
Definition at_space (v : nat) (x y z : Q) : op := OCoordinates v (store exact (Q2Qc x)) (store exact (Q2Qc y)) (store exact (Q2Qc z)).
Definition w_tetra (vs es : list N) (first last : nat) : list op :=
  [OInitDimension 3; OAppend D0 4; at_space 0 0 0 0; at_space 1 1 0 0; at_space 2 0 1 0; at_space 3 0 0 1] ++ ((fun v => OState D0 v true) <$> seq 0 4) ++
  [OAppend D1 7; OExtremes 0 2 3; OExtremes 1 0 1; OExtremes 2 1 2; OExtremes 3 2 0; OExtremes 4 0 3; OExtremes 5 1 3; OExtremes 6 2 3] ++
  ((fun e => OState D1 e true) <$> seq first (last - first)) ++
  [OAppend D2 4; OAdd V2 0 [0; 1; 2]%N; OAdd E2 0 [1; 2; 3]%N; OAdd V2 1 [0; 1; 3]%N; OAdd E2 1 [1; 5; 4]%N;
   OAdd V2 2 [1; 2; 3]%N; OAdd E2 2 [2; (if (first =? 0)%nat then 0 else 6); 5]%N; OAdd V2 3 [2; 0; 3]%N; OAdd E2 3 [3; 4; (if (first =? 0)%nat then 0 else 6)]%N] ++
  ((fun e => OState D2 e true) <$> seq 0 4) ++
  [OAppend D3 1; OAdd V3 0 vs; OAdd E3 0 es; OAdd F3 0 [0; 1; 2; 3]%N; OState D3 0 true].
Definition tetra : mesh := after (w_tetra [0; 1; 2; 3]%N [0; 1; 2; 3; 4; 5]%N 0 6).
(** Without vertex 3 in the polyhedron; with edge 6 in the place of edge 0, which is not active. *)
Definition tetra_open : mesh := after (w_tetra [0; 1; 2]%N [0; 1; 2; 3; 4; 5]%N 0 6).
Definition tetra_twice : mesh := after (w_tetra [0; 1; 2; 3]%N [6; 1; 2; 3; 4; 5]%N 1 7).
Lemma tetra_reachable : reachable tetra.
Proof. apply after_reachable, plain_allowed. vm_compute. reflexivity. Qed.
Lemma tetra_open_reachable : reachable tetra_open.
Proof. apply after_reachable, plain_allowed. vm_compute. reflexivity. Qed.
Lemma tetra_twice_reachable : reachable tetra_twice.
Proof. apply after_reachable, plain_allowed. vm_compute. reflexivity. Qed.
