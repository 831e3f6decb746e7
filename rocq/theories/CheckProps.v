(** * Properties C81-C84: the checks of meshes. *)
From Coq Require Import QArith Qcanon.
From Verif Require Import Base BaseProof QcTac FillModel GeoModel MapModel PointModel PointSpec PolyModel PolySpec HullModel HullSpec ConvexProof CsrModel MeshModel MeshSpec MeshHist
  UtilModel UtilSpec RefineModel RefineSpec RefineWit CheckModel CheckSpec CheckProof CheckProof2 CheckSafe CheckConvex CheckSolid CheckData CheckWit.
Local Open Scope nat_scope.

(** ** C81: plane meshes *)

(** The check accepts exactly the meshes described in CheckSpec.v. *)
Theorem C81_accepts : forall A k m, reachable m -> (0 <= MinTolerance (geo A))%Qc -> (0 <= cfgTolerance1D (geo A))%Qc -> balanced m ->
  Cell1D_CheckDuplications k = true -> Cell2D_CheckConvexity k = false ->
  CheckMesh2D A k m = Ok tt <-> plane_mesh A k m.
Proof. intros A k m R T0 T1. exact (check_iff A m R T0 T1 k). Qed.
Print Assumptions C81_accepts.
(** When the polygons have edges and all their edges exist, the check ends and accepts or rejects the mesh. *)
Theorem C81_decides : forall A k m, reachable m ->
  (forall c es, RelRow E2 c m = Ok es -> es <> [] /\ Forall (exists_in D1 m) es) -> Cell2D_CheckConvexity k = false ->
  CheckMesh2D A k m = Ok tt \/ CheckMesh2D A k m = Abort.
Proof. intros A k m R H. exact (check_decides A m R H k). Qed.
Print Assumptions C81_decides.

Definition no_convexity : config2D := Config2D true true true true true true true false true.
Lemma exact_tolerances : (0 <= MinTolerance (geo exact))%Qc /\ (0 <= cfgTolerance1D (geo exact))%Qc.
Proof. split; apply Qcle_refl. Qed.
Example C81_nonvacuous : reachable pair_mesh /\ balanced pair_mesh /\ plane_mesh exact no_convexity pair_mesh /\
  num D2 pair_mesh = 2 /\ CheckMesh2D exact all_2D pair_mesh = Ok tt.
Proof.
  assert (R : reachable pair_mesh) by apply pair_mesh_reachable.
  assert (B : balanced pair_mesh) by (apply balanced_check_ok; [exact R|vm_compute; reflexivity]).
  split; [exact R|]. split; [exact B|]. split; [|split; vm_compute; reflexivity].
  apply (proj1 (C81_accepts RefineWit.exact no_convexity pair_mesh R (proj1 exact_tolerances) (proj2 exact_tolerances) B eq_refl eq_refl)).
  vm_compute. reflexivity.
Qed.

(** A mesh with the neighbours on the wrong sides, or with no neighbours at all, is accepted by all the checks. *)
Theorem C81_neighbours_refuted :
  (exists A m e c right left, reachable m /\ CheckMesh2D A all_2D m = Ok tt /\ RelRow R12 e m = Ok [right; left] /\
     passes_along m e c /\ right = N.of_nat c /\ left = UINT_MAX) /\
  (exists A m e c right left, reachable m /\ CheckMesh2D A all_2D m = Ok tt /\ RelRow R12 e m = Ok [right; left] /\
     passes_along m e c /\ right = UINT_MAX /\ left = UINT_MAX).
Proof.
  assert (W : forall m, (match RelRow V2 0 m, RelRow E2 0 m, Cell1DOrigin 0 m with
    | Ok v, Ok e, Ok o => v = [0; 1; 2; 3]%N /\ e = [0; 1; 2; 3]%N /\ o = 0%N | _, _, _ => False end) -> passes_along m 0 0).
  { intros m H. exists [(0, 0); (1, 1); (2, 2); (3, 3)]%N, 0%N. unfold polygon.
    destruct (RelRow V2 0 m) as [v| | | |], (RelRow E2 0 m) as [e| | | |], (Cell1DOrigin 0 m) as [o| | | |]; try done.
    destruct H as (-> & -> & ->). split; [done|]. split; [done|]. by left. }
  split.
  - exists exact, pair_swapped, 0, 0, 0%N, UINT_MAX. split; [apply pair_swapped_reachable|]. split; [vm_compute; reflexivity|].
    split; [vm_compute; reflexivity|]. split; [|done]. apply W. vm_compute. split_and!; reflexivity.
  - exists exact, pair_alone, 0, 0, UINT_MAX, UINT_MAX. split; [apply pair_alone_reachable|]. split; [vm_compute; reflexivity|].
    split; [vm_compute; reflexivity|]. split; [|done]. apply W. vm_compute. split_and!; reflexivity.
Qed.
Print Assumptions C81_neighbours_refuted.
(** A polygon with a vertex which is not an end of any of its edges is accepted by all the checks. *)
Theorem C81_vertices_refuted : exists A m c vs es v, reachable m /\ CheckMesh2D A all_2D m = Ok tt /\ RelRow V2 c m = Ok vs /\ RelRow E2 c m = Ok es /\
  v ∈ vs /\ forall e w, e ∈ es -> ~ joins m e v w.
Proof.
  exists exact, extra_vertex, 0, [0; 1; 2; 3]%N, [0; 1; 2]%N, 3%N. split; [apply extra_vertex_reachable|].
  split; [vm_compute; reflexivity|]. split; [vm_compute; reflexivity|]. split; [vm_compute; reflexivity|].
  split; [do 3 right; by left|]. intros e w M J.
  assert (K : forallb (fun e => match Cell1DOrigin (N.to_nat e) extra_vertex, Cell1DEnd (N.to_nat e) extra_vertex with
    Ok o, Ok t => negb (o =? 3)%N && negb (t =? 3)%N | _, _ => false end) [0; 1; 2]%N = true) by (vm_compute; reflexivity).
  rewrite forallb_forall in K. specialize (K e). rewrite <- elem_of_list_In in K. specialize (K M). unfold joins in J.
  destruct (Cell1DOrigin (N.to_nat e) extra_vertex) as [o| | | |], (Cell1DEnd (N.to_nat e) extra_vertex) as [t| | | |]; try done.
  apply andb_true_iff in K as [K1 K2]. apply negb_true_iff, N.eqb_neq in K1. apply negb_true_iff, N.eqb_neq in K2.
  destruct J as [[J1 J2]|[J1 J2]]; congruence.
Qed.
Print Assumptions C81_vertices_refuted.
(** The check itself is undefined when a neighbour of an edge has no edges. *)
Theorem C81_defined_refuted : exists A m, reachable m /\ CheckMesh2D A all_2D m = UB.
Proof. exists exact, bare_neighbour. split; [apply bare_neighbour_reachable|]. vm_compute. reflexivity. Qed.
Print Assumptions C81_defined_refuted.

(** ** C82: convexity *)

(** A polygon is accepted exactly when every corner has a line through it with none of the corners on its right. *)
Theorem C82_polygon : forall g vs, PointSpec.exact g -> proper vs ->
  exists b, IsCellConvex g vs = Ok b /\ (b = true <-> forall p, p ∈ corners vs -> supported (corners vs) p).
Proof. intros g vs X (F & L & N & NL). exact (convex_iff g vs X F L N NL). Qed.
Print Assumptions C82_polygon.
(** A convex polygon is accepted, in both orientations. *)
Theorem C82_convex : forall g vs, PointSpec.exact g -> proper vs -> ordered (corners vs) \/ ordered (reverse (corners vs)) -> IsCellConvex g vs = Ok true.
Proof. intros g vs X (F & L & N & NL). exact (convex_accepted g vs X F L N NL). Qed.
Print Assumptions C82_convex.
(** Meshes, with all the checks. *)
Theorem C82_mesh : forall A k m, reachable m -> (0 <= MinTolerance (geo A))%Qc -> (0 <= cfgTolerance1D (geo A))%Qc -> balanced m ->
  Cell1D_CheckDuplications k = true -> PointSpec.exact (geo A) -> (forall c, c < num D2 m -> exists ps, outline A m c ps /\ proper ps) ->
  CheckMesh2D A k m = Ok tt <-> plane_mesh A k m /\
    (Cell2D_CheckConvexity k = true -> forall c ps p, c < num D2 m -> outline A m c ps -> p ∈ corners ps -> supported (corners ps) p).
Proof. exact check_convexity. Qed.
Print Assumptions C82_mesh.
(** A star, whose sides cross each other, is accepted by all the checks. *)
Definition inside_side (ps : list vec3) (i : nat) (x : vec3) : Prop :=
  exists c, (0 < c /\ c < 1)%Qc /\ on_line (PointSpec.corner ps i) (PointSpec.corner ps (S i)) c x.
Theorem C82_star_refuted : exists A m ps x, reachable m /\ CheckMesh2D A all_2D m = Ok tt /\ num D2 m = 1 /\ outline A m 0 ps /\ length ps = 5 /\
  inside_side ps 0 x /\ inside_side ps 2 x.
Proof.
  exists exact, star, [plane_point 0 0; plane_point 5 3; plane_point (-1) 3; plane_point 4 0; plane_point 2 5], (plane_point 2 (6 # 5)).
  assert (R : reachable star) by apply star_reachable.
  split; [exact R|]. split; [vm_compute; reflexivity|]. split; [vm_compute; reflexivity|]. split.
  { apply (cell_points_iff exact star R).
    assert (K : forall (x : outcome (list vec3)) l, (match x with Ok a => map (fun p : vec3 => (this p.1.1, this p.1.2, this p.2)) a = map (fun p : vec3 => (this p.1.1, this p.1.2, this p.2)) l | _ => False end) -> x = Ok l).
    { intros [a| | | |] l E; try done. f_equal. revert l E. induction a as [|[[a1 a2] a3] a IH]; intros [|[[b1 b2] b3] l] E; try done.
      cbn [map fst snd] in E. injection E as E1 E2 E3 E. f_equal; [|by apply IH].
      assert (T : forall u v : Qc, this u = this v -> u = v) by (intros u v Q; apply Qc_is_canon; rewrite Q; reflexivity).
      apply T in E1 as ->. apply T in E2 as ->. by apply T in E3 as ->. }
    apply K. vm_compute. reflexivity. }
  split; [done|].
  assert (T : forall u v : vec3, (this u.1.1 = this v.1.1 /\ this u.1.2 = this v.1.2 /\ this u.2 = this v.2) -> u = v).
  { intros [[a b] c] [[d e] f] (E1 & E2 & E3). cbn [fst snd] in *.
    assert (T : forall u v : Qc, this u = this v -> u = v) by (intros u v Q; apply Qc_is_canon; rewrite Q; reflexivity).
    apply T in E1 as ->. apply T in E2 as ->. by apply T in E3 as ->. }
  split.
  - exists (Q2Qc (2 # 5)). split; [split; vm_compute; reflexivity|]. unfold on_line. apply T. vm_compute. split_and!; reflexivity.
  - exists (Q2Qc (3 # 5)). split; [split; vm_compute; reflexivity|]. unfold on_line. apply T. vm_compute. split_and!; reflexivity.
Qed.
Print Assumptions C82_star_refuted.
(** The test of a polygon whose corners are on one line is undefined. *)
Theorem C82_flat_refuted : forall g vs, PointSpec.exact g -> Forall flat vs -> 2 < length vs -> NoDup (corners vs) -> 1 < length (corners vs) ->
  on_one_line (corners vs) -> IsCellConvex g vs = UB.
Proof. exact convex_undefined. Qed.
Print Assumptions C82_flat_refuted.

Lemma square_ordered : ordered square_points.
Proof.
  intros i j k a b c L A B C. pose proof (lookup_lt_Some _ _ _ C) as LC. cbn in LC.
  do 4 (destruct i as [|i]; [do 4 (destruct j as [|j]; [do 4 (destruct k as [|k]; [first [lia|
    cbn in A, B, C; injection A as <-; injection B as <-; injection C as <-; vm_compute; reflexivity]|]); lia|]); lia|]); lia.
Qed.
Example C82_nonvacuous : proper square_points /\ ordered (corners square_points) /\ IsCellConvex (geo exact) square_points = Ok true /\
  IsCellConvex (geo exact) [plane_point 0 0; plane_point 4 0; plane_point 1 1; plane_point 0 4] = Ok false.
Proof.
  assert (C : corners square_points = square_points) by (apply ordered_corners; [apply square_ordered|cbn; lia]).
  unfold proper. rewrite C. split; [split_and!|].
  - by repeat constructor.
  - cbn. lia.
  - apply NoDup_alt. intros i j x A B. unfold square_points in A, B.
    do 4 (destruct i as [|i]; [cbn in A; injection A as <-; do 4 (destruct j as [|j]; [try done; exfalso; cbn in B; vm_compute in B; congruence|]); done|]). done.
  - intros H. pose proof (H (plane_point 0 0) (plane_point 1 0) (plane_point 1 1)) as Z.
    assert (orient (plane_point 0 0) (plane_point 1 0) (plane_point 1 1) <> 0%Qc) as N by (vm_compute; congruence).
    apply N, Z; unfold square_points; set_solver.
  - split; [apply square_ordered|]. split; vm_compute; reflexivity.
Qed.

(** ** C83: the geometric data of plane meshes *)

(** Whatever the data, they are accepted when the mesh has no polyhedra. *)
Theorem C83_refuted : forall A k m d, num D3 m = 0 -> CheckMeshGeometricData2D A k m d = Ok tt.
Proof. exact data_vacuous. Qed.
Print Assumptions C83_refuted.
(** Otherwise the lengths and areas of the active polygons whose number is also the number of a polyhedron are positive. *)
Theorem C83_checked_partial : forall A k m d c, reachable m -> CheckMeshGeometricData2D A k m d = Ok tt -> c < num D3 m -> active D2 m c = true ->
  (Data_Cell1D_CheckMeasure k = true -> forall es e, RelRow E2 c m = Ok es -> e < length es ->
     exists ls l, Cell2DsEdgeLengths d !! c = Some ls /\ ls !! e = Some l /\ (0 <= MinTolerance (geo A) -> 0 < l)%Qc) /\
  (Data_Cell2D_CheckMeasure k = true -> exists a, Cell2DsAreas d !! c = Some a /\ (0 <= MinTolerance (geo A) -> 0 < a)%Qc).
Proof. exact data_checked. Qed.
Print Assumptions C83_checked_partial.
(** Negative areas and missing lengths of an accepted mesh are accepted; they are rejected when the mesh has a polyhedron. *)
Definition wrong_data : data2D := Data2D [] [] [Q2Qc (-1); Q2Qc (-1)] [] [] [].
Example C83_nonvacuous : CheckMesh2D exact all_2D pair_mesh = Ok tt /\ num D3 pair_mesh = 0 /\
  CheckMeshGeometricData2D exact (all_data ([], []) []) pair_mesh wrong_data = Ok tt /\
  num D3 tetra = 1 /\ CheckMeshGeometricData2D exact (DataConfig false false true false ([], []) []) tetra wrong_data = Abort /\
  CheckMeshGeometricData2D exact (DataConfig false false true false ([], []) []) tetra (Data2D [] [] [Q2Qc 1] [] [] []) = Ok tt.
Proof. split_and!; vm_compute; reflexivity. Qed.

(** ** C84: solid meshes *)

(** The check accepts exactly the meshes described in CheckSpec.v. *)
Theorem C84_accepts : forall m, reachable m -> forall A k, (0 <= MinTolerance (geo A))%Qc -> (0 <= cfgTolerance1D (geo A))%Qc -> balanced m ->
  (forall c, active D3 m c = true -> edgy m c) ->
  CheckMesh3D A k m = Ok tt <-> solid_mesh A k m.
Proof. exact check_solid. Qed.
Print Assumptions C84_accepts.
(** The ends of the edges of a polyhedron of an accepted mesh are vertices of the polyhedron. *)
Theorem C84_ends : forall A k m c vs es e o t, reachable m -> balanced m -> solid_mesh A k m -> Solid_Cell2D_CheckEdges k = true ->
  Solid_Cell3D_CheckEdges k = true -> Solid_Cell3D_CheckFaces k = true ->
  active D3 m c = true -> RelRow V3 c m = Ok vs -> RelRow E3 c m = Ok es -> e ∈ es -> joins m e o t -> o ∈ vs /\ t ∈ vs.
Proof. exact solid_ends. Qed.
Print Assumptions C84_ends.
Example C84_nonvacuous : reachable tetra /\ balanced tetra /\ (forall c, edgy tetra c) /\ num D3 tetra = 1 /\ active D3 tetra 0 = true /\ solid_mesh exact all_3D tetra.
Proof.
  assert (R : reachable tetra) by apply tetra_reachable.
  assert (B : balanced tetra) by (apply balanced_check_ok; [exact R|vm_compute; reflexivity]).
  assert (E : forall c, edgy tetra c) by (apply edgy_check_ok; [exact R|vm_compute; reflexivity]).
  split; [exact R|]. split; [exact B|]. split; [exact E|]. split; [vm_compute; reflexivity|]. split; [vm_compute; reflexivity|].
  apply (proj1 (C84_accepts tetra R RefineWit.exact all_3D (proj1 exact_tolerances) (proj2 exact_tolerances) B (fun c _ => E c))). vm_compute. reflexivity.
Qed.

(** The check that the ends of the edges are vertices of the polyhedron does not see a missing vertex. *)
Definition edges_only : config3D := Config3D false false false false false false false true false.
Theorem C84_missing_vertex_refuted : exists A m vs es e o t, reachable m /\ CheckMesh3D A edges_only m = Ok tt /\ active D3 m 0 = true /\
  RelRow V3 0 m = Ok vs /\ RelRow E3 0 m = Ok es /\ e ∈ es /\ joins m e o t /\ t ∉ vs.
Proof.
  exists exact, tetra_open, [0; 1; 2]%N, [0; 1; 2; 3; 4; 5]%N, 0%N, 2%N, 3%N. split; [apply tetra_open_reachable|].
  split; [vm_compute; reflexivity|]. split; [vm_compute; reflexivity|]. split; [vm_compute; reflexivity|]. split; [vm_compute; reflexivity|].
  split; [by left|]. split; [left; split; vm_compute; reflexivity|].
  intros M. repeat (apply elem_of_cons in M as [M|M]; [discriminate|]). by apply elem_of_nil in M.
Qed.
Print Assumptions C84_missing_vertex_refuted.
(** An active edge is rejected because an edge which is not active has the same ends. *)
Theorem C84_inactive_edge_refuted : exists A m e f o t, reachable m /\ CheckMesh3D A all_3D m = Throw /\
  CheckMesh3D A (Config3D true false true true true true true true true) m = Ok tt /\
  e <> f /\ active D1 m e = true /\ active D1 m f = false /\ ends m e o t /\ ends m f o t /\
  forall g o' t', active D1 m g = true -> g <> e -> ends m g o' t' -> (o', t') <> (o, t) /\ (o', t') <> (t, o).
Proof.
  exists exact, tetra_twice, 6, 0, 2%N, 3%N. assert (R : reachable tetra_twice) by apply tetra_twice_reachable.
  split; [exact R|]. split; [vm_compute; reflexivity|]. split; [vm_compute; reflexivity|]. split; [discriminate|].
  split; [vm_compute; reflexivity|]. split; [vm_compute; reflexivity|]. split; [split; vm_compute; reflexivity|]. split; [split; vm_compute; reflexivity|].
  intros g o t AG NG EN. pose proof (active_lt _ _ _ AG) as L.
  assert (K : forallb (fun g => if active D1 tetra_twice g then if g =? 6 then true else
    match Cell1DOrigin g tetra_twice, Cell1DEnd g tetra_twice with Ok o, Ok t => negb ((o =? 2)%N && (t =? 3)%N) && negb ((o =? 3)%N && (t =? 2)%N) | _, _ => false end else true)
    (seq 0 (num D1 tetra_twice)) = true) by (vm_compute; reflexivity).
  rewrite forallb_forall in K. specialize (K g). rewrite <- elem_of_list_In, elem_of_seq in K. specialize (K ltac:(lia)).
  rewrite AG in K. apply Nat.eqb_neq in NG. rewrite NG in K. destruct EN as [E1 E2]. rewrite E1, E2 in K. clear - K.
  split; intros [= -> ->]; done.
Qed.
Print Assumptions C84_inactive_edge_refuted.
