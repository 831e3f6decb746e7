(** * Properties C15, C19, C51 and C52: building meshes and taking sub-meshes.

    [blank m]: [m] is reachable and has no cells.  Numbers of cells are 32-bit unsigned integers ([few]). *)
From Coq Require Import QArith Qcanon.
From Verif Require Import Base CsrModel MeshModel MeshSpec MeshHist UtilModel UtilSpec FillModel FillSpec FillProofB FillProofC FillProofF FillProofG FillProofH.
Local Open Scope nat_scope.

(** ** C15: filling stores exactly what it is given *)

Theorem C15_1D : forall m o t cs, blank m -> cs <> [] -> few (length cs) ->
  exists m', FillMesh1D o t cs m = Ok m' /\ reachable m' /\ mdim m' = 1 /\
    reads_back (line_points o t cs) (line_edges (length cs)) [] [] (fun _ _ => true) (line_mark (length cs)) m'.
Proof. exact fill1_ok. Qed.
Print Assumptions C15_1D.

Theorem C15_2D : forall m c0 c1 c2,
  blank m -> few (length c0) -> few (length c1) -> few (length c2) -> consistent c0 c1 c2 [] ->
  exists m', FillMesh2D c0 c1 c2 m = Ok m' /\ reachable m' /\ mdim m' = 2 /\
    reads_back c0 c1 c2 [] (fun _ _ => true) (fun _ _ => 0%N) m'.
Proof. exact fill2_ok. Qed.
Print Assumptions C15_2D.

Theorem C15_3D : forall m c0 c1 c2 c3,
  blank m -> few (length c0) -> few (length c1) -> few (length c2) -> few (length c3) -> consistent c0 c1 c2 c3 ->
  exists m', FillMesh3D c0 c1 c2 c3 m = Ok m' /\ reachable m' /\ mdim m' = 3 /\
    reads_back c0 c1 c2 c3 (fun _ _ => true) (fun _ _ => 0%N) m'.
Proof. exact fill3_ok. Qed.
Print Assumptions C15_3D.

(** Inconsistent input is rejected. *)
Theorem C15_reject_2D : forall m c0 c1 c2, blank m -> ~ consistent c0 c1 c2 [] -> FillMesh2D c0 c1 c2 m = Abort.
Proof. exact fill2_abort. Qed.
Print Assumptions C15_reject_2D.
Theorem C15_reject_3D : forall m c0 c1 c2 c3, blank m -> ~ consistent c0 c1 c2 c3 -> FillMesh3D c0 c1 c2 c3 m = Abort.
Proof. exact fill3_abort. Qed.
Print Assumptions C15_reject_3D.

Example C15_nonvacuous : blank empty_mesh /\ consistent w_points w_edges w_polygons [] /\
  ~ consistent w_points w_edges [[(0, 9)]]%N [] /\ consistent s_points s_edges s_polygons s_polyhedra /\
  (m ← FillMesh2D w_points w_edges w_polygons empty_mesh; shown m) =
  Ok [[[0; 0; 0]; [1; 0; 0]; [1; 1; 0]; [0; 1; 0]; [2; 0; 0]]; [[0; 1]; [1; 2]; [2; 3]; [3; 0]; [1; 4]; [4; 2]];
      [[0; 1; 2; 3]; [1; 4; 2]]; [[0; 1; 2; 3]; [4; 5; 1]]]%N.
Proof. exact (conj blank_empty (conj w_consistent (conj w_inconsistent (conj s_consistent w_shown)))). Qed.

(** ** C19: sub-meshes are faithful renamings *)

Theorem C19_1D : forall old m f0 f1,
  reachable old -> (forall d, few (num d old)) -> blank m ->
  good_filter D0 f0 old -> good_filter D1 f1 old -> closed_edges f0 f1 old ->
  exists m' t0 t1, ExtractMesh1D f0 f1 old m = Ok (m', (t0, t1)) /\ reachable m' /\ mdim m' = 1 /\
    renumbering (num D0 old) f0 t0 /\ renumbering (num D1 old) f1 t1 /\
    num D0 m' = length f0 /\ num D1 m' = length f1 /\ num D2 m' = 0 /\ num D3 m' = 0 /\
    taken_points f0 old m' /\ taken_edges f0 f1 old m' /\
    (forall d i, i < num d m' -> IsActive d i m' = Ok true /\ Marker d i m' = Ok 0%N).
Proof. exact extract1_ok. Qed.
Print Assumptions C19_1D.

Theorem C19_2D : forall old m f0 f1 f2,
  reachable old -> (forall d, few (num d old)) -> blank m ->
  good_filter D0 f0 old -> good_filter D1 f1 old -> good_filter D2 f2 old ->
  closed_edges f0 f1 old -> closed_rows V2 f2 f0 old -> closed_rows E2 f2 f1 old -> same_numbers f2 old ->
  exists m' t0 t1 t2, ExtractMesh2D f0 f1 f2 old m = Ok (m', (t0, t1, t2)) /\ reachable m' /\ mdim m' = 2 /\
    renumbering (num D0 old) f0 t0 /\ renumbering (num D1 old) f1 t1 /\ renumbering (num D2 old) f2 t2 /\
    num D0 m' = length f0 /\ num D1 m' = length f1 /\ num D2 m' = length f2 /\ num D3 m' = 0 /\
    taken_points f0 old m' /\ taken_edges f0 f1 old m' /\ taken_rows V2 f2 f0 old m' /\ taken_rows E2 f2 f1 old m' /\
    taken_marks D0 f0 old m' /\ taken_marks D1 f1 old m' /\ taken_marks D2 f2 old m'.
Proof. exact extract2_ok. Qed.
Print Assumptions C19_2D.

Theorem C19_3D : forall old m f0 f1 f2 f3,
  reachable old -> (forall d, few (num d old)) -> blank m ->
  good_filter D0 f0 old -> good_filter D1 f1 old -> good_filter D2 f2 old -> good_filter D3 f3 old ->
  closed_edges f0 f1 old -> closed_rows V2 f2 f0 old -> closed_rows E2 f2 f1 old -> same_numbers f2 old ->
  closed_rows V3 f3 f0 old -> closed_rows E3 f3 f1 old -> closed_rows F3 f3 f2 old ->
  exists m' t0 t1 t2 t3, ExtractMesh3D f0 f1 f2 f3 old m = Ok (m', (t0, t1, t2, t3)) /\ reachable m' /\ mdim m' = 3 /\
    renumbering (num D0 old) f0 t0 /\ renumbering (num D1 old) f1 t1 /\ renumbering (num D2 old) f2 t2 /\
    renumbering (num D3 old) f3 t3 /\
    num D0 m' = length f0 /\ num D1 m' = length f1 /\ num D2 m' = length f2 /\ num D3 m' = length f3 /\
    taken_points f0 old m' /\ taken_edges f0 f1 old m' /\ taken_rows V2 f2 f0 old m' /\ taken_rows E2 f2 f1 old m' /\
    taken_rows V3 f3 f0 old m' /\ taken_rows E3 f3 f1 old m' /\ taken_rows F3 f3 f2 old m' /\
    taken_marks D0 f0 old m' /\ taken_marks D1 f1 old m' /\ taken_marks D2 f2 old m' /\ taken_marks D3 f3 old m'.
Proof. exact extract3_ok. Qed.
Print Assumptions C19_3D.

(** The filters: the active cells of the list, and exactly what they mention in increasing order. *)
Theorem C19_filter_1D : forall m f1, reachable m -> Forall (fun o => (o < N.of_nat (num D1 m))%N) f1 ->
  exists l0, FilterMesh1D f1 m = Ok (l0, active_of D1 m f1) /\ ordered_set (end_of m (active_of D1 m f1)) l0.
Proof. exact filter1_ok. Qed.
Print Assumptions C19_filter_1D.
Theorem C19_filter_2D : forall m f2,
  reachable m -> Forall (fun o => (o < N.of_nat (num D2 m))%N) f2 -> same_numbers (active_of D2 m f2) m ->
  exists l0 l1, FilterMesh2D f2 m = Ok (l0, l1, active_of D2 m f2) /\
    ordered_set (mentioned V2 m (active_of D2 m f2)) l0 /\ ordered_set (mentioned E2 m (active_of D2 m f2)) l1.
Proof. exact filter2_ok. Qed.
Print Assumptions C19_filter_2D.
Theorem C19_filter_3D : forall m f3, reachable m -> Forall (fun o => (o < N.of_nat (num D3 m))%N) f3 ->
  exists l0 l1 l2, FilterMesh3D f3 m = Ok (l0, l1, l2, active_of D3 m f3) /\
    ordered_set (mentioned V3 m (active_of D3 m f3)) l0 /\ ordered_set (mentioned E3 m (active_of D3 m f3)) l1 /\
    ordered_set (mentioned F3 m (active_of D3 m f3)) l2.
Proof. exact filter3_ok. Qed.
Print Assumptions C19_filter_3D.

(** Filtering and extracting compose: the filters of complete cells meet the hypotheses of the extraction. *)
Theorem C19_filter_extract_1D : forall m new f1,
  reachable m -> (forall d, few (num d m)) -> blank new -> good_filter D1 f1 m ->
  Forall (fun e => forall v, end_of m [e] v -> (v < N.of_nat (num D0 m))%N) f1 ->
  exists l0 l1, FilterMesh1D f1 m = Ok (l0, l1) /\
    exists m' t, ExtractMesh1D l0 l1 m new = Ok (m', t) /\ num D1 m' = length (active_of D1 m f1).
Proof. exact filter_extract1. Qed.
Print Assumptions C19_filter_extract_1D.
Theorem C19_filter_extract_2D : forall m new f2,
  reachable m -> (forall d, few (num d m)) -> blank new -> good_filter D2 f2 m -> Forall (complete_polygon m) (active_of D2 m f2) ->
  exists l0 l1 l2, FilterMesh2D f2 m = Ok (l0, l1, l2) /\
    exists m' t, ExtractMesh2D l0 l1 l2 m new = Ok (m', t) /\ num D2 m' = length (active_of D2 m f2).
Proof. exact filter_extract2. Qed.
Print Assumptions C19_filter_extract_2D.
Theorem C19_filter_extract_3D : forall m new f3,
  reachable m -> (forall d, few (num d m)) -> blank new -> good_filter D3 f3 m -> Forall (complete_polyhedron m) (active_of D3 m f3) ->
  exists l0 l1 l2 l3, FilterMesh3D f3 m = Ok (l0, l1, l2, l3) /\
    exists m' t, ExtractMesh3D l0 l1 l2 l3 m new = Ok (m', t) /\ num D3 m' = length (active_of D3 m f3).
Proof. exact filter_extract3. Qed.
Print Assumptions C19_filter_extract_3D.

(** The triangle of the mesh of C15, with its points and edges in another order. *)
Example C19_nonvacuous : reachable w_mesh /\ (forall d, few (num d w_mesh)) /\ blank empty_mesh /\
  (good_filter D0 g0 w_mesh /\ good_filter D1 g1 w_mesh /\ good_filter D2 g2 w_mesh) /\
  (closed_edges g0 g1 w_mesh /\ closed_rows V2 g2 g0 w_mesh /\ closed_rows E2 g2 g1 w_mesh /\ same_numbers g2 w_mesh) /\
  (r ← ExtractMesh2D g0 g1 g2 w_mesh empty_mesh; s ← shown r.1; Ok (s, r.2)) =
  Ok ([[[1; 1; 0]; [2; 0; 0]; [1; 0; 0]]; [[2; 1]; [2; 0]; [1; 0]]; [[2; 1; 0]]; [[0; 2; 1]]],
      ([UINT_MAX; 2; 0; UINT_MAX; 1], [UINT_MAX; 1; UINT_MAX; UINT_MAX; 0; 2], [UINT_MAX; 0]))%N /\
  FilterMesh2D g2 w_mesh = Ok ([1; 2; 4], [1; 4; 5], [1])%N.
Proof. exact (conj w_reachable (conj w_few (conj blank_empty (conj w_good (conj w_closed (conj w_extracted w_filtered)))))). Qed.
Example C19_nonvacuous_1D : reachable l_mesh /\ good_filter D0 [0; 1]%N l_mesh /\ good_filter D1 [0]%N l_mesh /\ closed_edges [0; 1]%N [0]%N l_mesh.
Proof. exact (conj l_reachable l_good). Qed.
Example C19_nonvacuous_3D : reachable s_mesh /\ (forall d, few (num d s_mesh)) /\
  (good_filter D0 [0; 1; 2; 3]%N s_mesh /\ good_filter D1 [0; 1; 2; 3; 4; 5]%N s_mesh /\
   good_filter D2 [3; 2; 1; 0]%N s_mesh /\ good_filter D3 [0]%N s_mesh) /\
  (closed_edges [0; 1; 2; 3]%N [0; 1; 2; 3; 4; 5]%N s_mesh /\ closed_rows V2 [3; 2; 1; 0]%N [0; 1; 2; 3]%N s_mesh /\
   closed_rows E2 [3; 2; 1; 0]%N [0; 1; 2; 3; 4; 5]%N s_mesh /\ same_numbers [3; 2; 1; 0]%N s_mesh /\
   closed_rows V3 [0]%N [0; 1; 2; 3]%N s_mesh /\ closed_rows E3 [0]%N [0; 1; 2; 3; 4; 5]%N s_mesh /\
   closed_rows F3 [0]%N [3; 2; 1; 0]%N s_mesh) /\
  (r ← ExtractMesh3D [0; 1; 2; 3]%N [0; 1; 2; 3; 4; 5]%N [3; 2; 1; 0]%N [0]%N s_mesh empty_mesh; RelRow F3 0 r.1) =
  Ok [3; 2; 1; 0]%N.
Proof. exact (conj s_reachable (conj s_few (conj s_good (conj s_closed s_extracted)))). Qed.

(** ** C51: the mesh of a segment *)

(** The first point is right; the second one is the second vertex only if the first vertex is the origin. *)
Theorem C51_partial : forall m v0 v1 k0 k1 m', blank m -> Mesh1DFromSegment v0 v1 [k0; k1] m = Ok m' ->
  Cell0DCoordinates 0 m' = Ok (dbl3 v0) /\ (Cell0DCoordinates 1 m' = Ok (dbl3 v1) <-> v0 = (0%Qc, 0%Qc, 0%Qc)).
Proof. exact segment_ends. Qed.
Print Assumptions C51_partial.
Theorem C51_result_partial : forall m v0 v1 k0 k1, blank m ->
  exists m', Mesh1DFromSegment v0 v1 [k0; k1] m = Ok m' /\ reachable m' /\ mdim m' = 1 /\
    reads_back [dbl3 v0; dbl3 (along v0 v1 1%Qc)] [(0%N, 1%N)] [] [] (fun _ _ => true) (segment_mark k0 k1) m'.
Proof. exact segment_ok. Qed.
Print Assumptions C51_result_partial.
Theorem C51_refuted : exists m v0 v1 k0 k1 m', blank m /\ Mesh1DFromSegment v0 v1 [k0; k1] m = Ok m' /\
  Cell0DCoordinates 1 m' <> Ok (dbl3 v1).
Proof. exact segment_refuted. Qed.
Print Assumptions C51_refuted.

(** ** C52: extraction keeps markers and states in two and three dimensions; in one dimension it does not *)
Theorem C52_2D_partial : forall old m f0 f1 f2 m' t,
  reachable old -> (forall d, few (num d old)) -> blank m ->
  good_filter D0 f0 old -> good_filter D1 f1 old -> good_filter D2 f2 old ->
  closed_edges f0 f1 old -> closed_rows V2 f2 f0 old -> closed_rows E2 f2 f1 old -> same_numbers f2 old ->
  ExtractMesh2D f0 f1 f2 old m = Ok (m', t) ->
  taken_marks D0 f0 old m' /\ taken_marks D1 f1 old m' /\ taken_marks D2 f2 old m'.
Proof. exact extract2_marks. Qed.
Print Assumptions C52_2D_partial.
Theorem C52_3D_partial : forall old m f0 f1 f2 f3 m' t,
  reachable old -> (forall d, few (num d old)) -> blank m ->
  good_filter D0 f0 old -> good_filter D1 f1 old -> good_filter D2 f2 old -> good_filter D3 f3 old ->
  closed_edges f0 f1 old -> closed_rows V2 f2 f0 old -> closed_rows E2 f2 f1 old -> same_numbers f2 old ->
  closed_rows V3 f3 f0 old -> closed_rows E3 f3 f1 old -> closed_rows F3 f3 f2 old ->
  ExtractMesh3D f0 f1 f2 f3 old m = Ok (m', t) ->
  taken_marks D0 f0 old m' /\ taken_marks D1 f1 old m' /\ taken_marks D2 f2 old m' /\ taken_marks D3 f3 old m'.
Proof. exact extract3_marks. Qed.
Print Assumptions C52_3D_partial.
Theorem C52_1D_refuted : exists old m f0 f1 m' t,
  reachable old /\ blank m /\ good_filter D0 f0 old /\ good_filter D1 f1 old /\ closed_edges f0 f1 old /\
  ExtractMesh1D f0 f1 old m = Ok (m', t) /\ ~ taken_marks D0 f0 old m'.
Proof. exact extract1_marks_refuted. Qed.
Print Assumptions C52_1D_refuted.
