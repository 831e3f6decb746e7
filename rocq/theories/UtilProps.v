(** * Properties C14, C16, C17 and C50: utilities working on a mesh.

    [reachable m]: [m] is obtained from an empty mesh by successful calls whose unchecked preconditions hold
    (MeshHist.v).  Numbers of cells are stored in 32-bit unsigned integers, hence the bound by [UINT_MAX]. *)
From Verif Require Import Base CsrModel MeshModel MeshSpec MeshHist MeshWit UtilModel UtilSpec UtilProofC UtilProofD UtilProofE UtilProofF UtilProofG UtilProofH UtilProofI.

(** ** C14: extraction of the active mesh *)

Theorem C14_succeeds : forall m,
  reachable m -> (forall d, N.of_nat (num d m) <= UINT_MAX)%N ->
  exists m' dat, ExtractActiveMesh m no_active_data = Ok (m', dat) /\ reachable m'.
Proof. exact extract_succeeds. Qed.
Print Assumptions C14_succeeds.

(** The maps are inverse monotone bijections between the active cells and the cells of the extracted mesh. *)
Theorem C14_maps : forall m m' dat,
  reachable m -> (forall d, N.of_nat (num d m) <= UINT_MAX)%N -> ExtractActiveMesh m no_active_data = Ok (m', dat) ->
  forall d,
    (forall i j, old_to_new dat d !! i = Some j <-> i < num d m /\ IsActive d i m = Ok true /\ j = rank d m i) /\
    (forall i j, new_to_old dat d !! j = Some i <-> old_to_new dat d !! i = Some j) /\
    num d m' = rank d m (num d m) /\
    (forall j, (exists i, new_to_old dat d !! j = Some i) <-> j < num d m') /\
    (forall i j i' j', old_to_new dat d !! i = Some j -> old_to_new dat d !! i' = Some j' -> i < i' -> j < j').
Proof. exact extract_maps. Qed.
Print Assumptions C14_maps.

Theorem C14_attributes : forall m m' dat d i j,
  reachable m -> (forall d, N.of_nat (num d m) <= UINT_MAX)%N -> ExtractActiveMesh m no_active_data = Ok (m', dat) ->
  old_to_new dat d !! i = Some j ->
  Marker d j m' = Marker d i m /\ IsActive d j m' = Ok true /\
  (d = D0 -> Cell0DCoordinates j m' = Cell0DCoordinates i m) /\
  (forall p, PropSize d j p m' = PropSize d i p m) /\ (forall p k, PropValue d j p k m' = PropValue d i p k m).
Proof. exact extract_attributes. Qed.
Print Assumptions C14_attributes.

(** Vertices, edges, faces and neighbours.  The sub-divisions ([S2]) are copied without renumbering, see C04. *)
Theorem C14_references : forall m m' dat r i j,
  reachable m -> (forall d, N.of_nat (num d m) <= UINT_MAX)%N -> ExtractActiveMesh m no_active_data = Ok (m', dat) ->
  old_to_new dat (src r) !! i = Some j ->
  exists l l', RelRow r i m = Ok l /\ RelRow r j m' = Ok l' /\
    (r <> S2 -> Forall2 (ref_renamed (old_to_new dat (tgt r)) (tgt r) m') l l') /\ (r = S2 -> l' = l).
Proof. exact extract_rows. Qed.
Print Assumptions C14_references.

Theorem C14_end_points : forall m m' dat e e',
  reachable m -> (forall d, N.of_nat (num d m) <= UINT_MAX)%N -> ExtractActiveMesh m no_active_data = Ok (m', dat) ->
  old_to_new dat D1 !! e = Some e' ->
  exists o o' t t', Cell1DOrigin e m = Ok o /\ Cell1DOrigin e' m' = Ok o' /\ Cell1DEnd e m = Ok t /\ Cell1DEnd e' m' = Ok t' /\
    ref_renamed (old_to_new dat D0) D0 m' o o' /\ ref_renamed (old_to_new dat D0) D0 m' t t'.
Proof. exact extract_extremes. Qed.
Print Assumptions C14_end_points.

Theorem C14_origin : forall m m' dat d i j,
  reachable m -> (forall d, N.of_nat (num d m) <= UINT_MAX)%N -> ExtractActiveMesh m no_active_data = Ok (m', dat) ->
  d <> D0 -> old_to_new dat d !! i = Some j ->
  exists o o', Original d i m = Ok o /\ Original d j m' = Ok o' /\ ref_renamed (old_to_new dat d) d m' o o'.
Proof. exact extract_origin. Qed.
Print Assumptions C14_origin.

Theorem C14_replaced : forall m m' dat d i j,
  reachable m -> (forall d, N.of_nat (num d m) <= UINT_MAX)%N -> ExtractActiveMesh m no_active_data = Ok (m', dat) ->
  old_to_new dat d !! i = Some j ->
  forall k', replaced_by d m' j k' <-> exists k, old_to_new dat d !! k = Some k' /\ replaced_by d m i k.
Proof. exact extract_replaced. Qed.
Print Assumptions C14_replaced.

Theorem C14_filter : forall m d,
  reachable m -> FilterActiveMesh d m = Ok (filter (fun i => active d m i = true) (seq 0 (num d m))).
Proof. exact filter_active_ok. Qed.
Print Assumptions C14_filter.

(** The caller must provide empty maps: entries of a previous extraction are kept. *)
Theorem C14_reused_maps_refuted :
  exists m0 m m1 m' dat dat' i j,
    reachable m0 /\ ExtractActiveMesh m0 no_active_data = Ok (m1, dat) /\
    reachable m /\ ExtractActiveMesh m dat = Ok (m', dat') /\ IsActive D0 i m = Ok true /\
    old_to_new dat' D0 !! i = Some j /\ j <> rank D0 m i.
Proof. exact stale_maps. Qed.
Print Assumptions C14_reused_maps_refuted.

(** Two triangles; the first one, its own vertex and its own edges are inactive. *)
Example C14_nonvacuous :
  reachable (after w_part) /\
  okq w_part (RelRow V2 1) = Ok [1; 3; 2]%N /\ okq w_part (RelRow E2 1) = Ok [3; 4; 1]%N /\
  extracted w_part (fun s => (old_to_new s.2 D1 !! 3, new_to_old s.2 D1 !! 2, old_to_new s.2 D1 !! 0)) = Ok (Some 1, Some 4, None) /\
  extracted w_part (fun s => (num D0 s.1, num D1 s.1, num D2 s.1)) = Ok (3, 3, 1) /\
  extracted w_part (fun s => RelRow V2 0 s.1) = Ok (Ok [0; 2; 1]%N) /\
  extracted w_part (fun s => RelRow E2 0 s.1) = Ok (Ok [1; 2; 0]%N) /\
  extracted w_part (fun s => (Cell1DOrigin 2 s.1, Cell1DEnd 2 s.1, Marker D1 2 s.1)) = Ok (Ok 2%N, Ok 1%N, Ok 9%N) /\
  extracted w_part (fun s => Original D2 0 s.1) = Ok (Ok UINT_MAX).
Proof. split; [exact w_part_reachable|]. vm_compute. done. Qed.

(** ** C16: neighbours *)

Theorem C16_vertex_edges : forall m,
  reachable m -> valid_incidence R01 Cell1DExtremes m ->
  exists m', ComputeCell0DCell1DNeighbours m = Ok m' /\ reachable m' /\ neighbours_computed R01 Cell1DExtremes m m'.
Proof. exact neighbours_01. Qed.
Print Assumptions C16_vertex_edges.

Theorem C16_vertex_polygons : forall m,
  reachable m -> valid_incidence R02 (RelRow V2) m ->
  exists m', ComputeCell0DCell2DNeighbours m = Ok m' /\ reachable m' /\ neighbours_computed R02 (RelRow V2) m m'.
Proof. exact neighbours_02. Qed.
Print Assumptions C16_vertex_polygons.

Theorem C16_vertex_polyhedra : forall m,
  reachable m -> valid_incidence R03 (RelRow V3) m ->
  exists m', ComputeCell0DCell3DNeighbours m = Ok m' /\ reachable m' /\ neighbours_computed R03 (RelRow V3) m m'.
Proof. exact neighbours_03. Qed.
Print Assumptions C16_vertex_polyhedra.

Theorem C16_edge_polyhedra : forall m,
  reachable m -> valid_incidence R13 (RelRow E3) m ->
  exists m', ComputeCell1DCell3DNeighbours m = Ok m' /\ reachable m' /\ neighbours_computed R13 (RelRow E3) m m'.
Proof. exact neighbours_13. Qed.
Print Assumptions C16_edge_polyhedra.

Theorem C16_face_polyhedra : forall m,
  reachable m -> valid_incidence R23 (RelRow F3) m ->
  exists m', ComputeCell2DCell3DNeighbours m = Ok m' /\ reachable m' /\ neighbours_computed R23 (RelRow F3) m m'.
Proof. exact neighbours_23. Qed.
Print Assumptions C16_face_polyhedra.

Theorem C16_edge_polygons_space : forall m,
  reachable m -> mdim m = 3 -> valid_incidence R12 (RelRow E2) m ->
  exists m', ComputeCell1DCell2DNeighbours m = Ok m' /\ reachable m' /\ neighbours_computed R12 (RelRow E2) m m'.
Proof. exact neighbours_12_space. Qed.
Print Assumptions C16_edge_polygons_space.

(** In a plane mesh an edge has two slots: the polygon on its right and the polygon on its left. *)
Theorem C16_edge_polygons_plane : forall m,
  reachable m -> mdim m = 2 -> plane_polygons m -> (forall e, e < num D1 m -> RelNumber R12 e m = Ok 0%N) ->
  exists m', ComputeCell1DCell2DNeighbours m = Ok m' /\ reachable m' /\
    (forall e, e < num D1 m -> exists right left, RelRow R12 e m' = Ok [right; left] /\
       last_such (fun c => active D2 m c = true /\ runs_along m c e) left /\
       last_such (fun c => active D2 m c = true /\ has_edge m c e /\ ~ runs_along m c e) right) /\
    (forall r' j, r' <> R12 -> RelRow r' j m' = RelRow r' j m) /\ same_values m m' /\ same_props m m'.
Proof. exact neighbours_12_plane. Qed.
Print Assumptions C16_edge_polygons_plane.

(** Computing them a second time keeps the polygons which are not active any more. *)
Theorem C16_recompute_plane_refuted :
  exists m m' e c l, reachable m /\ mdim m = 2 /\ ComputeCell1DCell2DNeighbours m = Ok m' /\
    RelRow R12 e m' = Ok l /\ N.of_nat c ∈ l /\ IsActive D2 c m' = Ok false.
Proof. exact stale_neighbours. Qed.
Print Assumptions C16_recompute_plane_refuted.

Example C16_nonvacuous :
  reachable (after w_plane) /\ plane_polygons (after w_plane) /\
  (forall e, e < num D1 (after w_plane) -> RelNumber R12 e (after w_plane) = Ok 0%N) /\
  valid_incidence R01 Cell1DExtremes (after w_part) /\ valid_incidence R02 (RelRow V2) (after w_part) /\
  okq w_plane (fun m => m' ← ComputeCell1DCell2DNeighbours m; omapM (fun e => RelRow R12 e m') [0; 1; 3])
    = Ok [[UINT_MAX; 0]; [1; 0]; [UINT_MAX; 1]]%N /\
  okq w_part (fun m => m' ← ComputeCell0DCell1DNeighbours m; omapM (fun e => RelRow R01 e m') [0; 1; 2; 3])
    = Ok [[]; [1; 3]; [1; 4]; [3; 4]]%N /\
  okq w_part (fun m => m' ← ComputeCell0DCell2DNeighbours m; omapM (fun e => RelRow R02 e m') [0; 1; 2; 3])
    = Ok [[]; [1]; [1]; [1]]%N.
Proof. exact neighbours_examples. Qed.

(** ** C17: splitting *)

Theorem C17_edge : forall m parent subs,
  reachable m -> parent < num D1 m -> Forall (fun s => (s.1 < N.of_nat (num D0 m))%N /\ (s.2 < N.of_nat (num D0 m))%N) subs ->
  exists m', SplitCell1D parent subs m = Ok (m', seq (num D1 m) (length subs)) /\ reachable m' /\
    split_frame D1 parent (length subs) m m' /\ split_children D1 parent (length subs) m m' /\
    (forall c s, subs !! c = Some s -> Cell1DOrigin (num D1 m + c) m' = Ok s.1 /\ Cell1DEnd (num D1 m + c) m' = Ok s.2) /\
    inherited R12 parent (length subs) m m' /\ inherited R13 parent (length subs) m m' /\
    redirected R01 parent ((fun s => [s.1; s.2]) <$> subs) m m' /\
    (forall r i, r <> R01 -> i < num (src r) m -> RelRow r i m' = RelRow r i m).
Proof. exact split_edge. Qed.
Print Assumptions C17_edge.

Theorem C17_polygon : forall m parent subs,
  reachable m -> parent < num D2 m ->
  Forall (fun s => all_below (num D0 m) (s.*1) /\ all_below (num D1 m) (s.*2)) subs ->
  exists m', SplitCell2D parent subs m = Ok (m', seq (num D2 m) (length subs)) /\ reachable m' /\
    split_frame D2 parent (length subs) m m' /\ split_children D2 parent (length subs) m m' /\
    (forall c s, subs !! c = Some s ->
       RelRow V2 (num D2 m + c) m' = Ok (s.*1) /\ RelRow E2 (num D2 m + c) m' = Ok (s.*2) /\
       RelRow S2 (num D2 m + c) m' = Ok []) /\
    inherited R23 parent (length subs) m m' /\
    redirected R02 parent ((fun s => s.*1) <$> subs) m m' /\ redirected R12 parent ((fun s => s.*2) <$> subs) m m' /\
    (forall r i, r <> R02 -> r <> R12 -> i < num (src r) m -> RelRow r i m' = RelRow r i m).
Proof. exact split_polygon. Qed.
Print Assumptions C17_polygon.

Theorem C17_polyhedron : forall m parent vs es fs,
  reachable m -> parent < num D3 m -> length es = length vs -> length fs = length vs ->
  Forall (all_below (num D0 m)) vs -> Forall (all_below (num D1 m)) es -> Forall (all_below (num D2 m)) fs ->
  exists m', SplitCell3D parent vs es fs m = Ok (m', seq (num D3 m) (length vs)) /\ reachable m' /\
    split_frame D3 parent (length vs) m m' /\ split_children D3 parent (length vs) m m' /\
    (forall c v e f, vs !! c = Some v -> es !! c = Some e -> fs !! c = Some f ->
       RelRow V3 (num D3 m + c) m' = Ok v /\ RelRow E3 (num D3 m + c) m' = Ok e /\ RelRow F3 (num D3 m + c) m' = Ok f) /\
    redirected R03 parent vs m m' /\ redirected R13 parent es m m' /\ redirected R23 parent fs m m' /\
    (forall r i, r <> R03 -> r <> R13 -> r <> R23 -> i < num (src r) m -> RelRow r i m' = RelRow r i m).
Proof. exact split_polyhedron. Qed.
Print Assumptions C17_polyhedron.

Example C17_nonvacuous :
  reachable (after w_square) /\ 0 < num D2 (after w_square) /\
  Forall (fun s => all_below (num D0 (after w_square)) (s.*1) /\ all_below (num D1 (after w_square)) (s.*2)) two_triangles /\
  okq w_square show_polygons
    = Ok ([1; 2], [[1%N]; [1%N]; [1%N]; [2%N]],
          [[UINT_MAX; 1%N]; [UINT_MAX; 1%N]; [UINT_MAX; 2%N]; [UINT_MAX; 2%N]; [UINT_MAX; UINT_MAX]], 7%N) /\
  okq w_square show_edges
    = Ok ([5; 6], [[5%N; 3%N]; [6%N; 1%N]], [[UINT_MAX; 0%N]; [UINT_MAX; 0%N]], false).
Proof. exact split_examples. Qed.

Example C17_nonvacuous_polyhedron :
  reachable (after w_solid) /\ 0 < num D3 (after w_solid) /\ Forall (all_below (num D0 (after w_solid))) solid_vs /\
  Forall (all_below (num D1 (after w_solid))) solid_es /\ Forall (all_below (num D2 (after w_solid))) solid_fs /\
  okq w_solid show_solid
    = Ok ([2; 3], [[2%N; 1%N]; [2%N; UINT_MAX]; [2%N; UINT_MAX]; [3%N; UINT_MAX]], [2%N; 1%N], false, 5%N).
Proof. exact solid_example. Qed.

(** ** C50: neighbour lists after a split *)

(** No reference to the parent is left in the lists of the cells of the children, and none is lost. *)
Theorem C50_edge : forall m parent subs m' ids,
  reachable m -> parent < num D1 m -> Forall (fun s => (s.1 < N.of_nat (num D0 m))%N /\ (s.2 < N.of_nat (num D0 m))%N) subs ->
  SplitCell1D parent subs m = Ok (m', ids) -> references_replaced R01 parent ((fun s => [s.1; s.2]) <$> subs) m m'.
Proof. exact stale_edge. Qed.
Print Assumptions C50_edge.

Theorem C50_polygon : forall m parent subs m' ids,
  reachable m -> parent < num D2 m -> Forall (fun s => all_below (num D0 m) (s.*1) /\ all_below (num D1 m) (s.*2)) subs ->
  SplitCell2D parent subs m = Ok (m', ids) ->
  references_replaced R02 parent ((fun s => s.*1) <$> subs) m m' /\ references_replaced R12 parent ((fun s => s.*2) <$> subs) m m'.
Proof. exact stale_polygon. Qed.
Print Assumptions C50_polygon.

Theorem C50_polyhedron : forall m parent vs es fs m' ids,
  reachable m -> parent < num D3 m -> length es = length vs -> length fs = length vs ->
  Forall (all_below (num D0 m)) vs -> Forall (all_below (num D1 m)) es -> Forall (all_below (num D2 m)) fs ->
  SplitCell3D parent vs es fs m = Ok (m', ids) ->
  references_replaced R03 parent vs m m' /\ references_replaced R13 parent es m m' /\ references_replaced R23 parent fs m m'.
Proof. exact stale_polyhedron. Qed.
Print Assumptions C50_polyhedron.

(** The examples of C17 meet the hypotheses. *)
Example C50_nonvacuous :
  okq w_square show_square = Ok (3, [1%N], [0%N; 2%N; 3%N], true).
Proof. vm_compute. reflexivity. Qed.

(** But a vertex belonging to several children keeps only the first: complete lists do not stay complete. *)
Theorem C50_complete_refuted :
  exists m parent subs m' ids, reachable m /\ parent < num D2 m /\
    Forall (fun s => all_below (num D0 m) (s.*1) /\ all_below (num D1 m) (s.*2)) subs /\
    neighbours_complete R02 V2 m /\ SplitCell2D parent subs m = Ok (m', ids) /\ ~ neighbours_complete R02 V2 m'.
Proof. exact split_incomplete. Qed.
Print Assumptions C50_complete_refuted.
