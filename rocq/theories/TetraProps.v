(** * Property C108: the tetrahedra over the triangles of the faces of a polyhedron.  Property C109: the vertices for a coordinate system. *)
From Coq Require Import QArith Qcanon.
From Verif Require Import Base BaseProof FillModel PolyModel FacetModel FacetSpec FacetProof FacetProps TetraModel TetraSpec TetraProof.
Local Open Scope nat_scope.

(** There is one tetrahedron for each triangle of each face, in order, with the vertices of the triangle and the point inside the polyhedron; its
    points are those with these numbers in the list of the vertices followed by the point inside. *)
Theorem C108_tetrahedra {P} (vertices : list P) (inner : P) faces triples : length faces = length triples ->
  Forall (Forall (fun x : nat * nat => x.1 < length vertices)) faces ->
  Forall2 (fun face => Forall (fun '(a, b, c) => a < length face /\ b < length face /\ c < length face)) faces triples ->
  exists quads pts, PolyhedronTetrahedronsByFaceTriangulations vertices faces (flat_triangles triples) = Ok (concat quads) /\
    ExtractTetrahedronPoints vertices inner (concat quads) = Ok pts /\
    Forall2 (tetra_ids (length vertices)) (all_triangles faces triples) quads /\ Forall2 (points_of (vertices ++ [inner])) quads pts.
Proof. exact (tetra_ok vertices inner faces triples). Qed.
Print Assumptions C108_tetrahedra.

(** With a point inside each face: that point takes the place of the first vertex of the triangle. *)
Theorem C108_inner {P} (vertices inside : list P) (inner : P) faces triples : length faces = length triples ->
  Forall (Forall (fun x : nat * nat => x.1 < length vertices)) faces ->
  Forall2 (fun face => Forall (fun '(a, b, c) => b < length face /\ c < length face)) faces triples ->
  length faces <= length inside ->
  exists quads pts, PolyhedronTetrahedronsByFaceTriangulations_inner vertices inside faces (flat_triangles triples) = Ok (concat quads) /\
    ExtractTetrahedronPoints_inner vertices inner inside (concat quads) = Ok pts /\
    Forall2 (tetra_ids_inner (length vertices) (length inside)) (all_triangles faces triples) quads /\
    Forall2 (points_of (vertices ++ inside ++ [inner])) quads pts.
Proof. exact (tetra_inner_ok vertices inside inner faces triples). Qed.
Print Assumptions C108_inner.

(** When the triangles are those which the library makes around a point inside each face, there is one tetrahedron for each side of each face. *)
Theorem C108_cone {P} (vertices inside : list P) (inner : P) faces triangulations :
  Forall (Forall (fun x : nat * nat => x.1 < length vertices)) faces -> length faces <= length inside ->
  Forall2 (fun (face : list (nat * nat)) t => exists vs, length vs = length face /\ PolygonTriangulationByInternalPoint vs = Ok t) faces triangulations ->
  exists quads pts, PolyhedronTetrahedronsByFaceTriangulations_inner vertices inside faces triangulations = Ok (concat quads) /\
    ExtractTetrahedronPoints_inner vertices inner inside (concat quads) = Ok pts /\
    Forall2 (tetra_ids_inner (length vertices) (length inside)) (all_triangles faces (cone_triples <$> faces)) quads /\
    Forall2 (points_of (vertices ++ inside ++ [inner])) quads pts.
Proof.
  intros FV LI H. rewrite (cone_flat faces triangulations H). apply C108_inner; [by rewrite fmap_length|exact FV|apply cone_in|exact LI].
Qed.
Print Assumptions C108_cone.

(** The pyramid, whose base has two triangles. *)
Definition pyramid_triples : list (list (nat * nat * nat)) := [[(0, 1, 2); (0, 2, 3)]; [(0, 1, 2)]; [(0, 1, 2)]; [(0, 1, 2)]; [(0, 1, 2)]].
Example C108_nonvacuous : length (ph_faces pyramid_built) = length pyramid_triples /\
  Forall (Forall (fun x : nat * nat => x.1 < length (ph_vertices pyramid_built))) (ph_faces pyramid_built) /\
  Forall2 (fun face => Forall (fun '(a, b, c) => a < length face /\ b < length face /\ c < length face)) (ph_faces pyramid_built) pyramid_triples /\
  flat_triangles pyramid_triples = [[0; 1; 2; 0; 2; 3]; [0; 1; 2]; [0; 1; 2]; [0; 1; 2]; [0; 1; 2]] /\
  PolyhedronTetrahedronsByFaceTriangulations (ph_vertices pyramid_built) (ph_faces pyramid_built) (flat_triangles pyramid_triples) =
    Ok [0; 1; 2; 5; 0; 2; 3; 5; 3; 2; 4; 5; 2; 1; 4; 5; 1; 0; 4; 5; 0; 3; 4; 5] /\
  ExtractTetrahedronPoints_inner (ph_vertices pyramid_built) 7 [1; 2; 3; 4; 5] [5; 1; 2; 10; 9; 3; 4; 10] = Ok [[1; 102; 101; 7]; [5; 100; 105; 7]].
Proof.
  split; [done|]. split; [repeat constructor; cbn; lia|]. split; [repeat constructor; cbn; lia|]. split; [done|]. split; vm_compute; reflexivity.
Qed.

Example C108_cone_nonvacuous : exists triangulations,
  Forall2 (fun (face : list (nat * nat)) t => exists vs, length vs = length face /\ PolygonTriangulationByInternalPoint vs = Ok t) (ph_faces pyramid_built) triangulations /\
  triangulations !! 0 = Some [4; 0; 1; 4; 1; 2; 4; 2; 3; 4; 3; 0] /\ length triangulations = 5.
Proof.
  exists (flat_triangles (cone_triples <$> ph_faces pyramid_built)). split; [|split; reflexivity].
  pose (o := (0%Qc, 0%Qc, 0%Qc) : vec3).
  repeat (constructor; [(exists [o; o; o; o]; split; [reflexivity|reflexivity]) || (exists [o; o; o]; split; [reflexivity|reflexivity])|]). constructor.
Qed.

(** Vertex 0 and the other ends of the first three edges at it are returned, and the assertion fails exactly when there are not three; if no edge is
    there twice and none joins a vertex with itself, the four vertices are different. *)
Theorem C109_coordinates edges : (forall l, PolyhedronCoordinateSystem edges = Ok l <-> first_three edges l) /\
  (PolyhedronCoordinateSystem edges = Abort <-> length (filter (fun x : nat * nat => x.1 = 0 \/ x.2 = 0) edges) < 3) /\
  (Forall (fun x : nat * nat => x.1 <> x.2) edges -> (forall e e' v w, edge_joins edges e v w -> edge_joins edges e' v w -> e = e') ->
    forall l, PolyhedronCoordinateSystem edges = Ok l -> NoDup l).
Proof.
  split; [exact (proj1 (coordinate_ok edges))|]. split; [exact (proj2 (coordinate_ok edges))|]. intros LO ON l E.
  apply (coordinate_distinct edges l LO ON). by apply (proj1 (coordinate_ok edges)).
Qed.
Print Assumptions C109_coordinates.
Example C109_nonvacuous : Forall (fun x : nat * nat => x.1 <> x.2) (ph_edges pyramid_built) /\
  (forall e e' v w, edge_joins (ph_edges pyramid_built) e v w -> edge_joins (ph_edges pyramid_built) e' v w -> e = e') /\
  PolyhedronCoordinateSystem (ph_edges pyramid_built) = Ok [0; 1; 3; 4] /\ PolyhedronCoordinateSystem [(0, 1); (1, 2); (2, 0)] = Abort.
Proof.
  split; [repeat constructor; cbn; lia|]. split; [|split; vm_compute; reflexivity].
  destruct (build_spec (fun l => reverse l) (fun l => l) (fun l => reverse_Permutation l) (fun l => Permutation_refl l) pyramid_points pyramid_facets pyramid_in) as (p & E & H).
  assert (p = pyramid_built) as ->. { assert (pyramid = Ok p) as E' by exact E. assert (pyramid = Ok pyramid_built) as E2 by (vm_compute; reflexivity). congruence. }
  exact (po_once _ _ _ H).
Qed.
