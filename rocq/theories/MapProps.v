(** * Properties C41, C55, C56 and C57: maps from reference elements (exact arithmetic) *)
From Coq Require Import QArith Qcanon.
From Verif Require Import Base QcTac FillModel GeoModel MapModel MapSpec MapProof MapProofB MapProofC.
Local Open Scope Qc_scope.

(** ** C41: triangle, parallelogram, tetrahedron *)

(** The triangle lies in a plane of constant third coordinate. *)
Theorem C41_triangle : forall v0 v1 v2, level v0 v1 -> level v0 v2 -> twice_area [v0; v1; v2] <> 0 ->
  good_affine (MapTriangle v0 v1 v2) [(0, 0, 0); (1, 0, 0); (0, 1, 0)] [v0; v1; v2] (twice_area [v0; v1; v2]) /\
  forall p, in_reference_triangle p <-> convex_point [v0; v1; v2] (F1 (MapTriangle v0 v1 v2) p).
Proof. exact (fun v0 v1 v2 H1 H2 H => conj (triangle_ok v0 v1 v2 H1 H2 H) (triangle_image v0 v1 v2 H1 H2 H)). Qed.
Print Assumptions C41_triangle.

Theorem C41_parallelogram : forall v0 v1 v2 v3, level v0 v1 -> level v0 v3 -> v2 = vsub (vadd v1 v3) v0 ->
  twice_area [v0; v1; v3] <> 0 ->
  good_affine (MapParallelogram v0 v1 v2 v3) [(0, 0, 0); (1, 0, 0); (1, 1, 0); (0, 1, 0)] [v0; v1; v2; v3] (twice_area [v0; v1; v3]) /\
  twice_area [v0; v1; v2; v3] = (1 + 1) * twice_area [v0; v1; v3] /\
  forall p, in_reference_square p <-> convex_point [v0; v1; v2; v3] (F1 (MapParallelogram v0 v1 v2 v3) p).
Proof.
  exact (fun v0 v1 v2 v3 H1 H3 E H => conj (parallelogram_ok v0 v1 v2 v3 H1 H3 E H)
    (conj (eq_ind_r (fun w => twice_area [v0; v1; w; v3] = _) (parallelogram_area v0 v1 v3) E) (parallelogram_image v0 v1 v2 v3 H1 H3 E H))).
Qed.
Print Assumptions C41_parallelogram.

(** The map of a tetrahedron is always found and sends the reference vertices to the vertices in the given order. *)
Theorem C41_tetrahedron : forall g v0 v1 v2 v3, exists d, MapTetrahedron g [v0; v1; v2; v3] = Ok d /\
  F d [(0, 0, 0); (1, 0, 0); (0, 1, 0); (0, 0, 1)] = [v0; v1; v2; v3] /\
  (six_volume v0 v1 v2 v3 <> 0 ->
     good_affine d [(0, 0, 0); (1, 0, 0); (0, 1, 0); (0, 0, 1)] [v0; v1; v2; v3] (six_volume v0 v1 v2 v3)).
Proof. exact tetrahedron_ok. Qed.
Print Assumptions C41_tetrahedron.

Theorem C41_tetrahedron_image : forall g v0 v1 v2 v3 d, MapTetrahedron g [v0; v1; v2; v3] = Ok d -> six_volume v0 v1 v2 v3 <> 0 ->
  forall p, in_reference_tetrahedron p <-> convex_point [v0; v1; v2; v3] (F1 d p).
Proof. exact tetrahedron_image. Qed.
Print Assumptions C41_tetrahedron_image.

(** ** C55: parallelepiped *)

(** Whatever is returned sends the corners of the cube to the vertices up to the tolerance (sum of squared distances). *)
Theorem C55_within_tolerance : forall g vs cs d, MapParallelepiped g vs cs = Ok d ->
  length vs = 8%nat /\ distance2 vs (F d reference_cube) <= map_tolerance g * map_tolerance g /\
  has_differential (F1 d) (af_matrix d) /\
  (mdet (af_matrix d) <> 0 -> good_affine d reference_cube (F d reference_cube) (mdet (af_matrix d))).
Proof. exact parallelepiped_within. Qed.
Print Assumptions C55_within_tolerance.

(** A parallelepiped is mapped whatever the order in which the neighbours of its first vertex are given; exactly when they
    are in the order of the reference cube, or when no two edge vectors are as close as the tolerance. *)
Theorem C55_found : forall g o u v w c1 c2 c3, [c1; c2; c3] ≡ₚ [1; 3; 4]%nat ->
  exists d, MapParallelepiped g (box_vertices o u v w) [0%nat; c1; c2; c3] = Ok d /\
    distance2 (box_vertices o u v w) (F d reference_cube) <= map_tolerance g * map_tolerance g /\
    ((c1, c2, c3) = (1, 3, 4)%nat \/
     (forall x y, (x, y) ∈ [(u, v); (u, w); (v, w)] -> map_tolerance g * map_tolerance g < vdot (vsub x y) (vsub x y)) ->
     F d reference_cube = box_vertices o u v w).
Proof. exact parallelepiped_ok. Qed.
Print Assumptions C55_found.

(** ** C56: quadrilateral *)
Theorem C56_quadrilateral : forall a b c d,
  quad_F [a; b; c; d] reference_square = [a; b; c; d] /\
  (level a b -> level a c -> level a d -> partials (quad_F1 [a; b; c; d]) (quad_J1 [a; b; c; d]) [(e1, column1); (e2, column2)]) /\
  (forall p, in_reference_square p -> convex_point [a; b; c; d] (quad_F1 [a; b; c; d] p)) /\
  (forall p, mdet (quad_J1 [a; b; c; d] p) <> 0 -> inverses (quad_J1 [a; b; c; d] p) (quad_JInv1 [a; b; c; d] p)).
Proof.
  exact (fun a b c d => conj (quad_corners a b c d) (conj (quad_partials a b c d) (conj (quad_image a b c d) (quad_inverse a b c d)))).
Qed.
Print Assumptions C56_quadrilateral.

(** The determinant interpolates the areas of the corner triangles; it is positive on the whole reference square when the
    quadrilateral is convex, and its value in the centre is the area. *)
Theorem C56_determinant : forall a b c d,
  (forall x y z, quad_DetJ [a; b; c; d] [(x, y, z)] =
     [(1 - x) * (1 - y) * twice_area [d; a; b] + x * (1 - y) * twice_area [a; b; c] +
      x * y * twice_area [b; c; d] + y * (1 - x) * twice_area [c; d; a]]) /\
  (convex_quadrilateral a b c d -> forall p, in_reference_square p -> 0 < mdet (quad_J1 [a; b; c; d] p)) /\
  (1 + 1) * mdet (quad_J1 [a; b; c; d] (/ (1 + 1), / (1 + 1), 0)) = twice_area [a; b; c; d].
Proof.
  exact (fun a b c d => conj (fun x y z => f_equal (fun q => [q]) (quad_det a b c d x y z))
    (conj (fun H p => quad_positive a b c d p H) (quad_area a b c d))).
Qed.
Print Assumptions C56_determinant.

(** ** C57: hexahedron *)
Theorem C57_hexahedron : forall a b c d e f g h, let vs := [a; b; c; d; e; f; g; h] in
  hexa_F vs reference_cube = vs /\
  partials (hexa_F1 vs) (hexa_J1 vs) [(e1, column1); (e2, column2); (e3, column3)] /\
  (forall p, in_reference_cube p -> convex_point vs (hexa_F1 vs p)) /\
  (forall p, mdet (hexa_J1 vs p) <> 0 -> inverses (hexa_J1 vs p) (minv (hexa_J1 vs p))) /\
  (forall p, combine (hexa_coefficients vs) (monomials p) = hexa_F1 vs p).
Proof.
  exact (fun a b c d e f g h => conj (hexa_corners a b c d e f g h) (conj (hexa_partials a b c d e f g h)
    (conj (fun p => hexa_image a b c d e f g h p) (conj (fun p => hexa_inverse [a; b; c; d; e; f; g; h] p) (hexa_monomials a b c d e f g h))))).
Qed.
Print Assumptions C57_hexahedron.

(** The first face gives the first four corners; every vertex is the image of exactly one corner. *)
Theorem C57_corners : forall vs a b c d, length vs = 8%nat -> NoDup [a; b; c; d] ->
  (a < 8)%nat -> (b < 8)%nat -> (c < 8)%nat -> (d < 8)%nat ->
  exists ws, MapHexahedron vs [a; b; c; d] = Ok ws /\ hexa_F ws reference_cube = ws /\ ws ≡ₚ vs /\
    ws !! 0%nat = vs !! a /\ ws !! 1%nat = vs !! b /\ ws !! 2%nat = vs !! c /\ ws !! 3%nat = vs !! d.
Proof. exact hexahedron_ok. Qed.
Print Assumptions C57_corners.

(** With the first face in the order of the vertices the map is the given hexahedron; on a parallelepiped it is affine. *)
Theorem C57_straight : forall vs, length vs = 8%nat -> MapHexahedron vs [0; 1; 2; 3]%nat = Ok vs.
Proof. exact hexahedron_straight. Qed.
Print Assumptions C57_straight.

Theorem C57_parallelepiped : forall o u v w p,
  hexa_F1 (box_vertices o u v w) p = vadd (mapply (u, v, w) p) o /\ hexa_J1 (box_vertices o u v w) p = (u, v, w) /\
  mdet (u, v, w) = vdot (cross u v) w.
Proof. exact (fun o u v w p => conj (proj1 (hexa_box o u v w p)) (conj (proj2 (hexa_box o u v w p)) (box_det u v w))). Qed.
Print Assumptions C57_parallelepiped.

(** False in general: the four other vertices are taken in increasing order, so that with the same unit cube, and its first
    face listed from the opposite corner, the map is twisted and its Jacobian is singular in the centre. *)
Theorem C57_any_start_refuted :
  exists vs ws, vs = box_vertices (0, 0, 0) e1 e2 e3 /\ MapHexahedron vs [2; 3; 0; 1]%nat = Ok ws /\
    hexa_DetJ ws [(/ (1 + 1), / (1 + 1), / (1 + 1))] = [0] /\
    hexa_F ws [(0, 0, 0); (0, 0, 1)] = [(1, 1, 0); (0, 0, 1)].
Proof.
  eexists _, _. split; [reflexivity|]. split; [reflexivity|].
  split; vm_compute; repeat f_equal; by apply Qc_is_canon.
Qed.
Print Assumptions C57_any_start_refuted.

(** ** Concrete cases *)
Definition q (n : Z) : Qc := Q2Qc (inject_Z n).

Example C41_nonvacuous :
  let v0 := (q 1, q 1, q 5) in let v1 := (q 4, q 2, q 5) in let v2 := (q 2, q 7, q 5) in
  level v0 v1 /\ level v0 v2 /\ twice_area [v0; v1; v2] = q 17 /\ q 17 <> 0 /\
  F (MapTriangle v0 v1 v2) [(1, 0, 0); (Q2Qc (1 # 2), Q2Qc (1 # 2), 0)] = [v1; (q 3, Q2Qc (9 # 2), q 5)].
Proof.
  vm_compute. repeat split; try done; try by apply Qc_is_canon.
Qed.
Example C41_tetrahedron_nonvacuous :
  six_volume (q 0, q 0, q 0) (q 2, q 0, q 0) (q 0, q 3, q 0) (q 1, q 1, q 4) = q 24 /\ q 24 <> 0.
Proof. split; [vm_compute; by apply Qc_is_canon|done]. Qed.
(** The neighbours in another order: the second configuration is used. *)
Example C55_nonvacuous :
  let g := GeoConfig (Q2Qc (1 # 1000)) (Q2Qc (1 # 100)) in
  let vs := box_vertices (q 1, q 1, q 1) (q 2, q 0, q 0) (q 1, q 3, q 0) (q 0, q 1, q 4) in
  [4; 1; 3]%nat ≡ₚ [1; 3; 4]%nat /\
  (forall x y, (x, y) ∈ [((q 2, q 0, q 0), (q 1, q 3, q 0)); ((q 2, q 0, q 0), (q 0, q 1, q 4)); ((q 1, q 3, q 0), (q 0, q 1, q 4))] ->
     map_tolerance g * map_tolerance g < vdot (vsub x y) (vsub x y)) /\
  exists d, MapParallelepiped g vs [0; 4; 1; 3]%nat = Ok d /\ af_det d = q 24.
Proof.
  split; [vm_compute; solve_Permutation|]. split.
  - intros x y. rewrite !elem_of_cons, elem_of_nil.
    intros [[-> ->]%pair_equal_spec|[[-> ->]%pair_equal_spec|[[-> ->]%pair_equal_spec|[]]]]; vm_compute; done.
  - eexists. split; [vm_compute; reflexivity|]. vm_compute. by apply Qc_is_canon.
Qed.
Example C56_nonvacuous : convex_quadrilateral (q 0, q 0, q 0) (q 4, q 0, q 0) (q 3, q 2, q 0) (q 0, q 1, q 0).
Proof. repeat split; vm_compute; done. Qed.
