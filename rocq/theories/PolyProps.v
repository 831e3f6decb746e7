(** * Area, moments, triangulations, normal and orientation of polygons: C66, C67, C68, C69, C70, C71. *)
From Coq Require Import QArith Qcanon Sorted.
From Verif Require Import Base QcTac FillModel GeoModel MapModel PointModel PointSpec PointProof PolyModel PolySpec PolyProof
  TriProof EarProof ConvexProof NormalProof PointProps.
Local Open Scope Qc_scope.

(** ** C66: the area of a polygon *)

(** The sum of the signed areas of the triangles of every decomposition by diagonals. *)
Theorem C66_cuts g vs ts : accepted g vs -> cuts vs ts -> PolygonArea g vs = Ok (total_area ts).
Proof. exact (area_cuts g vs ts). Qed.
Print Assumptions C66_cuts.
(** The sum of the signed areas of the triangles from every point of the plane to the edges. *)
Theorem C66_fan g vs p : accepted g vs -> PolygonArea g vs = Ok (total_area (fan_closed p vs)).
Proof. exact (area_fan g vs p). Qed.
Print Assumptions C66_fan.
(** It does not depend on the first vertex. *)
Theorem C66_rotate g l m : accepted g (l ++ m) -> PolygonArea g (m ++ l) = PolygonArea g (l ++ m).
Proof. exact (area_rotate g l m). Qed.
Print Assumptions C66_rotate.
(** The opposite order has the opposite area. *)
Theorem C66_reverse g vs A : accepted g vs -> PolygonArea g vs = Ok A -> PolygonArea g (reverse vs) = Ok (- A).
Proof. exact (area_reverse g vs A). Qed.
Print Assumptions C66_reverse.
(** An affine map of the plane multiplies it by the determinant. *)
Theorem C66_map g vs A a b c d t : accepted g vs -> PolygonArea g vs = Ok A ->
  PolygonArea g (plane_map a b c d t <$> vs) = Ok ((a * d - b * c) * A).
Proof. exact (area_map g vs A a b c d t). Qed.
Print Assumptions C66_map.
(** Everything that is not a polygon of the plane is rejected. *)
Theorem C66_rejected g vs : ~ accepted g vs -> PolygonArea g vs = Abort.
Proof.
  intros N. unfold PolygonArea. destruct (require_polygon_cases g vs) as [E|E]; [by apply accepted_iff in E|]. by rewrite E.
Qed.
Print Assumptions C66_rejected.
(** The integral on the boundary gives the same area, with every rule on the edge that is exact for affine functions. *)
Theorem C66_boundary g vs ls ts ns ps ws A : accepted g vs -> PolygonArea g vs = Ok A ->
  length ls = length vs -> length ts = length vs -> length ns = length vs -> length ps = length ws ->
  qsum ws = 1 -> qdot ps ws = half ->
  (forall e, (e < length vs)%nat -> vnth ts e = vsub (vnth vs ((e + 1) mod length vs)) (vnth vs e) /\
     0 <= nth e ls 0 /\ nth e ls 0 * (vnth ns e).1.1 = (vnth ts e).1.2) ->
  PolygonAreaByBoundaryIntegral vs ls ts ns ps ws = Ok A.
Proof. exact (boundary_integral g vs ls ts ns ps ws A). Qed.
Print Assumptions C66_boundary.
(** The integral on the triangles of a decomposition gives the same area, if the triangles are counterclockwise. *)
Theorem C66_internal g vs ts ws : accepted g vs -> cuts vs ts -> Forall (fun t => 0 <= area t) ts -> qsum ws = half ->
  PolygonArea g vs = Ok (PolygonAreaByInternalIntegral ts ws).
Proof. intros A C P W. rewrite internal_integral, <- total_absolute by done. exact (area_cuts g vs ts A C). Qed.
Print Assumptions C66_internal.
(** In space: half of the length of the computed vector is the area of the polygon, times the factor of the plane. *)
Theorem C66_space g o u w vs A : Forall flat vs -> 0 <= cfgTolerance1D g -> PolygonArea g vs = Ok A ->
  PolygonCross3D (embed o u w <$> vs) = Ok (vscale (2 * A) (vcross u w)).
Proof. exact (cross3D_embed g o u w vs A). Qed.
Print Assumptions C66_space.

(** Checks of values. *)
Definition same (x y : vec3) : Prop := (this x.1.1 == this y.1.1 /\ this x.1.2 == this y.1.2 /\ this x.2 == this y.2)%Q.
Definition value_is (o : outcome Qc) (y : Qc) : Prop := match o with Ok x => (this x == this y)%Q | _ => False end.
Definition vector_is (o : outcome vec3) (y : vec3) : Prop := match o with Ok x => same x y | _ => False end.
(** A concave pentagon: the square of side 4 without the triangle of the center and the upper side. *)
Definition notched : list vec3 := [q2 0 0; q2 4 0; q2 4 4; q2 2 2; q2 0 4].
Example C66_nonvacuous : accepted zero_tolerances notched /\
  cuts notched [(q2 4 0, q2 4 4, q2 2 2); (q2 2 2, q2 0 4, q2 0 0); (q2 0 0, q2 4 0, q2 2 2)] /\
  value_is (PolygonArea zero_tolerances notched) (Q2Qc 12) /\
  value_is (PolygonArea zero_tolerances (reverse notched)) (Q2Qc (-12)) /\
  vector_is (PolygonCross3D (embed (q2 1 2) (1, 0, 0) (0, 0, 1) <$> notched)) (0, Q2Qc (-24), 0) /\
  PolygonArea zero_tolerances [q2 0 0; q2 1 0] = Abort.
Proof.
  split; [split; [cbn; lia|by repeat constructor]|]. split; [|repeat split; vm_compute; reflexivity].
  apply cuts_rotate. apply (cuts_diagonal (q2 4 0) [q2 4 4] (q2 2 2) [q2 0 4; q2 0 0] [(q2 4 0, q2 4 4, q2 2 2)]); try done.
  - apply cuts_triangle.
  - apply (cuts_diagonal (q2 2 2) [q2 0 4] (q2 0 0) [q2 4 0] [(q2 2 2, q2 0 4, q2 0 0)]); try done; apply cuts_triangle.
Qed.

(** ** C67: centroid, mass and inertia *)

(** The area times the centroid is the first moment of every decomposition. *)
Theorem C67_centroid g vs A c ts : accepted g vs -> PolygonArea g vs = Ok A -> A <> 0 -> PolygonCentroid g vs A = Ok c ->
  cuts vs ts \/ (exists p, ts = fan_closed p vs) -> A * c.1.1 = moment_x ts /\ A * c.1.2 = moment_y ts /\ c.2 = 0.
Proof. exact (centroid_moments g vs A c ts). Qed.
Print Assumptions C67_centroid.
Theorem C67_answers g vs A : accepted g vs -> exists c, PolygonCentroid g vs A = Ok c.
Proof. exact (centroid_ok g vs A). Qed.
Print Assumptions C67_answers.
(** The centroid moves with the polygon. *)
Theorem C67_map g vs A c a b d e t : accepted g vs -> PolygonArea g vs = Ok A -> A <> 0 -> a * e - b * d <> 0 ->
  PolygonCentroid g vs A = Ok c ->
  PolygonCentroid g (plane_map a b d e t <$> vs) ((a * e - b * d) * A) = Ok (plane_map a b d e t c).
Proof. exact (centroid_map g vs A c a b d e t). Qed.
Print Assumptions C67_map.
(** The entries of mass and inertia are the exact integrals, over the triangles, of the products of the coordinates with respect to
    the given point. *)
Theorem C67_mass (c : vec3) ts : let X (p : vec3) := p.1.1 - c.1.1 in let Y (p : vec3) := p.1.2 - c.1.2 in
  PolygonMass c ts = (sum_of (integral X X) ts, sum_of (integral X Y) ts, sum_of (integral Y Y) ts) /\
  PolygonInertia c ts = (sum_of (integral Y Y) ts, - sum_of (integral X Y) ts, sum_of (integral X X) ts).
Proof.
  intros X Y. assert (plane_affine X) as PX by (exists 1, 0, (- c.1.1); intros p; unfold X; ring).
  assert (plane_affine Y) as PY by (exists 0, 1, (- c.1.2); intros p; unfold Y; ring).
  unfold PolygonMass, PolygonInertia.
  rewrite <- (mass_integral_exact X X ts PX PX), <- (mass_integral_exact X Y ts PX PY), <- (mass_integral_exact Y Y ts PY PY). done.
Qed.
Print Assumptions C67_mass.
Example C67_nonvacuous : accepted zero_tolerances notched /\ value_is (PolygonArea zero_tolerances notched) (Q2Qc 12) /\
  vector_is (PolygonCentroid zero_tolerances notched (Q2Qc 12)) (Q2Qc 2, Q2Qc (14 # 9), 0) /\
  same (PolygonMass (q2 0 0) [(q2 0 0, q2 1 0, q2 0 1)]) (Q2Qc (1 # 12), Q2Qc (1 # 24), Q2Qc (1 # 12)).
Proof. split; [split; [cbn; lia|by repeat constructor]|]. repeat split; vm_compute; reflexivity. Qed.

(** ** C68: triangulations from a vertex and from a point *)

(** The triangles from the first vertex: their indices, and their total area. *)
Theorem C68_first_vertex g vs is : exact g -> Forall flat vs -> PolygonTriangulationByFirstVertex g vs = Ok is ->
  exists ks ts, Forall (fun k => (0 < k)%nat /\ (S k < length vs)%nat) ks /\ StronglySorted lt ks /\
    is = concat ((fun k => [0; k; S k]%nat) <$> ks) /\
    ExtractTriangulationPoints vs is = Ok ts /\ PolygonArea g vs = Ok (total_area ts) /\ (convex vs -> Forall (fun t => 0 < area t) ts).
Proof.
  intros X F E. destruct (first_vertex_indices g vs is E) as (ks & K1 & K2 & K3).
  destruct (first_vertex_area g vs is X F E) as (ts & T & A). exists ks, ts. split_and!; try done.
  intros C. exact (first_vertex_convex g vs is ts X F C E T).
Qed.
Print Assumptions C68_first_vertex.
Theorem C68_answers g vs : match PolygonTriangulationByFirstVertex g vs with
  | Ok _ => (2 < length vs)%nat | Abort => (length vs <= 2)%nat | _ => False end.
Proof.
  destruct (decide (2 < length vs)%nat) as [L|L]; [by rewrite first_vertex_closed|].
  unfold PolygonTriangulationByFirstVertex. destruct (Nat.ltb_spec 2 (length vs)); [lia|]. cbn. lia.
Qed.
Print Assumptions C68_answers.
(** From a point: one triangle for each edge. *)
Theorem C68_internal_point vs p : (2 < length vs)%nat -> exists is, PolygonTriangulationByInternalPoint vs = Ok is /\
  is = concat ((fun v => [length vs; v; ((v + 1) mod length vs)%nat]) <$> seq 0 (length vs)) /\
  ExtractTriangulationPointsByInternalPoint vs p is = Ok (fan_closed p vs) /\
  forall g, accepted g vs -> PolygonArea g vs = Ok (total_area (fan_closed p vs)).
Proof.
  intros L. destruct (internal_point vs p L) as (is & A & B & C). exists is. split_and!; try done. intros g. exact (area_fan g vs p).
Qed.
Print Assumptions C68_internal_point.
(** A convex pentagon, with one vertex in the middle of an edge from the first vertex. *)
Definition pentagon : list vec3 := [q2 0 0; q2 2 0; q2 4 0; q2 4 4; q2 0 4].
Example C68_nonvacuous : PolygonTriangulationByFirstVertex zero_tolerances pentagon = Ok [0; 2; 3; 0; 3; 4]%nat /\
  PolygonTriangulationByInternalPoint pentagon = Ok [5; 0; 1; 5; 1; 2; 5; 2; 3; 5; 3; 4; 5; 4; 0]%nat.
Proof. split; vm_compute; reflexivity. Qed.

(** ** C69: triangulation by ear clipping *)

(** For every polygon with distinct vertices: either the triangles are obtained by clipping ears one after the other, and have the
    area of the polygon, or the call stops because a polygon without ears, or with fewer than three corners, was reached. *)
Theorem C69_ears_partial g vs : exact g -> Forall flat vs -> NoDup vs ->
  match PolygonTriangulationByEarClipping g vs with
  | Ok is => exists ts, ExtractTriangulationPoints vs is = Ok ts /\ ears vs ts /\ PolygonArea g vs = Ok (total_area ts)
  | Abort => stuck vs
  | _ => False
  end.
Proof. exact (ear_clipping g vs). Qed.
Print Assumptions C69_ears_partial.
(** For every convex polygon it answers, with counterclockwise triangles, as many as the corners less two. *)
Theorem C69_convex_partial g vs : exact g -> (2 < length vs)%nat -> NoDup vs -> left_turning vs -> convex vs ->
  exists is ts, PolygonTriangulationByEarClipping g vs = Ok is /\ ExtractTriangulationPoints vs is = Ok ts /\ ears vs ts /\
    PolygonArea g vs = Ok (total_area ts) /\ Forall (fun t => 0 < area t) ts /\ (length ts + 2 = length (corners vs))%nat.
Proof. exact (ear_clipping_convex g vs). Qed.
Print Assumptions C69_convex_partial.
(** The triangles need not be conforming: for the concave pentagon above, the vertex 3, a real corner shared with the first
    triangle, is inside an edge of the second one. *)
Theorem C69_conforming_refuted : corners notched = notched /\
  PolygonTriangulationByEarClipping zero_tolerances notched = Ok [2; 3; 1; 0; 1; 4]%nat /\
  exists t, 0 < t /\ t < 1 /\ on_line (vnth notched 1) (vnth notched 4) t (vnth notched 3).
Proof.
  split; [|split].
  - assert (forall l m : list vec3, Forall2 same l m -> l = m) as Q.
    { induction 1 as [|x y l m (A & B & C) _ IH]; [done|]. f_equal; [|done]. by apply vec_eq; apply Qc_is_canon. }
    apply Q. vm_compute. repeat constructor.
  - vm_compute. reflexivity.
  - exists (Q2Qc (1 # 2)). split; [done|]. split; [done|]. apply vec_eq; apply Qc_is_canon; vm_compute; reflexivity.
Qed.
Print Assumptions C69_conforming_refuted.
Lemma square_node_dup : NoDup square_with_node.
Proof. apply (bool_decide_unpack _). vm_compute. done. Qed.
Example C69_nonvacuous : exact zero_tolerances /\ Forall flat notched /\ NoDup notched /\
  left_turning square_with_node /\ convex square_with_node /\ NoDup square_with_node /\
  PolygonTriangulationByEarClipping zero_tolerances square_with_node = Ok [0; 2; 4; 2; 3; 4]%nat.
Proof.
  split; [done|]. split; [by repeat constructor|]. split; [apply (bool_decide_unpack _); vm_compute; done|].
  split; [apply C63_nonvacuous|]. split; [apply C63_nonvacuous|]. split; [apply square_node_dup|]. vm_compute. reflexivity.
Qed.

(** ** C70: the normal *)

(** For a convex polygon of a plane of the space it is a positive multiple of the normal of the plane. *)
Theorem C70_convex o u w vs : (2 < length vs)%nat -> (N.of_nat (length vs) < 4294967296)%N -> NoDup vs -> left_turning vs -> convex vs ->
  exists k, 0 < k /\ PolygonNormal (embed o u w <$> vs) = Ok (vscale k (vcross u w)).
Proof. intros L B N LT C. exists (turns vs). split; [exact (turns_convex vs L B N LT C)|exact (normal_embed o u w vs L)]. Qed.
Print Assumptions C70_convex.
Example C70_nonvacuous : left_turning square_with_node /\ convex square_with_node /\ NoDup square_with_node /\
  vector_is (PolygonNormal (embed (q2 1 2) (1, 0, 0) (0, 0, 1) <$> square_with_node)) (0, Q2Qc (-40), 0).
Proof.
  split; [apply C63_nonvacuous|]. split; [apply C63_nonvacuous|]. split; [apply square_node_dup|]. vm_compute. split_and!; reflexivity.
Qed.
(** For a concave polygon it can be opposite: a star with four tips, counterclockwise around the origin. *)
Definition star : list vec3 := [q2 4 0; q2 1 1; q2 0 4; q2 (-1) 1; q2 (-4) 0; q2 (-1) (-1); q2 0 (-4); q2 1 (-1)].
Theorem C70_concave_refuted : Forall flat star /\ Forall (fun t => 0 < area t) (fan_closed (q2 0 0) star) /\
  exists k, k < 0 /\ PolygonNormal (embed (0, 0, 0) (1, 0, 0) (0, 1, 0) <$> star) = Ok (vscale k (vcross (1, 0, 0) (0, 1, 0))).
Proof.
  split; [by repeat constructor|]. split; [by repeat constructor|]. exists (turns star). split; [done|].
  exact (normal_embed (0, 0, 0) (1, 0, 0) (0, 1, 0) star ltac:(cbn; lia)).
Qed.
Print Assumptions C70_concave_refuted.

(** ** C71: the orientation *)

(** Indices in ascending order, from any of them on: counterclockwise; in descending order: clockwise. *)
Theorem C71_counterclockwise a b : ascending (a ++ b) -> (2 < length (a ++ b))%nat -> PolygonOrientation (b ++ a) = Ok CounterClockwise.
Proof. exact (orientation_ascending a b). Qed.
Print Assumptions C71_counterclockwise.
Theorem C71_clockwise a b : descending (a ++ b) -> (2 < length (a ++ b))%nat -> PolygonOrientation (b ++ a) = Ok Clockwise.
Proof. exact (orientation_descending a b). Qed.
Print Assumptions C71_clockwise.
Example C71_nonvacuous : ascending [0; 2; 5; 7]%N /\ PolygonOrientation [5; 7; 0; 2]%N = Ok CounterClockwise /\
  descending [7; 5; 2; 0]%N /\ PolygonOrientation [0; 7; 5; 2]%N = Ok Clockwise.
Proof. split_and!; [by repeat constructor|done|by repeat constructor|done]. Qed.
