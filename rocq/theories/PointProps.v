(** * Positions of points, bounding boxes and barycentric coordinates: C62, C63, C64, C65. *)
From Coq Require Import QArith Qcanon.
From Verif Require Import Base QcTac FillModel GeoModel MapModel PointModel PointSpec PointProof.
Local Open Scope Qc_scope.

(** ** C62: position of a point with respect to a segment *)

(** With zero tolerance the answer is the true one, and the only one that is true. *)
Theorem C62_exact g p o e : exact g -> flat p -> flat o -> flat e -> o <> e ->
  exists r, PointSegmentPosition g p o e = Ok r /\ segment_position_spec p o e r /\
            forall r', segment_position_spec p o e r' -> r' = r.
Proof.
  intros X P O E N. destruct (segment_exact g p o e X P O E N) as (r & R & S). exists r. split; [exact R|]. split; [exact S|].
  intros r' S'. exact (segment_spec_unique p o e r' r N S' S).
Qed.
Print Assumptions C62_exact.
(** With any tolerance between 0 and 1 the call answers, left and right are never confused, and a point that is reported on the
    line is within the tolerance of it. *)
Theorem C62_tolerant g p o e : sane g -> flat p -> flat o -> flat e ->
  exists r, PointSegmentPosition g p o e = Ok r /\
  match r with
  | LeftTheSegment => 0 < orient o e p
  | RightTheSegment => orient o e p < 0
  | _ => let m := max_tolerance g (Tolerance1DSquared g) in
         let n := norm2 (vsub p o) in
         n <= m \/ orient o e p * orient o e p <= m * (n * norm2 (vsub e o))
  end.
Proof. exact (segment_tolerant g p o e). Qed.
Print Assumptions C62_tolerant.

Definition q2 (x y : Z) : vec3 := (Q2Qc (inject_Z x), Q2Qc (inject_Z y), 0).
Definition zero_tolerances : geo_config := GeoConfig 0 0.
Example C62_nonvacuous : exact zero_tolerances /\ sane zero_tolerances /\
  PointSegmentPosition zero_tolerances (q2 1 1) (q2 0 0) (q2 3 3) = Ok InsideSegment /\
  PointSegmentPosition zero_tolerances (q2 4 4) (q2 0 0) (q2 3 3) = Ok OnSegmentLineAfterEnd /\
  PointSegmentPosition zero_tolerances (q2 1 2) (q2 0 0) (q2 3 3) = Ok LeftTheSegment /\
  PointSegmentPosition (GeoConfig (Q2Qc (1 # 1000)) (Q2Qc (1 # 1000))) (q2 2 1) (q2 0 0) (q2 3 3) = Ok RightTheSegment.
Proof. split; [done|]. split; [by repeat split|]. repeat split; vm_compute; reflexivity. Qed.

(** ** C63: position of a point with respect to a convex polygon *)

(** A polygon without reflex corners, possibly with vertices inside its sides: the answer is a true one. *)
Theorem C63_position g p vs : exact g -> flat p -> (2 < length vs)%nat -> left_turning vs ->
  exists r, PointPolygonPosition g p vs = Ok r /\ polygon_position_spec p vs r.
Proof. exact (polygon_exact g p vs). Qed.
Print Assumptions C63_position.
(** If moreover no vertex is on the right of an edge (the polygon does not wind around twice), outside and inside are decided
    exactly, and the border is what remains. *)
Theorem C63_convex g p vs : exact g -> flat p -> (2 < length vs)%nat -> left_turning vs -> convex vs ->
  exists r, PointPolygonPosition g p vs = Ok r /\ polygon_position_spec p vs r /\
    (r = Outside <-> exists i, orient (corner vs i) (corner vs (S i)) p < 0) /\
    (r = Inside <-> forall i, 0 < orient (corner vs i) (corner vs (S i)) p).
Proof. exact (polygon_convex g p vs). Qed.
Print Assumptions C63_convex.

(** A square with a vertex in the middle of its first side: the point 3 of the line of this side is on its second half. *)
Definition square_with_node : list vec3 := [q2 0 0; q2 2 0; q2 4 0; q2 4 4; q2 0 4].
Lemma corner_cases vs (P : nat -> vec3 -> vec3 -> vec3 -> Prop) : vs <> [] ->
  (forall i, (i < length vs)%nat -> P i (corner vs i) (corner vs (S i)) (corner vs (S (S i)))) ->
  forall i, P (i mod length vs)%nat (corner vs i) (corner vs (S i)) (corner vs (S (S i))).
Proof.
  intros N H i. assert (length vs <> 0%nat) as L by (destruct vs; done).
  pose proof (H (i mod length vs)%nat (Nat.mod_upper_bound _ _ L)) as K.
  assert (forall j, corner vs (j + i mod length vs) = corner vs (j + i)) as E.
  { intros j. unfold corner. by rewrite Nat.add_mod_idemp_r. }
  pose proof (E 0%nat) as E0. pose proof (E 1%nat) as E1. pose proof (E 2%nat) as E2. cbn [Nat.add] in E0, E1, E2.
  by rewrite E0, E1, E2 in K.
Qed.
Example C63_nonvacuous : left_turning square_with_node /\ convex square_with_node /\
  PointPolygonPosition zero_tolerances (q2 3 0) square_with_node = Ok (BorderEdge 1) /\
  PointPolygonPosition zero_tolerances (q2 2 0) square_with_node = Ok (BorderVertex 1) /\
  PointPolygonPosition zero_tolerances (q2 5 0) square_with_node = Ok Outside /\
  PointPolygonPosition zero_tolerances (q2 1 1) square_with_node = Ok Inside.
Proof.
  split; [|split].
  - split; [by repeat constructor|]. split.
    + apply (corner_cases square_with_node (fun _ a b _ => a <> b)); [done|].
      intros i L. cbn in L. do 5 (destruct i as [|i]; [vm_compute; congruence|]). lia.
    + apply (corner_cases square_with_node (fun _ a b c => 0 < orient a b c \/ exists k, 1 < k /\ on_line a b k c)); [done|].
      intros i L. cbn in L. destruct i as [|i].
      { right. exists (Q2Qc (2 # 1)). split; [done|]. apply vec_eq; apply Qc_is_canon; vm_compute; reflexivity. }
      do 4 (destruct i as [|i]; [left; vm_compute; reflexivity|]). lia.
  - intros i j. revert i. apply (corner_cases square_with_node (fun _ a b _ => 0 <= orient a b (corner square_with_node j))); [done|].
    intros i L. unfold corner at 3.
    assert (j mod length square_with_node < 5)%nat as M by (apply Nat.mod_upper_bound; done).
    generalize dependent (j mod length square_with_node)%nat. intros k M. cbn in L.
    do 5 (destruct i as [|i]; [do 5 (destruct k as [|k]; [vm_compute; congruence|]); lia|]). lia.
  - repeat split; vm_compute; reflexivity.
Qed.

(** ** C64: bounding boxes *)

(** The box contains all the points and every other box which does. *)
Theorem C64_bounding_box ps : ps <> [] -> exists lo hi, PointsBoundingBox ps = Ok (lo, hi) /\
  (forall p, p ∈ ps -> in_box lo hi p) /\
  forall lo' hi', (forall p, p ∈ ps -> in_box lo' hi' p) -> in_box lo' hi' lo /\ in_box lo' hi' hi.
Proof. exact (bounding_box ps). Qed.
Print Assumptions C64_bounding_box.
(** Points of the box are never rejected, whatever the tolerance; with zero tolerance no other point is accepted. *)
Theorem C64_inside g p lo hi :
  (in_box lo hi p -> IsPointInBoundingBox g p (lo, hi) = true) /\
  (exact g -> IsPointInBoundingBox g p (lo, hi) = true -> in_box lo hi p).
Proof. exact (conj (in_bounding_box g p lo hi) (fun X => proj1 (in_bounding_box_exact g p lo hi X))). Qed.
Print Assumptions C64_inside.
(** Boxes with a common point are never reported as disjoint, whatever the tolerance; with zero tolerance two non-empty boxes
    reported to intersect have a common point. *)
Theorem C64_intersect g lo1 hi1 lo2 hi2 :
  ((exists p, in_box lo1 hi1 p /\ in_box lo2 hi2 p) -> BoundingBoxesIntersects g (lo1, hi1) (lo2, hi2) = true) /\
  (exact g -> (exists p, in_box lo1 hi1 p) -> (exists p, in_box lo2 hi2 p) ->
   BoundingBoxesIntersects g (lo1, hi1) (lo2, hi2) = true -> exists p, in_box lo1 hi1 p /\ in_box lo2 hi2 p).
Proof.
  split.
  - intros (p & A & B). exact (boxes_intersect g _ _ _ _ p A B).
  - intros X A B. exact (proj1 (boxes_intersect_exact g lo1 hi1 lo2 hi2 X A B)).
Qed.
Print Assumptions C64_intersect.

Example C64_nonvacuous :
  PointsBoundingBox [q2 3 1; q2 1 5; q2 2 0] = Ok (q2 1 0, q2 3 5) /\
  IsPointInBoundingBox zero_tolerances (q2 2 5) (q2 1 0, q2 3 5) = true /\
  IsPointInBoundingBox zero_tolerances (q2 2 6) (q2 1 0, q2 3 5) = false /\
  BoundingBoxesIntersects zero_tolerances (q2 1 0, q2 3 5) (q2 3 5, q2 7 9) = true /\
  BoundingBoxesIntersects zero_tolerances (q2 1 0, q2 3 5) (q2 3 6, q2 7 9) = false.
Proof. repeat split; vm_compute; reflexivity. Qed.

(** ** C65: barycentric coordinates *)

(** Whenever the triangle is not judged degenerate (its doubled area against [tol]): the coordinates are the areas of the
    triangles seen from the point divided by the area of the triangle, so they are not negative exactly for the points of the
    triangle; they lead back to the point; and coordinates with sum one are found again from their point. *)
Theorem C65_barycentric g tol a b c : IsValueZero g (orient a b c) tol = false ->
  (forall p, PointToBarycentricCoordinates2D g tol a b c p =
     (orient b c p / orient a b c, orient c a p / orient a b c, orient a b p / orient a b c)) /\
  (forall p, flat p -> BarycentricCoordinatesToPoint2D a b c (PointToBarycentricCoordinates2D g tol a b c p) = p) /\
  (forall l, l.1.1 + l.1.2 + l.2 = 1 ->
     PointToBarycentricCoordinates2D g tol a b c (BarycentricCoordinatesToPoint2D a b c l) = l).
Proof.
  intros Z. split; [exact (fun p => barycentric g tol a b c p Z)|].
  split; [exact (fun p => barycentric_round_trip g tol a b c p Z)|exact (fun l => barycentric_inverse g tol a b c l Z)].
Qed.
Print Assumptions C65_barycentric.
Example C65_nonvacuous : IsValueZero zero_tolerances (orient (q2 0 0) (q2 4 0) (q2 0 4)) 0 = false /\
  PointToBarycentricCoordinates2D zero_tolerances 0 (q2 0 0) (q2 4 0) (q2 0 4) (q2 1 2) =
    (Q2Qc (1 # 4), Q2Qc (1 # 4), Q2Qc (1 # 2)).
Proof. split; [vm_compute; reflexivity|]. apply vec_eq; apply Qc_is_canon; vm_compute; reflexivity. Qed.
