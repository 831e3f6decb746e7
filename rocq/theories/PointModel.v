(** * Points, segments and convex polygons: Geometry/GeometryUtilities.hpp and Geometry/GeometryUtilities_Point.cpp, in exact
    rational arithmetic.

    A matrix of points (size 3 x n) is the list of its columns.  Norms are square roots, so a comparison of a norm with a
    tolerance is modelled by the comparison of the squares, which decides the same thing: both sides are not negative.  [x / 0 =
    0] in [Qc]; Eigen's [normalized] leaves the zero vector unchanged, which agrees with it.  Only PointCurvilinearCoordinate
    of a segment whose two ends coincide differs (NaN in the code): the theorems ask for distinct ends. *)
From Coq Require Import QArith Qcanon.
From Verif Require Import Base QcTac FillModel GeoModel MapModel.
Local Open Scope Qc_scope.

(** Eigen's [cross] and [squaredNorm]. *)
Definition vcross (u v : vec3) : vec3 :=
  (u.1.2 * v.2 - u.2 * v.1.2, u.2 * v.1.1 - u.1.1 * v.2, u.1.1 * v.1.2 - u.1.2 * v.1.1).
Definition norm2 (u : vec3) : Qc := vdot u u.

(** [max_tolerance] of CompareValues, GeometryUtilities.cpp:163. *)
Definition max_tolerance (g : geo_config) (tol : Qc) : Qc := qmax (qabs tol) (MinTolerance g).
(** [IsValueZero(x, tol)] for the norm [x] whose square is [q]: GeometryUtilities.hpp:891-894 and GeometryUtilities.cpp:161-173
    with the first value 0, for which [relativeValue] is 1. *)
Definition norm_zero (g : geo_config) (q tol : Qc) : bool := qle q (max_tolerance g tol * max_tolerance g tol).
(** [IsValuePositive(x, tol)] for the quotient [x] of [num] by a square root whose square is [den2]. *)
Definition quotient_positive (g : geo_config) (num den2 tol : Qc) : bool :=
  qlt 0 num && qlt (max_tolerance g tol * max_tolerance g tol) (num * num / den2).
(** [IsValueNegative(x, tol)] for the same quotient. *)
Definition quotient_negative (g : geo_config) (num den2 tol : Qc) : bool :=
  qlt num 0 && qlt (max_tolerance g tol * max_tolerance g tol) (num * num / den2).

(** Tolerance1DSquared, GeometryUtilities.hpp:802-806. *)
Definition Tolerance1DSquared (g : geo_config) : Qc :=
  qmax (MinTolerance g * MinTolerance g) (cfgTolerance1D g * cfgTolerance1D g).

(** PointsAre2D, GeometryUtilities.hpp:1058-1062; Eigen's [isZero(prec)] asks [|z| <= prec] of every coefficient. *)
Definition PointsAre2D (g : geo_config) (ps : list vec3) : outcome bool :=
  require (negb (length ps =? 0)%nat) ≫= fun _ => Ok (forallb (fun p => qle (qabs p.2) (cfgTolerance1D g)) ps).

(** ** Bounding boxes *)

(** Eigen's [minCoeff] and [maxCoeff] of a row; the row is not empty (an Eigen assertion, active in debug builds only). *)
Definition qmin (x y : Qc) : Qc := if qlt y x then y else x.
Definition min_coeff (l : list Qc) : outcome Qc := match l with x :: l => Ok (foldl qmin x l) | [] => UB end.
Definition max_coeff (l : list Qc) : outcome Qc := match l with x :: l => Ok (foldl qmax x l) | [] => UB end.
(** PointsBoundingBox, GeometryUtilities_Point.cpp:49-61: the two columns of the result. *)
Definition PointsBoundingBox (ps : list vec3) : outcome (vec3 * vec3) :=
  x0 ← min_coeff ((fun p : vec3 => p.1.1) <$> ps); x1 ← max_coeff ((fun p : vec3 => p.1.1) <$> ps);
  y0 ← min_coeff ((fun p : vec3 => p.1.2) <$> ps); y1 ← max_coeff ((fun p : vec3 => p.1.2) <$> ps);
  z0 ← min_coeff ((fun p : vec3 => p.2) <$> ps); z1 ← max_coeff ((fun p : vec3 => p.2) <$> ps);
  Ok ((x0, y0, z0), (x1, y1, z1)).
(** IsPointInBoundingBox, GeometryUtilities.hpp:995-1003. *)
Definition IsPointInBoundingBox (g : geo_config) (p : vec3) (b : vec3 * vec3) : bool :=
  let t := Tolerance1D g in
  (IsValueGreaterOrEqual g p.1.1 b.1.1.1 t && IsValueGreaterOrEqual g b.2.1.1 p.1.1 t) &&
  (IsValueGreaterOrEqual g p.1.2 b.1.1.2 t && IsValueGreaterOrEqual g b.2.1.2 p.1.2 t) &&
  (IsValueGreaterOrEqual g p.2 b.1.2 t && IsValueGreaterOrEqual g b.2.2 p.2 t).
(** BoundingBoxesIntersects, GeometryUtilities.hpp:1005-1013. *)
Definition BoundingBoxesIntersects (g : geo_config) (b1 b2 : vec3 * vec3) : bool :=
  let t := Tolerance1D g in
  IsValueLowerOrEqual g b1.1.1.1 b2.2.1.1 t && IsValueGreaterOrEqual g b1.2.1.1 b2.1.1.1 t &&
  IsValueLowerOrEqual g b1.1.1.2 b2.2.1.2 t && IsValueGreaterOrEqual g b1.2.1.2 b2.1.1.2 t &&
  IsValueLowerOrEqual g b1.1.2 b2.2.2 t && IsValueGreaterOrEqual g b1.2.2 b2.1.2 t.

(** ** Points and segments *)

(** PointsAreOnLine for one point, GeometryUtilities_Point.cpp:655-673; PointIsAligned, GeometryUtilities.hpp:1962-1965: the
    cross product of the normalized vectors. *)
Definition sine2 (u v : vec3) : Qc := norm2 (vcross u v) / (norm2 u * norm2 v).
Definition PointIsAligned (g : geo_config) (o e p : vec3) : bool :=
  norm_zero g (sine2 (vsub e o) (vsub p o)) (Tolerance1D g).

(** UnalignedPoints with [numDesiredUnalignedPoints = 0], GeometryUtilities_Point.cpp:708-733. *)
Definition vnth (ps : list vec3) (i : nat) : vec3 := nth i ps (0, 0, 0).
Definition UnalignedPoints (g : geo_config) (ps : list vec3) : outcome (list nat) :=
  let n := length ps in
  require (1 <? n)%nat ≫= fun _ =>
  if (n =? 2)%nat then Ok [0; 1]%nat
  else Ok (filter (fun p => PointIsAligned g (vnth ps (if (p =? 0)%nat then n - 1 else p - 1)) (vnth ps p)
                              (vnth ps ((p + 1) mod n)) = false) (seq 0 n)).

(** PointCurvilinearCoordinate, GeometryUtilities.hpp:1069-1089. *)
Definition PointCurvilinearCoordinate (p o e : vec3) : Qc := vdot (vsub p o) (vsub e o) / norm2 (vsub e o).

(** PointSegmentPositionTypes, GeometryUtilities.hpp:67-77 ([Unknown] is never a result). *)
Inductive segment_position :=
| OnSegmentLineBeforeOrigin | OnSegmentOrigin | InsideSegment | OnSegmentEnd | OnSegmentLineAfterEnd
| RightTheSegment | LeftTheSegment.
Global Instance segment_position_eq_dec : EqDecision segment_position.
Proof. solve_decision. Defined.

(** PointSegmentPosition of a curvilinear coordinate, GeometryUtilities_Point.cpp:141-159. *)
Definition CoordinatePosition (g : geo_config) (c : Qc) : outcome segment_position :=
  let t := Tolerance1D g in
  if IsValueZero g c t then Ok OnSegmentOrigin
  else if bool_decide (CompareValues g 1 c t = Coincident) then Ok OnSegmentEnd
  else if IsValuePositive g c t && bool_decide (CompareValues g 1 c t = SecondBeforeFirst) then Ok InsideSegment
  else if IsValueNegative g c t then Ok OnSegmentLineBeforeOrigin
  else if bool_decide (CompareValues g 1 c t = FirstBeforeSecond) then Ok OnSegmentLineAfterEnd
  else Throw.

(** PointSegmentPosition of a point, GeometryUtilities_Point.cpp:113-139. *)
Definition PointSegmentPosition (g : geo_config) (p o e : vec3) : outcome segment_position :=
  let t := vsub e o in
  let d := vsub p o in
  let s := Tolerance1DSquared g in
  if IsValueZero g (norm2 d) s || IsValueZero g (sine2 d t) s
  then CoordinatePosition g (PointCurvilinearCoordinate p o e)
  else
    require (norm_zero g (t.2 * t.2 / norm2 t) (Tolerance1D g) && norm_zero g (d.2 * d.2 / norm2 d) (Tolerance1D g)) ≫= fun _ =>
    if quotient_positive g (d.1.1 * t.1.2 - d.1.2 * t.1.1) (norm2 d * norm2 t) s then Ok RightTheSegment
    else Ok LeftTheSegment.

(** PointPolygonPositionResult, GeometryUtilities.hpp:595-609 ([Unknown] is never a result of this function). *)
Inductive polygon_position := Outside | BorderEdge (i : nat) | BorderVertex (i : nat) | Inside.
Global Instance polygon_position_eq_dec : EqDecision polygon_position.
Proof. solve_decision. Defined.

(** PointPolygonPosition, GeometryUtilities_Point.cpp:253-300: the edges in turn. *)
Fixpoint polygon_position_loop (g : geo_config) (p : vec3) (vs : list vec3) (is : list nat) : outcome polygon_position :=
  match is with
  | [] => Ok Inside
  | v :: is =>
      r ← PointSegmentPosition g p (vnth vs v) (vnth vs ((v + 1) mod length vs));
      match r with
      | RightTheSegment => Ok Outside
      | InsideSegment => Ok (BorderEdge v)
      | OnSegmentOrigin => Ok (BorderVertex v)
      | OnSegmentEnd => Ok (BorderVertex ((v + 1) mod length vs))
      | _ => polygon_position_loop g p vs is
      end
  end.
Definition PointPolygonPosition (g : geo_config) (p : vec3) (vs : list vec3) : outcome polygon_position :=
  b ← PointsAre2D g [p];
  require ((2 <? length vs)%nat && b) ≫= fun _ => polygon_position_loop g p vs (seq 0 (length vs)).
(** IsPointInsidePolygon, GeometryUtilities.hpp:1399-1403. *)
Definition IsPointInsidePolygon (g : geo_config) (p : vec3) (vs : list vec3) : outcome bool :=
  r ← PointPolygonPosition g p vs; Ok (negb (bool_decide (r = Outside))).

(** ** Barycentric coordinates *)

(** PointToBarycentricCoordinates2D, GeometryUtilities_Point.cpp:675-695; [tol] is Tolerance2D(), GeometryUtilities.hpp:808-812,
    which involves the square root of 3. *)
Definition PointToBarycentricCoordinates2D (g : geo_config) (tol : Qc) (a b c p : vec3) : Qc * Qc * Qc :=
  let det := (a.1.1 - c.1.1) * (b.1.2 - c.1.2) - (b.1.1 - c.1.1) * (a.1.2 - c.1.2) in
  if IsValueZero g det tol then (0, 0, 0)
  else
    let l0 := 1 / det * ((b.1.2 - c.1.2) * (p.1.1 - c.1.1) - (p.1.2 - c.1.2) * (b.1.1 - c.1.1)) in
    let l1 := 1 / det * ((p.1.2 - c.1.2) * (a.1.1 - c.1.1) - (a.1.2 - c.1.2) * (p.1.1 - c.1.1)) in
    (l0, l1, 1 - l0 - l1).
(** BarycentricCoordinatesToPoint2D, GeometryUtilities_Point.cpp:697-706. *)
Definition BarycentricCoordinatesToPoint2D (a b c : vec3) (l : Qc * Qc * Qc) : vec3 :=
  ((a.1.1 - c.1.1) * l.1.1 + (b.1.1 - c.1.1) * l.1.2 + c.1.1, (a.1.2 - c.1.2) * l.1.1 + (b.1.2 - c.1.2) * l.1.2 + c.1.2, 0).
