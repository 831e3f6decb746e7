(** * Intersections of segments with segments and planes: Geometry/GeometryUtilities_Intersection.cpp ("GUI"), in exact rational
    arithmetic.

    Lengths are square roots: a comparison of lengths is modelled by comparisons of their squares which decide the same. *)
From Coq Require Import QArith Qcanon.
From Verif Require Import Base QcTac FillModel GeoModel MapModel PointModel.
Local Open Scope Qc_scope.

(** [IsValuePositive(std::abs(x), tol)] for the quotient [x] of [num] by a square root whose square is [den2]. *)
Definition abs_quotient_positive (g : geo_config) (num den2 tol : Qc) : bool :=
  qlt (max_tolerance g tol * max_tolerance g tol) (num * num / den2).

(** The determinant of the matrix with the columns [u], [v], [w]. *)
Definition det3 (u v w : vec3) : Qc := vdot u (vcross v w).

(** AreLineCoplanar, GUI 23-48. *)
Definition AreLineCoplanar (g : geo_config) (o1 t1 o2 t2 : vec3) : bool :=
  let s := Tolerance1DSquared g in
  let a := vsub o2 o1 in
  let c := vsub (vadd o2 t2) o1 in
  negb (IsValuePositive g (norm2 a) s && IsValuePositive g (norm2 c) s && IsValuePositive g (norm2 (vsub a t1)) s &&
        IsValuePositive g (norm2 (vsub c t1)) s &&
        abs_quotient_positive g (det3 a t1 c) (norm2 a * norm2 t1 * norm2 c) (Tolerance1D g)).

(** IntersectionSegmentSegmentResult, GeometryUtilities.hpp:326-366 (the values [Unknown] are never returned).  A position is a
    type with a curvilinear coordinate. *)
Inductive lines_type := OnDifferentPlanes | CoPlanarParallel | CoPlanarIntersecting.
Inductive segments_type := NoIntersection | SingleIntersection | MultipleIntersections.
Record segments_result := SegmentsResult {
  LinesType : lines_type;
  SegmentsType : segments_type;
  Relation : list nat;
  FirstIntersections : list (segment_position * Qc);
  SecondIntersections : list (segment_position * Qc)
}.

(** The test of parallelism, GUI 89-98: [d2] is the square of the cosine [d].  Since [|d| <= 1], the number [||d| - 1|] is
    [1 - |d|]. *)
Definition not_parallel (g : geo_config) (d2 : Qc) : bool :=
  let s := Tolerance1DSquared g in
  let m := max_tolerance g s in
  (qlt m 1 && qlt d2 ((1 - m) * (1 - m))) && IsValuePositive g (1 - d2) (s * s).

(** [IsValuePositive(d - (r1 + r2), tol)] for the distance [d] whose square is [d2] and the halves [r1], [r2] of lengths whose
    squares are [a] and [b], GUI 147-160; the square roots are removed one after the other. *)
Definition spheres_apart (g : geo_config) (d2 a b tol : Qc) : bool :=
  let t := max_tolerance g tol in
  let x := d2 + t * t - Q2Qc (1 # 4) * (a + b) in
  let y := x * x - Q2Qc 4 * (t * t) * d2 - Q2Qc (1 # 4) * (a * b) in
  qlt (t * t) d2 && qlt 0 x && qlt 0 y && qlt (Q2Qc 4 * (t * t) * (d2 * (a * b))) (y * y).

(** The point [o + c * t]. *)
Definition along (o t : vec3) (c : Qc) : vec3 := vadd o (vscale c t).

(** The intersections of segments on one line, GUI 162-244. *)
Definition sorted_pair (c0 c1 : Qc) : Qc * Qc := if qlt c1 c0 then (c1, c0) else (c0, c1).
Definition clip_first (g : geo_config) (c : Qc * Qc) : outcome (list (segment_position * Qc)) :=
  p0 ← CoordinatePosition g c.1;
  p1 ← CoordinatePosition g c.2;
  Ok [match p0 with OnSegmentLineBeforeOrigin | OnSegmentLineAfterEnd => (OnSegmentOrigin, 0) | _ => (p0, c.1) end;
      match p1 with OnSegmentLineAfterEnd => (OnSegmentEnd, 1) | _ => (p1, c.2) end].
Definition clip_second (g : geo_config) (c : Qc * Qc) : outcome (list (segment_position * Qc)) :=
  p0 ← CoordinatePosition g c.1;
  p1 ← CoordinatePosition g c.2;
  Ok [match p0 with OnSegmentLineBeforeOrigin => (OnSegmentOrigin, 0) | _ => (p0, c.1) end;
      match p1 with OnSegmentLineAfterEnd => (OnSegmentEnd, 1) | _ => (p1, c.2) end].
Definition on_one_line (g : geo_config) (o1 e1 o2 e2 : vec3) : outcome segments_result :=
  let t1 := vsub e1 o1 in
  let t2 := vsub e2 o2 in
  first ← clip_first g (sorted_pair (PointCurvilinearCoordinate o2 o1 e1) (PointCurvilinearCoordinate e2 o1 e1));
  second ← clip_second g (sorted_pair (PointCurvilinearCoordinate o1 o2 e2) (PointCurvilinearCoordinate e1 o2 e2));
  f0 ← vget first 0;
  s0 ← vget second 0;
  let p := along o1 t1 f0.2 in
  let far := qlt (cfgTolerance1D g * cfgTolerance1D g * norm2 p) (norm2 (vsub p (along o2 t2 s0.2))) in
  Ok (SegmentsResult CoPlanarParallel MultipleIntersections (if far then [1; 0]%nat else [0; 1]%nat) first second).

Definition in_segment (p : segment_position) : bool :=
  match p with OnSegmentOrigin | InsideSegment | OnSegmentEnd => true | _ => false end.

(** IntersectionSegmentSegment, GUI 50-249.  The parameters of the crossing of the two lines are the solution in the sense of the
    least squares of [s * t1 - q * t2 = o2 - o1], here by its normal equations (the code divides the columns by their lengths, and
    the solution by the same). *)
Definition IntersectionSegmentSegment (g : geo_config) (o1 e1 o2 e2 : vec3) : outcome segments_result :=
  let t1 := vsub e1 o1 in
  let t2 := vsub e2 o2 in
  let s := Tolerance1DSquared g in
  require (IsValuePositive g (norm2 t1) s) ≫= fun _ =>
  require (IsValuePositive g (norm2 t2) s) ≫= fun _ =>
  if negb (AreLineCoplanar g o1 t1 o2 t2) then Ok (SegmentsResult OnDifferentPlanes NoIntersection [] [] []) else
  let r := vsub o2 o1 in
  let c := vdot t1 t2 in
  if not_parallel g (c * c / (norm2 t1 * norm2 t2)) then
    let det := norm2 t1 * norm2 t2 - c * c in
    let c1 := (vdot r t1 * norm2 t2 - vdot r t2 * c) / det in
    let c2 := - ((vdot r t2 * norm2 t1 - vdot r t1 * c) / det) in
    p1 ← CoordinatePosition g c1;
    p2 ← CoordinatePosition g c2;
    Ok (SegmentsResult CoPlanarIntersecting (if in_segment p1 && in_segment p2 then SingleIntersection else NoIntersection)
          [0%nat] [(p1, c1)] [(p2, c2)])
  else if negb (PointIsAligned g o1 e1 o2) && negb (PointIsAligned g o1 e1 e2) then
    Ok (SegmentsResult CoPlanarParallel NoIntersection [] [] [])
  else
    let m1 := vscale (Q2Qc (1 # 2)) (vadd e1 o1) in
    let m2 := vscale (Q2Qc (1 # 2)) (vadd e2 o2) in
    if spheres_apart g (norm2 (vsub m2 m1)) (norm2 t1) (norm2 t2) (Tolerance1D g) then
      Ok (SegmentsResult CoPlanarParallel NoIntersection [] [] [])
    else on_one_line g o1 e1 o2 e2.

(** [IsValueGreater(x, second, tol)] for the number [x], not negative, whose square is [q]. *)
Definition root_greater (g : geo_config) (q second tol : Qc) : bool :=
  let m := max_tolerance g tol in
  let above k s := if qlt 0 k then qlt s 0 || qlt (s * s) (q * (k * k)) else qlt s 0 && qlt (q * (k * k)) (s * s) in
  if qle q (m * m) || qle (qabs second) m then above 1 (second + m) else above (1 - m) second.
(** CheckNoSpheresIntersection, GeometryUtilities.hpp:1220-1228. *)
Definition CheckNoSpheresIntersection (g : geo_config) (c1 c2 : vec3) (d1 d2 : Qc) : bool :=
  root_greater g (Q2Qc 4 * norm2 (vsub c2 c1)) (d1 + d2) (Tolerance1D g).

(** IntersectionsBetweenSegments, GUI 251-289: the segments with their barycenters and lengths. *)
Record segment := Segment { seg_origin : vec3; seg_end : vec3; seg_barycenter : vec3; seg_length : Qc }.
Definition push (l : list (list Qc)) (i : nat) (c : Qc) : outcome (list (list Qc)) := x ← vget l i; vset l i (x ++ [c]).
Definition between_pair (g : geo_config) (segs : list segment) (acc : list (list Qc)) (s1 s2 : nat) : outcome (list (list Qc)) :=
  a ← vget segs s1;
  b ← vget segs s2;
  if CheckNoSpheresIntersection g (seg_barycenter a) (seg_barycenter b) (seg_length a) (seg_length b) then Ok acc else
  r ← IntersectionSegmentSegment g (seg_origin a) (seg_end a) (seg_origin b) (seg_end b);
  match SegmentsType r with
  | SingleIntersection =>
      f ← vget (FirstIntersections r) 0;
      acc ← push acc s1 f.2;
      s ← vget (SecondIntersections r) 0;
      push acc s2 s.2
  | _ => Ok acc
  end.
Definition IntersectionsBetweenSegments (g : geo_config) (segs : list segment) : outcome (list (list Qc)) :=
  let n := length segs in
  ofold (fun acc s1 => ofold (fun acc s2 => between_pair g segs acc s1 s2) (seq (S s1) (n - S s1)) acc)
        (seq 0 n) (replicate n []).

(** IntersectionSegmentPlaneResult, GeometryUtilities.hpp:390-413. *)
Inductive plane_result := PlaneNone | PlaneMultiple | PlaneSingle (p : segment_position) (c : Qc).
(** [CompareValues(x, 1, tol) == Coincident] for the number [x], not negative, whose square is [q]. *)
Definition root_is_one (g : geo_config) (q tol : Qc) : bool :=
  let m := max_tolerance g tol in
  if qle q (m * m) || qle 1 m then (qle 1 m || qle ((1 - m) * (1 - m)) q) && qle q ((1 + m) * (1 + m))
  else qle 1 (q * ((1 + m) * (1 + m))) && qle (q * ((1 - m) * (1 - m))) 1.
(** IntersectionSegmentPlane, GUI 291-333. *)
Definition IntersectionSegmentPlane (g : geo_config) (o e n po : vec3) : outcome plane_result :=
  let t := vsub e o in
  let s := Tolerance1DSquared g in
  require (root_is_one g (norm2 n) (Tolerance1D g)) ≫= fun _ =>
  require (negb (norm_zero g (norm2 t) (Tolerance1D g))) ≫= fun _ =>
  if norm_zero g (vdot n t * vdot n t / norm2 t) s then
    if bool_decide (CompareValues g (vdot n o) (vdot n po) s = Coincident) then Ok PlaneMultiple else Ok PlaneNone
  else
    let c := vdot n (vsub po o) / vdot n t in
    p ← CoordinatePosition g c;
    Ok (PlaneSingle p (match p with OnSegmentOrigin => 0 | OnSegmentEnd => 1 | _ => c end)).
