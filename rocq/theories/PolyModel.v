(** * Measures, triangulations and orientation of polygons: Geometry/GeometryUtilities_Polygon.cpp, in exact rational arithmetic.

    A polygon is the list of its vertices (the columns of the matrix).  An index [(v + 1) % n] is in range, so [vnth] never
    reads outside the list.  [x / 0 = 0] in [Qc] where the code gets infinite values: the theorems ask for an area which is not
    zero. *)
From Coq Require Import QArith Qcanon.
From Verif Require Import Base QcTac FillModel GeoModel MapModel PointModel.
Local Open Scope Qc_scope.

Definition qsum (l : list Qc) : Qc := foldr Qcplus 0 l.
Definition qdot (l m : list Qc) : Qc := qsum (zip_with Qcmult l m).
(** [for (v = 0; v < n; v++) result += f(vertex v, vertex (v + 1) % n)]. *)
Definition sum_edges (f : vec3 -> vec3 -> Qc) (vs : list vec3) : Qc :=
  qsum ((fun v => f (vnth vs v) (vnth vs ((v + 1) mod length vs))) <$> seq 0 (length vs)).

(** [Assert(PointsAre2D(polygonVertices) && polygonVertices.cols() > 2)]. *)
Definition require_polygon_2D (g : geo_config) (vs : list vec3) : outcome unit :=
  b ← PointsAre2D g vs; require (b && (2 <? length vs)%nat).

(** PolygonArea, GeometryUtilities_Polygon.cpp:1354-1368: the coordinates with the first one repeated at the end. *)
Definition PolygonArea (g : geo_config) (vs : list vec3) : outcome Qc :=
  require_polygon_2D g vs ≫= fun _ =>
  let n := length vs in
  let xs := ((fun v : vec3 => v.1.1) <$> vs) ++ [(vnth vs 0).1.1] in
  let ys := ((fun v : vec3 => v.1.2) <$> vs) ++ [(vnth vs 0).1.2] in
  Ok (Q2Qc (1 # 2) * (qdot (take n xs) (take n (drop 1 ys)) - qdot (take n (drop 1 xs)) (take n ys))).

(** PolygonCentroid, GeometryUtilities_Polygon.cpp:152-173. *)
Definition PolygonCentroid (g : geo_config) (vs : list vec3) (area : Qc) : outcome vec3 :=
  require_polygon_2D g vs ≫= fun _ =>
  let k := fun p q : vec3 => p.1.1 * q.1.2 - q.1.1 * p.1.2 in
  let cx := sum_edges (fun p q => (p.1.1 + q.1.1) * k p q) vs in
  let cy := sum_edges (fun p q => (p.1.2 + q.1.2) * k p q) vs in
  Ok (cx / (Q2Qc (6 # 1) * area), cy / (Q2Qc (6 # 1) * area), 0 / (Q2Qc (6 # 1) * area)).

(** PolygonAreaByBoundaryIntegral, GeometryUtilities_Polygon.cpp:175-212: the quadrature points of the edges times the weights
    times the x component of the normals; [ps] is the first row of the reference points. *)
Definition PolygonAreaByBoundaryIntegral (vs : list vec3) (lengths : list Qc) (tangents normals : list vec3) (ps ws : list Qc)
  : outcome Qc :=
  let n := length vs in
  require (2 <? n)%nat ≫= fun _ =>
  require (length lengths =? n)%nat ≫= fun _ =>
  require (length tangents =? n)%nat ≫= fun _ =>
  require (length normals =? n)%nat ≫= fun _ =>
  require (length ps =? length ws)%nat ≫= fun _ =>
  Ok (qsum ((fun e =>
    qsum (zip_with (fun p w => ((vnth vs e).1.1 + p * (vnth tangents e).1.1) *
                               (qabs (nth e lengths 0) * w * (vnth normals e).1.1)) ps ws)) <$> seq 0 n)).

(** Matrix3d with the three vertices of a triangle as columns. *)
Definition triangle : Type := vec3 * vec3 * vec3.
Definition map_of (t : triangle) : affine := MapTriangle t.1.1 t.1.2 t.2.

(** PolygonAreaByInternalIntegral, GeometryUtilities_Polygon.cpp:214-236. *)
Definition PolygonAreaByInternalIntegral (ts : list triangle) (ws : list Qc) : Qc :=
  qsum ((fun t => qsum (zip_with (fun w d => w * qabs d) ws (replicate (length ws) (af_det (map_of t))))) <$> ts).

(** PolygonMass and PolygonInertia, GeometryUtilities_Polygon.cpp:1384-1493: the reference points and weights, whose literals
    are the doubles closest to 2/3 and 1/6. *)
Definition mass_points : list vec3 :=
  let a := Q2Qc (2 # 3) in let b := Q2Qc (1 # 6) in [(a, b, 0); (b, a, 0); (b, b, 0)].
Definition mass_weight : Qc := Q2Qc (1 # 6).
Definition mass_integral (f : vec3 -> Qc) (ts : list triangle) : Qc :=
  qsum ((fun t => qsum ((fun p => f (F1 (map_of t) p) * (mass_weight * qabs (af_det (map_of t)))) <$> mass_points)) <$> ts).
(** PolygonMass, GeometryUtilities_Polygon.cpp:1384-1437: the entries (0,0), (0,1) = (1,0), (1,1). *)
Definition PolygonMass (c : vec3) (ts : list triangle) : Qc * Qc * Qc :=
  (mass_integral (fun p => (p.1.1 - c.1.1) * (p.1.1 - c.1.1)) ts,
   mass_integral (fun p => (p.1.1 - c.1.1) * (p.1.2 - c.1.2)) ts,
   mass_integral (fun p => (p.1.2 - c.1.2) * (p.1.2 - c.1.2)) ts).
(** PolygonInertia, GeometryUtilities_Polygon.cpp:1439-1493: the same entries; the others are zero. *)
Definition PolygonInertia (c : vec3) (ts : list triangle) : Qc * Qc * Qc :=
  (mass_integral (fun p => (p.1.2 - c.1.2) * (p.1.2 - c.1.2)) ts,
   - mass_integral (fun p => (p.1.1 - c.1.1) * (p.1.2 - c.1.2)) ts,
   mass_integral (fun p => (p.1.1 - c.1.1) * (p.1.1 - c.1.1)) ts).

(** PolygonNormal, GeometryUtilities_Polygon.cpp:62-79, before the final [normalized()].  The index [(i - 1) % numVertices] is
    computed with 32-bit unsigned numbers. *)
Definition previous_index (i n : nat) : nat :=
  N.to_nat (((N.of_nat i + 4294967295) mod 4294967296) mod N.of_nat n)%N.
Definition PolygonNormal (vs : list vec3) : outcome vec3 :=
  let n := length vs in
  require (2 <? n)%nat ≫= fun _ =>
  Ok (foldl (fun normal i =>
    let edge := vsub (vnth vs ((i + 1) mod n)) (vnth vs i) in
    let edgePrevious := vsub (vnth vs (previous_index i n)) (vnth vs i) in
    vadd normal (vcross edge edgePrevious)) (0, 0, 0) (seq 0 n)).

(** PolygonArea3D, GeometryUtilities_Polygon.cpp:1370-1382, before [0.5 * crossProduct.norm()]. *)
Definition PolygonCross3D (vs : list vec3) : outcome vec3 :=
  let n := length vs in
  require (2 <? n)%nat ≫= fun _ =>
  Ok (foldl (fun c v => vadd c (vcross (vnth vs v) (vnth vs ((v + 1) mod n)))) (0, 0, 0) (seq 0 n)).

(** PolygonOrientations, GeometryUtilities.hpp:60-65; PolygonOrientation, GeometryUtilities_Polygon.cpp:428-443; [std::
    min_element] returns the first of the smallest elements. *)
Inductive orientation := Clockwise | CounterClockwise.
Definition min_element (l : list N) : nat :=
  (foldl (fun (b : nat * nat) x => if (x <? nth b.1 l 0)%N then (b.2, S b.2) else (b.1, S b.2)) (0, 0) l).1%nat.
Definition PolygonOrientation (hull : list N) : outcome orientation :=
  let n := length hull in
  require (2 <? n)%nat ≫= fun _ =>
  let next := ((min_element hull + 1) mod n)%nat in
  let next_next := ((next + 1) mod n)%nat in
  Ok (if (nth next hull 0 <? nth next_next hull 0)%N then CounterClockwise else Clockwise).

(** PolygonTriangulationByFirstVertex, GeometryUtilities_Polygon.cpp:445-473; the loop on [v] stops at [nextNextVertex == 0]. *)
Fixpoint first_vertex_loop (g : geo_config) (vs : list vec3) (v fuel : nat) : list nat :=
  match fuel with
  | O => []
  | S fuel =>
      let n := length vs in
      let next := ((v + 1) mod n)%nat in
      let next_next := ((v + 2) mod n)%nat in
      if (next_next =? 0)%nat then []
      else if PointIsAligned g (vnth vs 0) (vnth vs next) (vnth vs next_next) then first_vertex_loop g vs (S v) fuel
      else 0%nat :: next :: next_next :: first_vertex_loop g vs (S v) fuel
  end.
Definition PolygonTriangulationByFirstVertex (g : geo_config) (vs : list vec3) : outcome (list nat) :=
  let n := length vs in
  require (2 <? n)%nat ≫= fun _ =>
  let triangles := first_vertex_loop g vs 0 n in
  require (length triangles mod 3 =? 0)%nat ≫= fun _ => Ok triangles.

(** PolygonTriangulationByInternalPoint, GeometryUtilities_Polygon.cpp:569-586: the point itself is not used. *)
Definition PolygonTriangulationByInternalPoint (vs : list vec3) : outcome (list nat) :=
  let n := length vs in
  require (2 <? n)%nat ≫= fun _ =>
  let triangles := concat ((fun v => [n; v; ((v + 1) mod n)%nat]) <$> seq 0 n) in
  require (length triangles mod 3 =? 0)%nat ≫= fun _ => Ok triangles.

(** ExtractPoints, GeometryUtilities.cpp:322-329; [points.col] outside the matrix is undefined. *)
Definition ExtractPoints (ps : list vec3) (is : list nat) : outcome (list vec3) := omapM (vget ps) is.
(** ExtractTriangulationPoints, GeometryUtilities.cpp:331-346; a rest of one or two indices is ignored. *)
Fixpoint ExtractTriangulationPoints (ps : list vec3) (is : list nat) : outcome (list triangle) :=
  match is with
  | i :: j :: k :: is =>
      a ← vget ps i; b ← vget ps j; c ← vget ps k;
      r ← ExtractTriangulationPoints ps is; Ok ((a, b, c) :: r)
  | _ => Ok []
  end.
(** ExtractTriangulationPointsByInternalPoint, GeometryUtilities.cpp:348-364. *)
Fixpoint ExtractTriangulationPointsByInternalPoint (ps : list vec3) (p : vec3) (is : list nat) : outcome (list triangle) :=
  match is with
  | _ :: j :: k :: is =>
      b ← vget ps j; c ← vget ps k;
      r ← ExtractTriangulationPointsByInternalPoint ps p is; Ok ((p, b, c) :: r)
  | _ => Ok []
  end.

(** PolarAngle, GeometryUtilities.hpp:927-938: the numerator and the square of the denominator of the result; zero when one of
    the two norms is zero up to the tolerance. *)
Definition polar_numerator (a b c : vec3) : Qc := (b.1.1 - a.1.1) * (c.1.2 - a.1.2) - (c.1.1 - a.1.1) * (b.1.2 - a.1.2).
Definition IsPolarNegative (g : geo_config) (a b c : vec3) (n2_ab n2_cb : Qc) : bool :=
  negb (norm_zero g n2_ab (Tolerance1D g) || norm_zero g n2_cb (Tolerance1D g)) &&
  quotient_negative g (polar_numerator a b c) (n2_ab * n2_cb) (Tolerance1D g).

(** ** PolygonTriangulationByEarClipping, GeometryUtilities_Polygon.cpp:475-567 *)

(** The inner loop on the other vertices, lines 529-543: true when none of them is in the triangle. *)
Fixpoint no_vertex_inside (g : geo_config) (vs : list vec3) (t : list vec3) (box : vec3 * vec3) (skip ovs : list nat)
  : outcome bool :=
  match ovs with
  | [] => Ok true
  | ov :: ovs =>
      if bool_decide (ov ∈ skip) then no_vertex_inside g vs t box skip ovs
      else if negb (IsPointInBoundingBox g (vnth vs ov) box) then no_vertex_inside g vs t box skip ovs
      else
        b ← IsPointInsidePolygon g (vnth vs ov) t;
        if negb b then no_vertex_inside g vs t box skip ovs else Ok false
  end.
(** The loop looking for the first ear, lines 509-550. *)
Definition previous_of (v n : nat) : nat := if (v =? 0)%nat then (n - 1)%nat else (v - 1)%nat.
Fixpoint find_ear (g : geo_config) (vs : list vec3) (is : list nat) : outcome (option nat) :=
  match is with
  | [] => Ok None
  | v :: is =>
      let n := length vs in
      let p := previous_of v n in
      let q := ((v + 1) mod n)%nat in
      let n2_p := norm2 (vsub (vnth vs p) (vnth vs v)) in
      let n2_q := norm2 (vsub (vnth vs q) (vnth vs v)) in
      if IsPolarNegative g (vnth vs p) (vnth vs v) (vnth vs q) n2_p n2_q then find_ear g vs is
      else
        t ← ExtractPoints vs [p; v; q];
        box ← PointsBoundingBox t;
        b ← no_vertex_inside g vs t box [v; p; q] (seq 0 n);
        if (b : bool) then Ok (Some v) else find_ear g vs is
  end.
(** The main loop: [vs] the current points, [un] the original indices of these points (the members [vertices] and
    [unalignedVertices]); every turn removes at least one point. *)
Fixpoint ear_loop (g : geo_config) (all : list vec3) (fuel : nat) (vs : list vec3) (un : list nat) : outcome (list nat) :=
  match fuel with
  | O => OutOfFuel
  | S fuel =>
      keep ← UnalignedPoints g vs;
      _ ← require (2 <? length keep)%nat;
      un ← omapM (fun i => vget un i) keep;
      let n := length un in
      if (n =? 3)%nat then Ok un
      else
        vs ← ExtractPoints all un;
        e ← find_ear g vs (seq 0 n);
        match e with
        | None => Abort
        | Some v =>
            let t := [nth v un 0; nth ((v + 1) mod n) un 0; nth (previous_of v n) un 0]%nat in
            un ← verase un v;
            vs ← verase vs v;
            if (2 <? length vs)%nat then r ← ear_loop g all fuel vs un; Ok (t ++ r) else Ok t
        end
  end.
Definition PolygonTriangulationByEarClipping (g : geo_config) (vs : list vec3) : outcome (list nat) :=
  let n := length vs in
  require (2 <? n)%nat ≫= fun _ =>
  ts ← ear_loop g vs n vs (seq 0 n);
  require (length ts mod 3 =? 0)%nat ≫= fun _ => Ok ts.
