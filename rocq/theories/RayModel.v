(** * The position of a point with respect to any polygon: Geometry/GeometryUtilities_Point.cpp:302-432, in exact rational
    arithmetic. *)
From Coq Require Import QArith Qcanon.
From Verif Require Import Base QcTac FillModel GeoModel MapModel PointModel.
Local Open Scope Qc_scope.

(** What one turn of the loop does: [continue], [continue] after counting an intersection, or [return]. *)
Inductive ray_turn := RayMiss | RayHit | RayOrigin | RayInside | RayEnd.

(** One turn, GeometryUtilities_Point.cpp:314-426.  [x / 0 = 0] in [Qc] (NaN in the code): PointLineCurvilinearCoordinate
    divides by the squared length of the edge, so the theorems ask for edges with two different ends. *)
Definition ray_edge (g : geo_config) (p o e : vec3) : outcome ray_turn :=
  let t := vsub e o in
  if IsValueZero g t.1.2 (Tolerance1D g) then
    if IsValueZero g (p.1.2 - o.1.2) (Tolerance1D g) then
      r ← CoordinatePosition g (vdot (vsub p o) t / norm2 t);
      match r with
      | OnSegmentLineBeforeOrigin | OnSegmentLineAfterEnd => Ok RayMiss
      | OnSegmentOrigin => Ok RayOrigin
      | InsideSegment => Ok RayInside
      | OnSegmentEnd => Ok RayEnd
      | _ => Throw
      end
    else Ok RayMiss
  else
    let c := (p.1.2 - o.1.2) / t.1.2 in
    re ← CoordinatePosition g c;
    match re with
    | OnSegmentLineBeforeOrigin | OnSegmentLineAfterEnd => Ok RayMiss
    | OnSegmentOrigin | InsideSegment | OnSegmentEnd =>
        rp ← CoordinatePosition g (o.1.1 + c * t.1.1 - p.1.1);
        match rp with
        | OnSegmentLineBeforeOrigin => Ok RayMiss
        | OnSegmentOrigin => Ok match re with OnSegmentOrigin => RayOrigin | OnSegmentEnd => RayEnd | _ => RayInside end
        | InsideSegment | OnSegmentEnd | OnSegmentLineAfterEnd =>
            Ok match re with
               | OnSegmentOrigin => if IsValueGreater g p.1.2 e.1.2 (Tolerance1D g) then RayHit else RayMiss
               | OnSegmentEnd => if IsValueGreater g p.1.2 o.1.2 (Tolerance1D g) then RayHit else RayMiss
               | _ => RayHit
               end
        | _ => Throw
        end
    | _ => Throw
    end.

(** The loop over the edges with the counter [numIntersections], and the answer after it, GeometryUtilities_Point.cpp:312-431. *)
Fixpoint ray_loop (g : geo_config) (p : vec3) (vs : list vec3) (count : nat) (is : list nat) : outcome polygon_position :=
  match is with
  | [] => Ok (if (count mod 2 =? 1)%nat then Inside else Outside)
  | v :: is =>
      let v_next := ((v + 1) mod length vs)%nat in
      r ← ray_edge g p (vnth vs v) (vnth vs v_next);
      match r with
      | RayMiss => ray_loop g p vs count is
      | RayHit => ray_loop g p vs (S count) is
      | RayOrigin => Ok (BorderVertex v)
      | RayInside => Ok (BorderEdge v)
      | RayEnd => Ok (BorderVertex v_next)
      end
  end.
(** PointPolygonPosition_RayCasting, GeometryUtilities_Point.cpp:302-432. *)
Definition PointPolygonPosition_RayCasting (g : geo_config) (p : vec3) (vs : list vec3) : outcome polygon_position :=
  b ← PointsAre2D g [p];
  require ((2 <? length vs)%nat && b) ≫= fun _ => ray_loop g p vs 0 (seq 0 (length vs)).
