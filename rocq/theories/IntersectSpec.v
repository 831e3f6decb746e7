(** * What the intersections of segments mean. *)
From Coq Require Import QArith Qcanon Sorted.
From Verif Require Import Base QcTac FillModel GeoModel MapModel PointModel PointSpec IntersectModel.
Local Open Scope Qc_scope.

(** The points of the line through [o] and [e], and of the segment. *)
Definition of_line (o e p : vec3) : Prop := exists c, on_line o e c p.
Definition of_segment (o e p : vec3) : Prop := exists c, 0 <= c /\ c <= 1 /\ on_line o e c p.
(** The lines have the same direction. *)
Definition parallel (o1 e1 o2 e2 : vec3) : Prop := exists k, vsub e2 o2 = vscale k (vsub e1 o1).

(** Meaning of the type of a curvilinear coordinate. *)
Definition coordinate_spec (c : Qc) (r : segment_position) : Prop :=
  match r with
  | OnSegmentLineBeforeOrigin => c < 0
  | OnSegmentOrigin => c = 0
  | InsideSegment => 0 < c /\ c < 1
  | OnSegmentEnd => c = 1
  | OnSegmentLineAfterEnd => 1 < c
  | RightTheSegment | LeftTheSegment => False
  end.

(** The common part of two segments of one line, as an interval of each of them. *)
Record overlap (o1 e1 o2 e2 : vec3) (r : segments_result) (s0 s1 q0 q1 : Qc) : Prop := {
  ov_first : exists p0 p1, FirstIntersections r = [(p0, s0); (p1, s1)] /\ coordinate_spec s0 p0 /\ coordinate_spec s1 p1;
  ov_second : exists p0 p1, SecondIntersections r = [(p0, q0); (p1, q1)] /\ coordinate_spec q0 p0 /\ coordinate_spec q1 p1;
  ov_order : s0 <= s1 /\ q0 <= q1;
  ov_points_first : forall p, of_segment o1 e1 p /\ of_segment o2 e2 p <-> exists c, s0 <= c /\ c <= s1 /\ on_line o1 e1 c p;
  ov_points_second : forall p, of_segment o1 e1 p /\ of_segment o2 e2 p <-> exists c, q0 <= c /\ c <= q1 /\ on_line o2 e2 c p;
  (* the ends of the common part, in the order of the first segment, in terms of the second one *)
  ov_relation :
    (Relation r = [0; 1]%nat /\ (exists p, on_line o1 e1 s0 p /\ on_line o2 e2 q0 p) /\ (exists p, on_line o1 e1 s1 p /\ on_line o2 e2 q1 p)) \/
    (Relation r = [1; 0]%nat /\ (exists p, on_line o1 e1 s0 p /\ on_line o2 e2 q1 p) /\ (exists p, on_line o1 e1 s1 p /\ on_line o2 e2 q0 p))
}.

(** The answer about two segments. *)
Record segments_spec (o1 e1 o2 e2 : vec3) (r : segments_result) : Prop := {
  sp_parallel : LinesType r = CoPlanarParallel <-> parallel o1 e1 o2 e2;
  sp_crossing : LinesType r = CoPlanarIntersecting <-> ~ parallel o1 e1 o2 e2 /\ exists p, of_line o1 e1 p /\ of_line o2 e2 p;
  sp_skew : LinesType r = OnDifferentPlanes <-> ~ parallel o1 e1 o2 e2 /\ ~ exists p, of_line o1 e1 p /\ of_line o2 e2 p;
  sp_none : SegmentsType r = NoIntersection <-> ~ exists p, of_segment o1 e1 p /\ of_segment o2 e2 p;
  sp_single : SegmentsType r = SingleIntersection <-> ~ parallel o1 e1 o2 e2 /\ exists p, of_segment o1 e1 p /\ of_segment o2 e2 p;
  sp_multiple : SegmentsType r = MultipleIntersections <-> parallel o1 e1 o2 e2 /\ exists p, of_segment o1 e1 p /\ of_segment o2 e2 p;
  sp_point : LinesType r = CoPlanarIntersecting -> exists s q ps pq p,
    FirstIntersections r = [(ps, s)] /\ SecondIntersections r = [(pq, q)] /\ Relation r = [0%nat] /\
    coordinate_spec s ps /\ coordinate_spec q pq /\ on_line o1 e1 s p /\ on_line o2 e2 q p /\
    forall p', of_line o1 e1 p' -> of_line o2 e2 p' -> p' = p;
  sp_overlap : SegmentsType r = MultipleIntersections -> exists s0 s1 q0 q1, overlap o1 e1 o2 e2 r s0 s1 q0 q1
}.

(** The segments [i] and [j] cross in the point with coordinate [c] on the segment [i]. *)
Definition cross_at (a b : segment) (c : Qc) : Prop :=
  ~ parallel (seg_origin a) (seg_end a) (seg_origin b) (seg_end b) /\ 0 <= c /\ c <= 1 /\
  exists p, on_line (seg_origin a) (seg_end a) c p /\ of_segment (seg_origin b) (seg_end b) p.
(** A segment given with its middle and a length that is not too small. *)
Definition described (a : segment) : Prop :=
  seg_origin a <> seg_end a /\ on_line (seg_origin a) (seg_end a) (Q2Qc (1 # 2)) (seg_barycenter a) /\
  0 <= seg_length a /\ norm2 (vsub (seg_end a) (seg_origin a)) <= seg_length a * seg_length a.

(** The coordinates [xs] on the segment [i] belong to the segments [js] which cross it, in their order, each segment once. *)
Definition crossings_spec (segs : list segment) (i : nat) (xs : list Qc) : Prop :=
  exists a js, segs !! i = Some a /\ StronglySorted lt js /\
    (forall j, j ∈ js <-> j <> i /\ exists b c, segs !! j = Some b /\ cross_at a b c) /\
    Forall2 (fun j c => exists b, segs !! j = Some b /\ cross_at a b c) js xs.

(** The plane through [po] with the normal [n]. *)
Definition of_plane (n po p : vec3) : Prop := vdot n (vsub p po) = 0.
Definition plane_spec (o e n po : vec3) (r : plane_result) : Prop :=
  match r with
  | PlaneNone => forall p, of_line o e p -> ~ of_plane n po p
  | PlaneMultiple => forall p, of_line o e p -> of_plane n po p
  | PlaneSingle k c => coordinate_spec c k /\ forall c' p, on_line o e c' p -> (of_plane n po p <-> c' = c)
  end.
