(** * What the positions of points, the bounding boxes and the barycentric coordinates mean. *)
From Coq Require Import QArith Qcanon.
From Verif Require Import Base QcTac FillModel GeoModel MapModel PointModel.
Local Open Scope Qc_scope.

(** Points of the plane z = 0. *)
Definition flat (p : vec3) : Prop := p.2 = 0.
(** Twice the signed area of the triangle [a b p]: positive when [p] is on the left of the line from [a] to [b]. *)
Definition orient (a b p : vec3) : Qc := (b.1.1 - a.1.1) * (p.1.2 - a.1.2) - (b.1.2 - a.1.2) * (p.1.1 - a.1.1).
(** The point of the line from [o] to [e] with parameter [c]: [o] for 0, [e] for 1. *)
Definition on_line (o e : vec3) (c : Qc) (p : vec3) : Prop :=
  p = (o.1.1 + c * (e.1.1 - o.1.1), o.1.2 + c * (e.1.2 - o.1.2), o.2 + c * (e.2 - o.2)).

(** Both tolerances of the configuration are zero. *)
Definition exact (g : geo_config) : Prop := MinTolerance g = 0 /\ cfgTolerance1D g = 0.
(** Both tolerances of the configuration are not negative and at most one. *)
Definition sane (g : geo_config) : Prop := 0 <= MinTolerance g /\ MinTolerance g <= 1 /\ 0 <= cfgTolerance1D g /\ cfgTolerance1D g <= 1.

(** Meaning of a position with respect to the segment from [o] to [e] of the plane. *)
Definition segment_position_spec (p o e : vec3) (r : segment_position) : Prop :=
  match r with
  | OnSegmentLineBeforeOrigin => exists c, c < 0 /\ on_line o e c p
  | OnSegmentOrigin => p = o
  | InsideSegment => exists c, 0 < c /\ c < 1 /\ on_line o e c p
  | OnSegmentEnd => p = e
  | OnSegmentLineAfterEnd => exists c, 1 < c /\ on_line o e c p
  | RightTheSegment => orient o e p < 0
  | LeftTheSegment => 0 < orient o e p
  end.

(** Vertex [i] of a closed polygon, counted cyclically. *)
Definition corner (vs : list vec3) (i : nat) : vec3 := nth (i mod length vs) vs (0, 0, 0).
(** A counterclockwise polygon without reflex corners: consecutive vertices are distinct, every turn goes to the left or straight
    on (vertices inside straight sides are allowed). *)
Definition left_turning (vs : list vec3) : Prop :=
  Forall flat vs /\
  (forall i, corner vs i <> corner vs (S i)) /\
  forall i, let a := corner vs i in let b := corner vs (S i) in let c := corner vs (S (S i)) in
    0 < orient a b c \/ exists k, 1 < k /\ on_line a b k c.

(** Meaning of a position with respect to such a polygon. *)
Definition polygon_position_spec (p : vec3) (vs : list vec3) (r : polygon_position) : Prop :=
  match r with
  | Outside => exists i, orient (corner vs i) (corner vs (S i)) p < 0
  | BorderEdge i => (i < length vs)%nat /\ exists c, 0 < c /\ c < 1 /\ on_line (corner vs i) (corner vs (S i)) c p
  | BorderVertex i => (i < length vs)%nat /\ p = corner vs i
  | Inside => forall i, 0 < orient (corner vs i) (corner vs (S i)) p
  end.

(** [p] is in the box whose corners are [lo] and [hi]. *)
Definition in_box (lo hi p : vec3) : Prop :=
  (lo.1.1 <= p.1.1 /\ p.1.1 <= hi.1.1) /\ (lo.1.2 <= p.1.2 /\ p.1.2 <= hi.1.2) /\ (lo.2 <= p.2 /\ p.2 <= hi.2).

(** A convex polygon: no vertex is on the right of an edge. *)
Definition convex (vs : list vec3) : Prop := forall i j, 0 <= orient (corner vs i) (corner vs (S i)) (corner vs j).
