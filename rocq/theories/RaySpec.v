(** * What the position of a point with respect to any polygon is. *)
From Coq Require Import QArith Qcanon.
From Verif Require Import Base QcTac FillModel GeoModel MapModel PointModel PointSpec PolyModel PolySpec.
Local Open Scope Qc_scope.

(** [p] is on the segment from [a] to [b], ends included, looking at the plane only. *)
Definition on_side (p a b : vec3) : Prop :=
  exists c, 0 <= c /\ c <= 1 /\ p.1.1 = a.1.1 + c * (b.1.1 - a.1.1) /\ p.1.2 = a.1.2 + c * (b.1.2 - a.1.2).
(** [p] is on a side of the polygon; of the triangle. *)
Definition on_border (p : vec3) (vs : list vec3) : Prop := exists i, on_side p (corner vs i) (corner vs (S i)).
Definition off_triangle (p : vec3) (t : triangle) : Prop :=
  ~ on_side p t.1.1 t.1.2 /\ ~ on_side p t.1.2 t.2 /\ ~ on_side p t.2 t.1.1.
(** [p] is inside the triangle, whichever way its vertices go round. *)
Definition in_triangle (p : vec3) (t : triangle) : Prop :=
  (0 < orient t.1.1 t.1.2 p /\ 0 < orient t.1.2 t.2 p /\ 0 < orient t.2 t.1.1 p) \/
  (orient t.1.1 t.1.2 p < 0 /\ orient t.1.2 t.2 p < 0 /\ orient t.2 t.1.1 p < 0).
Global Instance in_triangle_dec p t : Decision (in_triangle p t).
Proof. unfold in_triangle. apply _. Defined.

(** The meaning of the answers, when inside means [inside]. *)
Definition ray_position_spec (p : vec3) (vs : list vec3) (inside : Prop) (r : polygon_position) : Prop :=
  match r with
  | Outside => ~ on_border p vs /\ ~ inside
  | BorderEdge i => (i < length vs)%nat /\ exists c, 0 < c /\ c < 1 /\ on_line (corner vs i) (corner vs (S i)) c p
  | BorderVertex i => (i < length vs)%nat /\ p = corner vs i
  | Inside => ~ on_border p vs /\ inside
  end.

(** A polygon of the plane with at least three vertices whose sides have two different ends. *)
Definition proper (vs : list vec3) : Prop :=
  (2 < length vs)%nat /\ Forall flat vs /\ forall i, corner vs i <> corner vs (S i).
(** A strictly convex polygon, counterclockwise: all other vertices are on the left of every side. *)
Definition strictly_convex (vs : list vec3) : Prop :=
  forall i j, (i < length vs)%nat -> (j < length vs)%nat -> j <> i -> j <> (S i mod length vs)%nat ->
    0 < orient (corner vs i) (corner vs (S i)) (corner vs j).
