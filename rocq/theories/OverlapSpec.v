(** * Points of triangles. *)
From Coq Require Import QArith Qcanon.
From Verif Require Import Base FillModel GeoModel MapModel PointModel OverlapModel.
Local Open Scope Qc_scope.

(** The point of the plane with weights [u], [v], [w] at the corners of a triangle. *)
Definition weighted (t : tri) (u v w : Qc) : Qc * Qc :=
  (u * t.1.1.1.1 + v * t.1.2.1.1 + w * t.2.1.1, u * t.1.1.1.2 + v * t.1.2.1.2 + w * t.2.1.2).

(** Points of the triangle, border included, and points strictly inside. *)
Definition in_triangle (t : tri) (x : Qc * Qc) : Prop :=
  exists u v w, 0 <= u /\ 0 <= v /\ 0 <= w /\ u + v + w = 1 /\ x = weighted t u v w.
Definition inside_triangle (t : tri) (x : Qc * Qc) : Prop :=
  exists u v w, 0 < u /\ 0 < v /\ 0 < w /\ u + v + w = 1 /\ x = weighted t u v w.

(** Corners in counterclockwise order, not aligned: twice the signed area is positive. *)
Definition counterclockwise (t : tri) : Prop :=
  0 < (t.1.2.1.1 - t.1.1.1.1) * (t.2.1.2 - t.1.1.1.2) - (t.1.2.1.2 - t.1.1.1.2) * (t.2.1.1 - t.1.1.1.1).
