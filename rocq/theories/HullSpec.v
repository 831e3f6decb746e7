(** * What the convex hull of points of the plane is. *)
From Coq Require Import QArith Qcanon.
From Verif Require Import Base QcTac FillModel PointSpec.
Local Open Scope Qc_scope.

(** The vertices [hs] are the points of [ps] with the indices [ids]. *)
Definition selected (ps : list vec3) (ids : list nat) (hs : list vec3) : Prop := Forall2 (fun i p => ps !! i = Some p) ids hs.
(** All the points are on one line. *)
Definition on_one_line (ps : list vec3) : Prop := forall a b c, a ∈ ps -> b ∈ ps -> c ∈ ps -> orient a b c = 0.
(** No edge of the closed polygon has the point on its right; every edge has it strictly on its left. *)
Definition encloses (hs : list vec3) (p : vec3) : Prop := forall i, 0 <= orient (corner hs i) (corner hs (S i)) p.
Definition surrounds (hs : list vec3) (p : vec3) : Prop := forall i, 0 < orient (corner hs i) (corner hs (S i)) p.
