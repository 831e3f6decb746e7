(** * Do two triangles of the plane overlap?
    File: GUP = GeDiM/src/Geometry/GeometryUtilities_Polygon.cpp. *)
From Coq Require Import QArith Qcanon.
From Verif Require Import Base FillModel GeoModel MapModel PointModel.
Local Open Scope Qc_scope.

(** [det_2D], GUP 30-32. *)
Definition det_2D (p1 p2 p3 : vec3) : Qc :=
  p1.1.1 * (p2.1.2 - p3.1.2) + p2.1.1 * (p3.1.2 - p1.1.2) + p3.1.1 * (p1.1.2 - p2.1.2).

(** [check_overlap], GUP 34-37: the third point is outside the edge from the first to the second. *)
Definition check_overlap (g : geo_config) (admit : bool) (p1 p2 p3 : vec3) : bool :=
  if admit then negb (IsValueGreaterOrEqual g (det_2D p1 p2 p3) 0 (Tolerance1D g))
  else negb (IsValueGreater g (det_2D p1 p2 p3) 0 (Tolerance1D g)).

(** The corners of a triangle: the columns of the matrix. *)
Definition tri : Type := vec3 * vec3 * vec3.
Definition tnth (t : tri) (i : nat) : vec3 := match i with O => t.1.1 | 1%nat => t.1.2 | _ => t.2 end.

(** One of the loops, GUP 39-47 and 49-57: some edge of [t] has all corners of [u] outside. *)
Definition some_edge_apart (g : geo_config) (admit : bool) (t u : tri) : bool :=
  existsb (fun i => let j := ((i + 1) mod 3)%nat in
    check_overlap g admit (tnth t i) (tnth t j) (tnth u 0) &&
    check_overlap g admit (tnth t i) (tnth t j) (tnth u 1) &&
    check_overlap g admit (tnth t i) (tnth t j) (tnth u 2)) [0; 1; 2]%nat.

(** CheckTrianglesIntersection, GUP 26-60. *)
Definition CheckTrianglesIntersection (g : geo_config) (t u : tri) (admit : bool) : bool :=
  if some_edge_apart g admit t u then false
  else if some_edge_apart g admit u t then false
  else true.
