(** * Tetrahedra, parallelepipeds and extruded polygons.
    File: GPH = GeDiM/src/Geometry/GeometryUtilities_Polyhedron.cpp.  Points are of any type [P] with an addition [add]. *)
From Verif Require Import Base FacetModel.
Local Open Scope nat_scope.

Section Prism.
Context {P : Type} (add : P -> P -> P).

(** CreateTetrahedronWithVertices, GPH 64-100. *)
Definition CreateTetrahedronWithVertices (v1 v2 v3 v4 : P) : polyhedron P :=
  Polyhedron [v1; v2; v3; v4] [(0, 1); (0, 2); (1, 2); (0, 3); (1, 3); (2, 3)]
    [zip [0; 1; 2] [0; 2; 1]; zip [0; 1; 3] [0; 4; 3]; zip [0; 2; 3] [1; 5; 3]; zip [1; 2; 3] [2; 5; 4]].
(** CreateTetrahedronWithOrigin, GPH 26-62: the edges and the faces are written with the same numbers as in the function above. *)
Definition CreateTetrahedronWithOrigin (origin length height width : P) : polyhedron P :=
  Polyhedron [origin; add origin length; add origin width; add origin height] [(0, 1); (0, 2); (1, 2); (0, 3); (1, 3); (2, 3)]
    [zip [0; 1; 2] [0; 2; 1]; zip [0; 1; 3] [0; 4; 3]; zip [0; 2; 3] [1; 5; 3]; zip [1; 2; 3] [2; 5; 4]].
(** CreateParallelepipedWithOrigin, GPH 102-156. *)
Definition CreateParallelepipedWithOrigin (origin length height width : P) : polyhedron P :=
  Polyhedron
    [origin; add origin length; add (add origin length) width; add origin width;
     add origin height; add (add origin height) length; add (add (add origin height) length) width; add (add origin height) width]
    [(0, 1); (1, 2); (2, 3); (3, 0); (4, 5); (5, 6); (6, 7); (7, 4); (0, 4); (1, 5); (2, 6); (3, 7)]
    [zip [0; 1; 2; 3] [0; 1; 2; 3]; zip [4; 5; 6; 7] [4; 5; 6; 7]; zip [0; 3; 7; 4] [3; 11; 7; 8];
     zip [1; 2; 6; 5] [1; 10; 5; 9]; zip [0; 1; 5; 4] [0; 9; 4; 8]; zip [3; 2; 6; 7] [2; 10; 6; 11]].

(** The face over side [v] of a polygon with [n] vertices, GPH 200-204. *)
Definition side_face (n v : nat) : list (nat * nat) :=
  zip [v; (v + 1) mod n; n + (v + 1) mod n; n + v] [v; 2 * n + (v + 1) mod n; n + v; 2 * n + v].
(** CreatePolyhedronWithExtrusion, GPH 158-208.  The columns [v], [n + v] and [2 n + v] written at step [v] of the loops are given here as three
    lists one after the other. *)
Definition CreatePolyhedronWithExtrusion (polygon heights : list P) : outcome (polyhedron P) :=
  require (length polygon =? length heights);;
  let n := length polygon in
  Ok (Polyhedron (polygon ++ zip_with add polygon heights)
    (((fun v => (v, (v + 1) mod n)) <$> seq 0 n) ++ ((fun v => (n + v, n + (v + 1) mod n)) <$> seq 0 n) ++ ((fun v => (v, n + v)) <$> seq 0 n))
    (((fun v => (v, v)) <$> seq 0 n) :: ((fun v => (n + v, n + v)) <$> seq 0 n) :: (side_face n <$> seq 0 n))).
End Prism.
