(** * Tetrahedra from the triangles of the faces of a polyhedron, and the vertices for a coordinate system.
    File: GPH = GeDiM/src/Geometry/GeometryUtilities_Polyhedron.cpp.  Points are of any type. *)
From Verif Require Import Base FacetModel.
Local Open Scope nat_scope.

(** polyhedronFaces[f](0, k), GPH 1000: [k] out of the columns of the matrix is undefined behaviour, as is [f] out of the vector. *)
Definition face_vertex (faces : list (list (nat * nat))) (f k : nat) : outcome nat :=
  face ← vget faces f;
  x ← vget face k;
  Ok x.1.
(** The body of the inner loop, GPH 1000-1003. *)
Definition tetrahedron_ids (n : nat) (faces : list (list (nat * nat))) (f : nat) (triangles : list nat) (ft : nat) : outcome (list nat) :=
  a ← vget triangles (3 * ft); x ← face_vertex faces f a;
  b ← vget triangles (3 * ft + 1); y ← face_vertex faces f b;
  c ← vget triangles (3 * ft + 2); z ← face_vertex faces f c;
  Ok [x; y; z; n].
(** The body of the inner loop with a point inside each face, GPH 1026-1029; [m] is the number of those points. *)
Definition tetrahedron_ids_inner (n m : nat) (faces : list (list (nat * nat))) (f : nat) (triangles : list nat) (ft : nat) : outcome (list nat) :=
  b ← vget triangles (3 * ft + 1); y ← face_vertex faces f b;
  c ← vget triangles (3 * ft + 2); z ← face_vertex faces f c;
  Ok [n + f; y; z; n + m].
(** The two loops and the assertion which closes them, GPH 995-1009, 1021-1035. *)
Definition all_tetrahedra (body : nat -> list nat -> nat -> outcome (list nat)) (triangulations : list (list nat)) : outcome (list nat) :=
  l ← omapM (fun '(f, triangles) => l ← omapM (body f triangles) (seq 0 (length triangles / 3)); Ok (concat l))
    (zip (seq 0 (length triangulations)) triangulations);
  require (length (concat l) mod 4 =? 0);;
  Ok (concat l).
(** PolyhedronTetrahedronsByFaceTriangulations, GPH 987-1010; of the vertices only their number is used. *)
Definition PolyhedronTetrahedronsByFaceTriangulations {P} (vertices : list P) faces triangulations : outcome (list nat) :=
  all_tetrahedra (tetrahedron_ids (length vertices) faces) triangulations.
(** The same with points inside the faces, GPH 1012-1036. *)
Definition PolyhedronTetrahedronsByFaceTriangulations_inner {P} (vertices inside : list P) faces triangulations : outcome (list nat) :=
  all_tetrahedra (tetrahedron_ids_inner (length vertices) (length inside) faces) triangulations.

(** ExtractTetrahedronPoints, GPH 1038-1055. *)
Definition tetrahedron_points {P} (vertices : list P) (inner : P) (ids : list nat) (t : nat) : outcome (list P) :=
  a ← vget ids (4 * t); x ← vget vertices a;
  b ← vget ids (4 * t + 1); y ← vget vertices b;
  c ← vget ids (4 * t + 2); z ← vget vertices c;
  Ok [x; y; z; inner].
Definition ExtractTetrahedronPoints {P} (vertices : list P) (inner : P) (ids : list nat) : outcome (list (list P)) :=
  omapM (tetrahedron_points vertices inner ids) (seq 0 (length ids / 4)).
(** The same with points inside the faces, GPH 1057-1077; the subtraction of unsigned numbers wraps round to an index out of the vector. *)
Definition tetrahedron_points_inner {P} (vertices : list P) (inner : P) (inside : list P) (ids : list nat) (t : nat) : outcome (list P) :=
  a ← vget ids (4 * t); x ← (if a <? length vertices then UB else vget inside (a - length vertices));
  b ← vget ids (4 * t + 1); y ← vget vertices b;
  c ← vget ids (4 * t + 2); z ← vget vertices c;
  Ok [x; y; z; inner].
Definition ExtractTetrahedronPoints_inner {P} (vertices : list P) (inner : P) (inside : list P) (ids : list nat) : outcome (list (list P)) :=
  omapM (tetrahedron_points_inner vertices inner inside ids) (seq 0 (length ids / 4)).

(** PolyhedronCoordinateSystem, GPH 1079-1102: the loop over the edges with the entries written so far (coordinateSystem and vertexIndex); it is
    left when there are four. *)
Fixpoint coordinate_loop (edges : list (nat * nat)) (found : list nat) : list nat :=
  match edges with
  | [] => found
  | e :: edges =>
      let first := e.1 =? 0 in
      let second := e.2 =? 0 in
      let found := if first || second then found ++ [if first then e.2 else e.1] else found in
      if length found =? 4 then found else coordinate_loop edges found
  end.
Definition PolyhedronCoordinateSystem (edges : list (nat * nat)) : outcome (list nat) :=
  let found := coordinate_loop edges [0] in
  require (length found =? 4);;
  Ok found.
