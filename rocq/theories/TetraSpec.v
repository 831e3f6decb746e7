(** * Tetrahedra from the triangles of the faces of a polyhedron: what the callers expect. *)
From Verif Require Import Base FacetModel FacetSpec.
Local Open Scope nat_scope.

(** A triangle of a face: the number of the face, the face and the places of the three vertices in it. *)
Definition triangle : Type := nat * list (nat * nat) * (nat * nat * nat).
Definition triple_list (t : nat * nat * nat) : list nat := let '(a, b, c) := t in [a; b; c].
(** The triangles of all faces, one after the other. *)
Definition all_triangles (faces : list (list (nat * nat))) (triples : list (list (nat * nat * nat))) : list triangle :=
  concat (zip_with (fun ff ts => pair ff <$> ts) (zip (seq 0 (length faces)) faces) triples).
(** The way triangulations are given: three places after three places, for each face. *)
Definition flat_triangles (triples : list (list (nat * nat * nat))) : list (list nat) := (fun ts => concat (triple_list <$> ts)) <$> triples.

(** The three vertices of the triangle, then the point inside, whose number comes after those of the vertices. *)
Definition tetra_ids (n : nat) (t : triangle) (ids : list nat) : Prop :=
  let '(f, face, (a, b, c)) := t in
  exists x y z, face.*1 !! a = Some x /\ face.*1 !! b = Some y /\ face.*1 !! c = Some z /\ ids = [x; y; z; n].
(** The point inside the face, the second and the third vertex of the triangle, then the point inside. *)
Definition tetra_ids_inner (n m : nat) (t : triangle) (ids : list nat) : Prop :=
  let '(f, face, (a, b, c)) := t in
  exists y z, face.*1 !! b = Some y /\ face.*1 !! c = Some z /\ ids = [n + f; y; z; n + m].
(** The points of the tetrahedron over a triangle, found in one list of all points: vertices, points inside the faces if any, point inside. *)
Definition points_of {P} (all : list P) (ids : list nat) (points : list P) : Prop := Forall2 (fun i p => all !! i = Some p) ids points.

(** The edge joins vertex 0 with [v]; the edges do not touch vertex 0. *)
Definition from_zero (x : nat * nat) (v : nat) : Prop := x = (0, v) \/ x = (v, 0).
Definition away (l : list (nat * nat)) : Prop := Forall (fun x => x.1 <> 0 /\ x.2 <> 0) l.
(** Vertex 0, and the other ends of the first three edges at it. *)
Definition first_three (edges : list (nat * nat)) (l : list nat) : Prop :=
  exists l1 x1 l2 x2 l3 x3 l4 a b c, edges = l1 ++ x1 :: l2 ++ x2 :: l3 ++ x3 :: l4 /\ away l1 /\ away l2 /\ away l3 /\
    from_zero x1 a /\ from_zero x2 b /\ from_zero x3 c /\ l = [0; a; b; c].

(** The triangles of a face around a point inside it, whose place comes after those of the vertices. *)
Definition cone_triples (face : list (nat * nat)) : list (nat * nat * nat) :=
  (fun v => (length face, v, (v + 1) mod length face)) <$> seq 0 (length face).
