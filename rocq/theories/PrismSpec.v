(** * Tetrahedra, parallelepipeds and extruded polygons: what the callers expect. *)
From Verif Require Import Base FacetModel FacetSpec MergeSpec.
Local Open Scope nat_scope.

(** Edge [e] is one of those of face [f]. *)
Definition edge_of_face (faces : list (list (nat * nat))) (e f : nat) : Prop := exists face v, faces !! f = Some face /\ (v, e) ∈ face.
(** A closed polyhedron: all numbers are in range, the faces go round along edges without coming back to a vertex, no edge is there twice or joins a
    vertex with itself, and every edge is in exactly two faces. *)
Record closed_polyhedron {P} (p : polyhedron P) : Prop := {
  cp_proper : proper_polyhedron p;
  cp_faces : Forall (fun face => 3 <= length face /\ NoDup face.*1 /\ closed_face (ph_edges p) face) (ph_faces p);
  cp_loops : Forall (fun x => x.1 <> x.2) (ph_edges p);
  cp_once : forall e e' v w, edge_joins (ph_edges p) e v w -> edge_joins (ph_edges p) e' v w -> e = e';
  cp_two : forall e, e < length (ph_edges p) -> exists f g, f <> g /\ forall h, edge_of_face (ph_faces p) e h <-> h = f \/ h = g
}.
