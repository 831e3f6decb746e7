(** * Polyhedra from the lists of the vertices of their faces: what the callers expect. *)
From Verif Require Import Base FacetModel.
Local Open Scope nat_scope.

(** Each element once, in the order of the first appearances. *)
Fixpoint firsts (l : list nat) : list nat :=
  match l with [] => [] | x :: l => x :: filter (fun y => y <> x) (firsts l) end.

(** The edge [e] has the ends [v] and [w], in any order. *)
Definition edge_joins (edges : list (nat * nat)) (e v w : nat) : Prop := edges !! e = Some (v, w) \/ edges !! e = Some (w, v).
(** Column [k] of the face is a vertex and the edge from it to the next one. *)
Definition closed_face (edges : list (nat * nat)) (face : list (nat * nat)) : Prop :=
  forall k v e w e', face !! k = Some (v, e) -> face !! ((k + 1) mod length face) = Some (w, e') -> edge_joins edges e v w.

(** The polyhedron with the given faces: its vertices are those of the faces, with their points, numbered in the order in which the faces
    name them; its faces are the given ones, closed by edges; its edges are sides of faces, each there once. *)
Record polyhedron_of {P} (points : list P) (facets : list (list nat)) (p : polyhedron P) : Prop := {
  po_vertices : Forall2 (fun a x => points !! a = Some x) (firsts (concat facets)) (ph_vertices p);
  po_faces : Forall2 (Forall2 (fun (x : nat * nat) a => firsts (concat facets) !! x.1 = Some a)) (ph_faces p) facets;
  po_closed : Forall (closed_face (ph_edges p)) (ph_faces p);
  po_used : forall e, e < length (ph_edges p) -> exists face k v, face ∈ ph_faces p /\ face !! k = Some (v, e);
  po_once : forall e e' v w, edge_joins (ph_edges p) e v w -> edge_joins (ph_edges p) e' v w -> e = e'
}.

(** The face gone round the other way from the same first vertex. *)
Definition turned (vs : list nat) : list nat := match vs with [] => [] | v :: vs => v :: reverse vs end.
