(** * Two polyhedra merged into one along a common face.
    File: GMP = GeDiM/src/Geometry/GeometryUtilities_merged_polyhedrons.cpp.  The marker [none] (UINT_MAX) is [None]. *)
From Verif Require Import Base FacetModel.
Local Open Scope nat_scope.

(** MergePolyhedronsInput::MergeTypes with the index which goes with it; the index is read only for [Common] (GMP 118, 198, 286). *)
Inductive merge_type := MNone | MCommon (k : nat) | MRemove.
(** What is said of the cells of one dimension of the two polyhedra: Vertices_Type, Edges_Type or Faces_Type, and Common_vertices,
    Common_edges or Common_faces, GeDiM/src/Geometry/GeometryUtilities.hpp, MergePolyhedronsInput. *)
Record merge_info := MergeInfo { mi_one : list merge_type; mi_two : list merge_type; mi_common : list (nat * nat) }.

(** One step of the loop over the common face, GMP 48-65, for the vertices or for the edges: [v] and [w] are the cells of the two faces
    at place [k]. *)
Definition common_step (st : merge_info) (x : nat * (nat * nat)) : outcome merge_info :=
  let '(k, (v, w)) := x in
  one ← vset (mi_one st) v (MCommon k);
  two ← vset (mi_two st) w (MCommon k);
  common ← vset (mi_common st) k (v, w);
  Ok (MergeInfo one two common).
Definition common_cells (n1 n2 : nat) (vs ws : list nat) : outcome merge_info :=
  ofold common_step (zip (seq 0 (length vs)) (zip vs ws)) (MergeInfo (replicate n1 MNone) (replicate n2 MNone) (replicate (length vs) (0, 0))).
(** MergePolyhedronByFace, GMP 17-83: what is said of vertices, edges and faces.  The loop of the code does the steps for the vertices and
    for the edges in turn; they touch different lists, so they are separated here. *)
Definition MergePolyhedronByFace {P} (one two : polyhedron P) (f1 f2 : nat) (remove : bool) : outcome (merge_info * merge_info * merge_info) :=
  face1 ← vat (ph_faces one) f1;
  face2 ← vat (ph_faces two) f2;
  require (length face1 =? length face2);;
  vertices ← common_cells (length (ph_vertices one)) (length (ph_vertices two)) face1.*1 face2.*1;
  edges ← common_cells (length (ph_edges one)) (length (ph_edges two)) face1.*2 face2.*2;
  let t := if remove then MRemove else MCommon 0 in
  t1 ← vset (replicate (length (ph_faces one)) MNone) f1 t;
  t2 ← vset (replicate (length (ph_faces two)) MNone) f2 t;
  Ok (vertices, edges, MergeInfo t1 t2 (if remove then [] else [(f1, f2)])).

(** The lists filled for one dimension: new numbers of the cells of the first and second polyhedron, old numbers of the new cells. *)
Record merging := Merging { mg_one : list (option nat); mg_two : list (option nat); mg_old : list (option nat * option nat) }.
(** The type of a cell, e.g. GMP 106-108: none when the list of types has not the right length. *)
Definition type_of (types : list merge_type) (n v : nat) : outcome merge_type := if length types =? n then vat types v else Ok MNone.
(** The loops over the first polyhedron, GMP 104-131, 184-211, 272-298; the missing break in the last one goes on to the next case, which
    does nothing. *)
Definition merge_one (info : merge_info) (n : nat) (st : merging) (v : nat) : outcome merging :=
  t ← type_of (mi_one info) n v;
  let new := length (mg_old st) in
  match t with
  | MNone => a ← vset (mg_one st) v (Some new); Ok (Merging a (mg_two st) (mg_old st ++ [(Some v, None)]))
  | MCommon k =>
      c ← vat (mi_common info) k;
      a ← vset (mg_one st) c.1 (Some new);
      b ← vset (mg_two st) c.2 (Some new);
      Ok (Merging a b (mg_old st ++ [(Some c.1, Some c.2)]))
  | MRemove => Ok st
  end.
(** The loops over the second polyhedron, GMP 136-156, 216-236, 303-323. *)
Definition merge_two (info : merge_info) (n : nat) (st : merging) (w : nat) : outcome merging :=
  t ← type_of (mi_two info) n w;
  match t with
  | MNone => b ← vset (mg_two st) w (Some (length (mg_old st))); Ok (Merging (mg_one st) b (mg_old st ++ [(None, Some w)]))
  | _ => Ok st
  end.
Definition merge_cells (info : merge_info) (n1 n2 : nat) : outcome merging :=
  st ← ofold (merge_one info n1) (seq 0 n1) (Merging (replicate n1 None) (replicate n2 None) []);
  ofold (merge_two info n2) (seq 0 n2) st.
(** What is done for each new cell, GMP 161-171, 241-259, 328-355. *)
Definition from_old {A} (one two : nat -> outcome A) (x : option nat * option nat) : outcome A :=
  match x with
  | (Some v, _) => one v
  | (None, Some w) => two w
  | (None, None) => Throw
  end.
Definition new_edge (edges : list (nat * nat)) (vertices : list (option nat)) (e : nat) : outcome (option nat * option nat) :=
  x ← vget edges e;
  s ← vat vertices x.1;
  t ← vat vertices x.2;
  Ok (s, t).
Definition new_face (faces : list (list (nat * nat))) (vertices edges : list (option nat)) (f : nat) : outcome (list (option nat * option nat)) :=
  face ← vat faces f;
  omapM (fun x => v ← vat vertices x.1; e ← vat edges x.2; Ok (v, e)) face.
Record merged_polyhedron (P : Type) := MergedPolyhedron { mp_vertices : list P; mp_edges : list (option nat * option nat);
  mp_faces : list (list (option nat * option nat)); mp_v : merging; mp_e : merging; mp_f : merging }.
Arguments MergedPolyhedron {P}. Arguments mp_vertices {P}. Arguments mp_edges {P}. Arguments mp_faces {P}.
Arguments mp_v {P}. Arguments mp_e {P}. Arguments mp_f {P}.
(** MergePolyhedrons, GMP 85-358. *)
Definition MergePolyhedrons {P} (one two : polyhedron P) (info : merge_info * merge_info * merge_info) : outcome (merged_polyhedron P) :=
  v ← merge_cells info.1.1 (length (ph_vertices one)) (length (ph_vertices two));
  vertices ← omapM (from_old (vget (ph_vertices one)) (vget (ph_vertices two))) (mg_old v);
  e ← merge_cells info.1.2 (length (ph_edges one)) (length (ph_edges two));
  edges ← omapM (from_old (new_edge (ph_edges one) (mg_one v)) (new_edge (ph_edges two) (mg_two v))) (mg_old e);
  f ← merge_cells info.2 (length (ph_faces one)) (length (ph_faces two));
  faces ← omapM (from_old (new_face (ph_faces one) (mg_one v) (mg_one e)) (new_face (ph_faces two) (mg_two v) (mg_two e))) (mg_old f);
  Ok (MergedPolyhedron vertices edges faces v e f).
