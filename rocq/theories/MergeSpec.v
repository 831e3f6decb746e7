(** * Two polyhedra merged into one along a common face: what the callers expect. *)
From Verif Require Import Base FacetModel MergeModel.
Local Open Scope nat_scope.

(** Cells of two polyhedra put together.  The two lists of new numbers are inverse to the list of old numbers; every cell which stays has a
    new number, the others have none; the cells which become one are exactly those which are the same. *)
Record put_together (n1 n2 : nat) (stays1 stays2 : nat -> Prop) (same : nat -> nat -> Prop) (r : merging) : Prop := {
  pt_length : length (mg_one r) = n1 /\ length (mg_two r) = n2;
  pt_one : forall v i, mg_one r !! v = Some (Some i) <-> exists y, mg_old r !! i = Some (Some v, y);
  pt_two : forall w i, mg_two r !! w = Some (Some i) <-> exists x, mg_old r !! i = Some (x, Some w);
  pt_stays1 : forall v, v < n1 -> (exists i, mg_one r !! v = Some (Some i)) <-> stays1 v;
  pt_stays2 : forall w, w < n2 -> (exists i, mg_two r !! w = Some (Some i)) <-> stays2 w;
  pt_same : forall v w, (exists i, mg_old r !! i = Some (Some v, Some w)) <-> same v w;
  pt_some : forall i x y, mg_old r !! i = Some (x, y) -> x <> None \/ y <> None
}.

(** The two cells are at the same place of the two lists. *)
Definition same_place (vs ws : list nat) (v w : nat) : Prop := exists k, vs !! k = Some v /\ ws !! k = Some w.

(** The edges join vertices, and the faces have vertices and edges, of the polyhedron. *)
Definition proper_polyhedron {P} (p : polyhedron P) : Prop :=
  Forall (fun e => e.1 < length (ph_vertices p) /\ e.2 < length (ph_vertices p)) (ph_edges p) /\
  Forall (Forall (fun x => x.1 < length (ph_vertices p) /\ x.2 < length (ph_edges p))) (ph_faces p).
(** Entry by entry, the numbers are replaced by the new ones. *)
Definition renumbered (a b : list (option nat)) (x : nat * nat) (y : option nat * option nat) : Prop :=
  exists s t, y = (Some s, Some t) /\ a !! x.1 = Some (Some s) /\ b !! x.2 = Some (Some t).
(** The cell [new] comes from one of the first polyhedron, or else of the second one. *)
Definition comes_from {A B} (one two : list A) (R1 R2 : A -> B -> Prop) (old : option nat * option nat) (new : B) : Prop :=
  match old with
  | (Some v, _) => exists a, one !! v = Some a /\ R1 a new
  | (None, Some w) => exists a, two !! w = Some a /\ R2 a new
  | (None, None) => False
  end.

Record merged_by_face {P} (one two : polyhedron P) (f1 f2 : nat) (face1 face2 : list (nat * nat)) (remove : bool) (r : merged_polyhedron P) : Prop := {
  mf_vertices : put_together (length (ph_vertices one)) (length (ph_vertices two)) (fun _ => True) (fun _ => True) (same_place face1.*1 face2.*1) (mp_v r);
  mf_edges : put_together (length (ph_edges one)) (length (ph_edges two)) (fun _ => True) (fun _ => True) (same_place face1.*2 face2.*2) (mp_e r);
  mf_faces : put_together (length (ph_faces one)) (length (ph_faces two)) (fun f => remove = true -> f <> f1) (fun f => remove = true -> f <> f2)
    (fun v w => remove = false /\ v = f1 /\ w = f2) (mp_f r);
  mf_points : Forall2 (comes_from (ph_vertices one) (ph_vertices two) eq eq) (mg_old (mp_v r)) (mp_vertices r);
  mf_ends : Forall2 (comes_from (ph_edges one) (ph_edges two) (renumbered (mg_one (mp_v r)) (mg_one (mp_v r))) (renumbered (mg_two (mp_v r)) (mg_two (mp_v r))))
    (mg_old (mp_e r)) (mp_edges r);
  mf_columns : Forall2 (comes_from (ph_faces one) (ph_faces two) (Forall2 (renumbered (mg_one (mp_v r)) (mg_one (mp_e r))))
    (Forall2 (renumbered (mg_two (mp_v r)) (mg_two (mp_e r))))) (mg_old (mp_f r)) (mp_faces r)
}.

(** A polyhedron sits inside the merged one under the new numbers of its cells: with its points, with its edges up to their direction and with
    its faces. *)
Record sits_in {P} (p : polyhedron P) (a b c : list (option nat)) (r : merged_polyhedron P) : Prop := {
  si_points : forall v i, a !! v = Some (Some i) -> mp_vertices r !! i = ph_vertices p !! v;
  si_ends : forall e i x, b !! e = Some (Some i) -> ph_edges p !! e = Some x ->
    exists y, mp_edges r !! i = Some y /\ (renumbered a a x y \/ renumbered a a (x.2, x.1) y);
  si_columns : forall f i x, c !! f = Some (Some i) -> ph_faces p !! f = Some x -> exists y, mp_faces r !! i = Some y /\ Forall2 (renumbered a b) x y
}.
