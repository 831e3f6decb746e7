(** * Property C107: two polyhedra merged into one along a common face. *)
From Verif Require Import Base BaseProof FacetModel FacetSpec FacetProps MergeModel MergeSpec MergeProof.
Local Open Scope nat_scope.

(** Two polyhedra are merged along one face of each: the vertices and the edges at the same places of the two faces become one, everything else
    stays apart, and the common face goes away or is there once. *)
Theorem C107_merge {P} (one two : polyhedron P) f1 f2 face1 face2 remove : proper_polyhedron one -> proper_polyhedron two ->
  ph_faces one !! f1 = Some face1 -> ph_faces two !! f2 = Some face2 -> length face1 = length face2 ->
  NoDup face1.*1 -> NoDup face2.*1 -> NoDup face1.*2 -> NoDup face2.*2 ->
  exists info r, MergePolyhedronByFace one two f1 f2 remove = Ok info /\ MergePolyhedrons one two info = Ok r /\
    merged_by_face one two f1 f2 face1 face2 remove r.
Proof. intros PO PT F1 F2 LE V1 V2 E1 E2. exact (merge_ok one two PO PT f1 f2 face1 face2 F1 F2 LE V1 V2 E1 E2 remove). Qed.
Print Assumptions C107_merge.

(** Both polyhedra sit inside the merged one, the second one when the two faces have the same points at the same places. *)
Theorem C107_inside {P} (one two : polyhedron P) f1 f2 face1 face2 remove info r : proper_polyhedron one -> proper_polyhedron two ->
  ph_faces one !! f1 = Some face1 -> ph_faces two !! f2 = Some face2 -> length face1 = length face2 ->
  NoDup face1.*1 -> NoDup face2.*1 -> NoDup face1.*2 -> NoDup face2.*2 ->
  MergePolyhedronByFace one two f1 f2 remove = Ok info -> MergePolyhedrons one two info = Ok r ->
  sits_in one (mg_one (mp_v r)) (mg_one (mp_e r)) (mg_one (mp_f r)) r /\
  ((forall v w, same_place face1.*1 face2.*1 v w -> ph_vertices one !! v = ph_vertices two !! w) ->
   closed_face (ph_edges one) face1 -> closed_face (ph_edges two) face2 ->
   sits_in two (mg_two (mp_v r)) (mg_two (mp_e r)) (mg_two (mp_f r)) r).
Proof.
  intros PO PT F1 F2 LE V1 V2 E1 E2 I R.
  destruct (merge_ok one two PO PT f1 f2 face1 face2 F1 F2 LE V1 V2 E1 E2 remove) as (info' & r' & I' & R' & M).
  assert (info' = info) as -> by congruence. assert (r' = r) as -> by congruence. split.
  - exact (sits_one one two f1 f2 face1 face2 remove r M).
  - exact (sits_two one two f1 f2 face1 face2 F1 F2 LE remove r M).
Qed.
Print Assumptions C107_inside.

(** How many vertices, edges and faces there are. *)
Theorem C107_counts {P} (one two : polyhedron P) f1 f2 face1 face2 remove info r : proper_polyhedron one -> proper_polyhedron two ->
  ph_faces one !! f1 = Some face1 -> ph_faces two !! f2 = Some face2 -> length face1 = length face2 ->
  NoDup face1.*1 -> NoDup face2.*1 -> NoDup face1.*2 -> NoDup face2.*2 ->
  MergePolyhedronByFace one two f1 f2 remove = Ok info -> MergePolyhedrons one two info = Ok r ->
  length (mp_vertices r) + length face1 = length (ph_vertices one) + length (ph_vertices two) /\
  length (mp_edges r) + length face1 = length (ph_edges one) + length (ph_edges two) /\
  length (mp_faces r) + (if (remove : bool) then 2 else 1) = length (ph_faces one) + length (ph_faces two).
Proof.
  intros PO PT F1 F2 LE V1 V2 E1 E2 I R.
  destruct (merge_ok one two PO PT f1 f2 face1 face2 F1 F2 LE V1 V2 E1 E2 remove) as (info' & r' & I' & R' & M).
  assert (info' = info) as -> by congruence. assert (r' = r) as -> by congruence.
  exact (counts one two f1 f2 face1 face2 remove r M F1 F2 LE V1 E1).
Qed.
Print Assumptions C107_counts.

(** The pyramid and the one on the other side of its base; the base of the latter is listed in the same order, or in the opposite one. *)
Definition pyramid_below (base : list (nat * nat)) : polyhedron nat := Polyhedron [103; 102; 101; 100; 205] (ph_edges pyramid_built) (base :: tail (ph_faces pyramid_built)).
Definition same_base : list (nat * nat) := [(0, 0); (1, 1); (2, 2); (3, 3)].
Definition opposite_base : list (nat * nat) := [(0, 3); (3, 2); (2, 1); (1, 0)].
Lemma pyramid_proper : proper_polyhedron pyramid_built.
Proof. split; repeat constructor; cbn; lia. Qed.
Lemma below_proper : proper_polyhedron (pyramid_below same_base) /\ proper_polyhedron (pyramid_below opposite_base).
Proof. split; split; repeat constructor; cbn; lia. Qed.
Definition merged_below base remove : outcome (merged_polyhedron nat) :=
  info ← MergePolyhedronByFace pyramid_built (pyramid_below base) 0 0 remove; MergePolyhedrons pyramid_built (pyramid_below base) info.
Lemma base_closed base : base = same_base \/ base = opposite_base -> closed_face (ph_edges pyramid_built) base.
Proof.
  intros B k v e w e' K W. destruct B as [-> | ->]; do 4 (destruct k as [|k]; [injection K as <- <-; injection W as <- <-; by (left; reflexivity) || (right; reflexivity)|]); done.
Qed.
Example C107_nonvacuous : proper_polyhedron pyramid_built /\ proper_polyhedron (pyramid_below same_base) /\
  ph_faces pyramid_built !! 0 = Some same_base /\ ph_faces (pyramid_below same_base) !! 0 = Some same_base /\
  NoDup same_base.*1 /\ NoDup same_base.*2 /\ closed_face (ph_edges pyramid_built) same_base /\
  (forall v w, same_place same_base.*1 same_base.*1 v w -> ph_vertices pyramid_built !! v = ph_vertices (pyramid_below same_base) !! w) /\
  (exists r, merged_below same_base true = Ok r /\ mp_vertices r = [103; 102; 101; 100; 105; 205] /\ length (mp_edges r) = 12 /\ length (mp_faces r) = 8) /\
  (exists r, merged_below same_base false = Ok r /\ mp_vertices r = [103; 102; 101; 100; 105; 205] /\ length (mp_edges r) = 12 /\ length (mp_faces r) = 9).
Proof.
  split; [exact pyramid_proper|]. split; [exact (proj1 below_proper)|]. split; [done|]. split; [done|].
  split; [apply (bool_decide_unpack _); vm_compute; done|]. split; [apply (bool_decide_unpack _); vm_compute; done|].
  split; [apply base_closed; by left|]. split.
  { intros v w (k & V & W). assert (v = w) as -> by congruence. do 4 (destruct k as [|k]; [by injection V as <-|]). done. }
  split; (eexists; split; [vm_compute; reflexivity|]; repeat split).
Qed.

(** The vertices of the two faces are put together place by place, whatever their points are.  When the common face is listed in the opposite
    order in the second polyhedron, as it is when the faces of both are listed as seen from outside, the second polyhedron is destroyed without
    a word. *)
Theorem C107_opposite_refuted : proper_polyhedron (pyramid_below opposite_base) /\ closed_face (ph_edges (pyramid_below opposite_base)) opposite_base /\
  (forall v, v ∈ same_base.*1 -> v ∈ opposite_base.*1 /\ ph_vertices pyramid_built !! v = ph_vertices (pyramid_below opposite_base) !! v) /\
  exists info r, MergePolyhedronByFace pyramid_built (pyramid_below opposite_base) 0 0 true = Ok info /\
    MergePolyhedrons pyramid_built (pyramid_below opposite_base) info = Ok r /\
    ~ sits_in (pyramid_below opposite_base) (mg_two (mp_v r)) (mg_two (mp_e r)) (mg_two (mp_f r)) r.
Proof.
  split; [exact (proj2 below_proper)|]. split; [apply base_closed; by right|]. split.
  { intros v V. apply elem_of_list_lookup in V as [k V]. do 4 (destruct k as [|k]; [injection V as <-; split; [apply (bool_decide_unpack _); vm_compute; done|done]|]). done. }
  eexists _, _. split; [vm_compute; reflexivity|]. split; [vm_compute; reflexivity|]. intros [H _ _]. specialize (H 1 3 eq_refl). discriminate H.
Qed.
Print Assumptions C107_opposite_refuted.
