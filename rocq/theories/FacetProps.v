(** * Property C105: a polyhedron built from the vertices of its faces.  Property C106: turning the faces of a polyhedron round. *)
From Verif Require Import Base BaseProof FacetModel FacetSpec FacetProof.
Local Open Scope nat_scope.

(** In whatever order the maps are gone through, the polyhedron with the given faces is built. *)
Theorem C105_polyhedron {P} ov oe (points : list P) facets : (forall l, ov l ≡ₚ l) -> (forall l, oe l ≡ₚ l) ->
  Forall (Forall (fun a => a < length points)) facets ->
  exists p, FacetsToPolyhedron ov oe points facets = Ok p /\ polyhedron_of points facets p.
Proof. intros OV OE IN. exact (build_spec ov oe OV OE points facets IN). Qed.
Print Assumptions C105_polyhedron.

(** Back to the vertices of the faces: they are the same vertices under their new numbers, and the same numbers when the faces name all
    points in order. *)
Theorem C105_back {P} ov oe (points : list P) facets p : (forall l, ov l ≡ₚ l) -> (forall l, oe l ≡ₚ l) ->
  Forall (Forall (fun a => a < length points)) facets -> FacetsToPolyhedron ov oe points facets = Ok p ->
  Forall2 (Forall2 (fun v a => ph_vertices p !! v = points !! a)) (PolyhedronToFacets p) facets /\
  (firsts (concat facets) = seq 0 (length points) -> PolyhedronToFacets p = facets /\ ph_vertices p = points).
Proof.
  intros OV OE IN E. destruct (build_spec ov oe OV OE points facets IN) as (p' & E' & H). assert (p' = p) as -> by congruence. split.
  - eapply Forall2_impl; [exact (back points facets p H)|]. intros row facet R. eapply Forall2_impl; [exact R|]. intros v a A. cbn in A.
    destruct (Forall2_lookup_l _ _ _ v a (po_vertices _ _ _ H) A) as (x & X & Y). rewrite X, Y. reflexivity.
  - intros S. exact (back_same points facets p S H).
Qed.
Print Assumptions C105_back.

(** A pyramid over a square; point 4 is not used, and the first face names the vertices in another order. *)
Definition pyramid_facets : list (list nat) := [[3; 2; 1; 0]; [0; 1; 5]; [1; 2; 5]; [2; 3; 5]; [3; 0; 5]].
Definition pyramid_points : list nat := [100; 101; 102; 103; 104; 105].
Definition pyramid : outcome (polyhedron nat) := FacetsToPolyhedron (fun l => reverse l) (fun l => l) pyramid_points pyramid_facets.
Lemma pyramid_in : Forall (Forall (fun a => a < length pyramid_points)) pyramid_facets.
Proof. repeat (constructor; [repeat (constructor; [cbn; lia|]); constructor|]). constructor. Qed.
Definition pyramid_built : polyhedron nat := Polyhedron [103; 102; 101; 100; 105] [(1, 0); (2, 1); (3, 2); (3, 0); (2, 4); (3, 4); (1, 4); (0, 4)]
  [[(0, 0); (1, 1); (2, 2); (3, 3)]; [(3, 2); (2, 4); (4, 5)]; [(2, 1); (1, 6); (4, 4)]; [(1, 0); (0, 7); (4, 6)]; [(0, 3); (3, 5); (4, 7)]].
Example C105_nonvacuous : (forall l : list (nat * nat), reverse l ≡ₚ l) /\ Forall (Forall (fun a => a < length pyramid_points)) pyramid_facets /\
  pyramid = Ok pyramid_built /\ PolyhedronToFacets pyramid_built = [[0; 1; 2; 3]; [3; 2; 4]; [2; 1; 4]; [1; 0; 4]; [0; 3; 4]] /\
  firsts (concat (PolyhedronToFacets pyramid_built)) = seq 0 5.
Proof.
  split; [intros l; apply reverse_Permutation|]. split; [exact pyramid_in|]. split; [vm_compute; reflexivity|]. split; vm_compute; reflexivity.
Qed.

(** A face turned round has the same vertices from the same first one on in the opposite order; if its edges joined its vertices they still
    do; turned round again it is the face it was. *)
Theorem C106_turned {P} (p : polyhedron P) f face : ph_faces p !! f = Some face -> face <> [] ->
  exists new, ChangePolyhedronFaceOrientation p f = Ok new /\ new.*1 = turned face.*1 /\
    (forall edges, closed_face edges face -> closed_face edges new) /\
    forall (q : polyhedron P) h, ph_faces q !! h = Some new -> ChangePolyhedronFaceOrientation q h = Ok face.
Proof. exact (turn_vertices p f face). Qed.
Print Assumptions C106_turned.

(** Of all faces, those marked are left and the others are turned round. *)
Theorem C106_faces {P} (p : polyhedron P) keep : length keep = length (ph_faces p) -> Forall (fun face => face <> []) (ph_faces p) ->
  exists faces, ChangePolyhedronFacesOrientation p keep = Ok faces /\ length faces = length (ph_faces p) /\
    forall f b face, keep !! f = Some b -> ph_faces p !! f = Some face ->
      exists new, faces !! f = Some new /\ if (b : bool) then new = face else ChangePolyhedronFaceOrientation p f = Ok new.
Proof. exact (turn_faces p keep). Qed.
Print Assumptions C106_faces.

Example C106_nonvacuous : length [false; true; true; false; true] = length (ph_faces pyramid_built) /\
  Forall (fun face => face <> []) (ph_faces pyramid_built) /\ Forall (closed_face (ph_edges pyramid_built)) (ph_faces pyramid_built) /\
  ChangePolyhedronFacesOrientation pyramid_built [false; true; true; false; true] =
    Ok [[(0, 3); (3, 2); (2, 1); (1, 0)]; [(3, 2); (2, 4); (4, 5)]; [(2, 1); (1, 6); (4, 4)]; [(1, 6); (4, 7); (0, 0)]; [(0, 3); (3, 5); (4, 7)]].
Proof.
  split; [reflexivity|]. split; [repeat (constructor; [discriminate|]); constructor|]. split; [|vm_compute; reflexivity].
  destruct (build_spec (fun l => reverse l) (fun l => l) (fun l => reverse_Permutation l) (fun l => reflexivity l) pyramid_points pyramid_facets pyramid_in) as (p & E & H).
  assert (Ok p = Ok pyramid_built) as Q by (rewrite <-E; vm_compute; reflexivity). injection Q as ->. exact (po_closed _ _ _ H).
Qed.

(** A face without vertices: the first entry of an empty list is written. *)
Theorem C106_empty_refuted : ChangePolyhedronFaceOrientation (Polyhedron (P := nat) [] [] [[]]) 0 = UB.
Proof. reflexivity. Qed.
Print Assumptions C106_empty_refuted.
