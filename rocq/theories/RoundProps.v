(** * Property C111: the tangents of the edges of the faces of a polyhedron lead round the faces. *)
From Coq Require Import QArith Qcanon.
From Verif Require Import Base BaseProof FillModel MapModel FacetModel FacetSpec MergeSpec PrismModel PrismSpec PrismProof RoundModel RoundSpec RoundProof.
Local Open Scope nat_scope.

(** Turned by the directions, the tangents of the edges lead from each vertex of a face to the next; the directions are right exactly where the edge
    begins at the vertex. *)
Theorem C111_round (p : polyhedron vec3) : proper_polyhedron p -> Forall (closed_face (ph_edges p)) (ph_faces p) ->
  exists ts rows ds fts, PolyhedronEdgeTangents (ph_vertices p) (ph_edges p) = Ok ts /\ PolyhedronFaceVertices (ph_vertices p) (ph_faces p) = Ok rows /\
    PolyhedronFaceEdgeDirections (ph_edges p) (ph_faces p) = Ok ds /\ PolyhedronFaceEdgeTangents (ph_faces p) ds ts = Ok fts /\
    Forall2 leads_round rows fts /\
    Forall2 (Forall2 (fun (x : nat * nat) b => exists e, ph_edges p !! x.2 = Some e /\ (b = true <-> e.1 = x.1))) (ph_faces p) ds /\
    Forall2 (Forall2 (fun (x : nat * nat) a => ph_vertices p !! x.1 = Some a)) (ph_faces p) rows.
Proof. exact (rows_ok p). Qed.
Print Assumptions C111_round.

(** So the tangents of a face add up to nothing. *)
Theorem C111_sum (p : polyhedron vec3) ts ds fts : proper_polyhedron p -> Forall (closed_face (ph_edges p)) (ph_faces p) ->
  PolyhedronEdgeTangents (ph_vertices p) (ph_edges p) = Ok ts -> PolyhedronFaceEdgeDirections (ph_edges p) (ph_faces p) = Ok ds ->
  PolyhedronFaceEdgeTangents (ph_faces p) ds ts = Ok fts -> Forall (fun l => sum3 l = (0%Qc, 0%Qc, 0%Qc)) fts.
Proof.
  intros PP CF T D F. destruct (rows_ok p PP CF) as (ts' & rows & ds' & fts' & T' & _ & D' & F' & R & _).
  assert (ts' = ts) as -> by congruence. assert (ds' = ds) as -> by congruence. assert (fts' = fts) as -> by congruence.
  clear - R. induction R as [|row l rows fts H R IH]; constructor; [exact (round_sum row l H)|exact IH].
Qed.
Print Assumptions C111_sum.

(** A tetrahedron. *)
Definition corner : polyhedron vec3 := CreateTetrahedronWithVertices (0%Qc, 0%Qc, 0%Qc) (1%Qc, 0%Qc, 0%Qc) (0%Qc, 1%Qc, 0%Qc) (0%Qc, 0%Qc, 1%Qc).
Example C111_nonvacuous : proper_polyhedron corner /\ Forall (closed_face (ph_edges corner)) (ph_faces corner) /\
  PolyhedronFaceEdgeDirections (ph_edges corner) (ph_faces corner) = Ok [[true; true; false]; [true; true; false]; [true; true; false]; [true; true; false]].
Proof.
  pose proof (tetrahedron_closed (0%Qc, 0%Qc, 0%Qc) (1%Qc, 0%Qc, 0%Qc) (0%Qc, 1%Qc, 0%Qc) (0%Qc, 0%Qc, 1%Qc)) as H.
  split; [exact (cp_proper _ H)|]. split; [|vm_compute; reflexivity]. eapply Forall_impl; [exact (cp_faces _ H)|]. intros face (_ & _ & C). exact C.
Qed.
