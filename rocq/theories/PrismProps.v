(** * Property C110: tetrahedra, parallelepipeds and extruded polygons are closed polyhedra. *)
From Verif Require Import Base BaseProof FacetModel FacetSpec MergeSpec PrismModel PrismSpec PrismProof.
Local Open Scope nat_scope.

(** A polygon with at least three vertices, extruded: the polyhedron is closed, with the polygon as its base and the moved polygon as its top. *)
Theorem C110_extrusion {P} (add : P -> P -> P) polygon heights : 3 <= length polygon -> length polygon = length heights ->
  exists p, CreatePolyhedronWithExtrusion add polygon heights = Ok p /\ closed_polyhedron p /\
    length (ph_vertices p) = 2 * length polygon /\ length (ph_edges p) = 3 * length polygon /\ length (ph_faces p) = length polygon + 2 /\
    (forall v x h, polygon !! v = Some x -> heights !! v = Some h -> ph_vertices p !! v = Some x /\ ph_vertices p !! (length polygon + v) = Some (add x h)).
Proof. exact (extrusion_ok add polygon heights). Qed.
Print Assumptions C110_extrusion.

(** So are tetrahedra and parallelepipeds, whatever their points. *)
Theorem C110_solids {P} (add : P -> P -> P) (a b c d : P) : closed_polyhedron (CreateTetrahedronWithVertices a b c d) /\
  closed_polyhedron (CreateTetrahedronWithOrigin add a b c d) /\ closed_polyhedron (CreateParallelepipedWithOrigin add a b c d).
Proof. split; [apply tetrahedron_closed|]. split; [apply tetrahedron_origin_closed|apply parallelepiped_closed]. Qed.
Print Assumptions C110_solids.

Example C110_nonvacuous : 3 <= length [1; 2; 3; 4; 5] /\ length [1; 2; 3; 4; 5] = length [10; 20; 30; 40; 50] /\
  exists p, CreatePolyhedronWithExtrusion Nat.add [1; 2; 3; 4; 5] [10; 20; 30; 40; 50] = Ok p /\
    ph_vertices p = [1; 2; 3; 4; 5; 11; 22; 33; 44; 55] /\ ph_faces p !! 6 = Some [(4, 4); (0, 10); (5, 9); (9, 14)].
Proof. split; [cbn; lia|]. split; [done|]. eexists. split; [vm_compute; reflexivity|]. split; reflexivity. Qed.

(** Three vertices are needed: with two the polyhedron is not closed, because the two sides of the polygon are the same edge, listed twice. *)
Example C110_two_vertices : exists p, CreatePolyhedronWithExtrusion Nat.add [1; 2] [10; 20] = Ok p /\ ~ closed_polyhedron p.
Proof.
  eexists. split; [vm_compute; reflexivity|]. intros [_ _ _ H _]. specialize (H 0 1 0 1 (or_introl eq_refl) (or_intror eq_refl)). discriminate H.
Qed.
