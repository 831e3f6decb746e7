(** * Property C42: splitting a polygon by a segment gives a consistent subdivision.

    The vertices of the polygon are [0 .. n-1] and edge [i] goes from vertex [i] to vertex [i + 1]; new points and new edges are
    numbered from [n] on.  [well_formed]: the ends of the segment are vertices or points inside edges, and not the same vertex. *)
From Verif Require Import Base CutModel CutSpec CutProof.

(** A segment whose ends are not on a common edge gives two polygons: [two_halves] says that together they go along every
    part of the boundary once and along the segment once in each direction, that the listed edges of each are a closed
    chain along its listed vertices, and that the new edges record their old edge and their polygons. *)
Theorem C42_creation : forall inp, well_formed inp ->
  (forall a, a ∈ aligned_edges inp -> ~ (a.1 <= origin_index inp /\ end_index inp <= a.2)) -> ~ on_boundary inp ->
  exists r, SplitPolygonWithSegment inp = Ok r /\ two_halves inp r.
Proof. exact split_creation. Qed.
Print Assumptions C42_creation.

(** A segment on an edge with an end inside it gives the same polygon with the new points and the parts of the edges. *)
Theorem C42_update : forall inp, well_formed inp -> (origin_type inp = EndEdge \/ end_type_of inp = EndEdge) ->
  (on_boundary inp \/ exists a, a ∈ aligned_edges inp /\ a.1 <= origin_index inp /\ end_index inp <= a.2) ->
  exists r, SplitPolygonWithSegment inp = Ok r /\ one_polygon inp r /\ length (new_vertices r) = length (vertex_types inp) /\
    (origin_type inp = EndVertex \/ end_type_of inp = EndVertex \/ number_vertices inp = 4 -> new_vertices r = vertex_types inp).
Proof. exact split_update_types. Qed.
Print Assumptions C42_update.

(** Two ends of an edge: nothing to do. *)
Theorem C42_no_action : forall inp, well_formed inp -> origin_type inp = EndVertex -> end_type_of inp = EndVertex -> on_boundary inp ->
  SplitPolygonWithSegment inp = Ok (SplitResult NoAction [] [] []).
Proof. exact split_nothing. Qed.
Print Assumptions C42_no_action.

(** Both ends inside the same edge of a polygon which is not a quadrilateral: the recorded types of the new vertices are wrong. *)
Theorem C42_vertex_types_refuted : forall inp, well_formed inp -> origin_type inp = EndEdge -> end_type_of inp = EndEdge ->
  origin_index inp = end_index inp -> number_vertices inp <> 4 ->
  exists r, SplitPolygonWithSegment inp = Ok r /\ new_vertices r <> vertex_types inp.
Proof. exact split_wrong_types. Qed.
Print Assumptions C42_vertex_types_refuted.

(** A diagonal of a hexagon from vertex 5 to vertex 2 is ignored because vertices 1, 2 and 3 are declared to be aligned,
    although vertex 5 is not one of them. *)
Theorem C42_aligned_refuted : let inp := SplitInput 6 [(1, 3)] EndVertex 5 EndVertex 2 in
  well_formed inp /\ ~ on_boundary inp /\ SplitPolygonWithSegment inp = Ok (SplitResult NoAction [] [] []).
Proof. exact aligned_ignored. Qed.
Print Assumptions C42_aligned_refuted.

(** A pentagon cut from the inside of edge 3 to vertex 1. *)
Example C42_nonvacuous : let inp := SplitInput 5 [] EndEdge 3 EndVertex 1 in
  well_formed inp /\ ~ on_boundary inp /\
  SplitPolygonWithSegment inp =
  Ok (SplitResult PolygonCreation [SegmentOrigin]
        [NewEdge EdgeNew 0 5 1 [0; 1]; NewEdge EdgeUpdate 3 3 5 [1]; NewEdge EdgeUpdate 3 5 4 [0]]
        [NewPolygon [0; 1; 5; 4] [0; 5; 7; 4]; NewPolygon [2; 3; 5; 1] [2; 6; 5; 1]]).
Proof.
  cbn zeta. split; [|split; [|vm_compute; reflexivity]].
  - repeat split; cbn; try lia; naive_solver.
  - intros (e & He & H1 & H2). unfold on_edge in H1, H2. cbn in H1. subst e. cbn in H2. lia.
Qed.
Example C42_update_nonvacuous : let inp := SplitInput 4 [] EndEdge 2 EndEdge 2 in
  well_formed inp /\ on_boundary inp /\
  SplitPolygonWithSegment inp =
  Ok (SplitResult PolygonUpdate [SegmentOrigin; SegmentEnd]
        [NewEdge EdgeUpdate 2 2 4 [0]; NewEdge EdgeUpdate 2 4 5 [0]; NewEdge EdgeUpdate 2 5 3 [0]]
        [NewPolygon [0; 1; 2; 4; 5; 3] [0; 1; 4; 5; 6; 3]]).
Proof.
  cbn zeta. split; [|split; [|vm_compute; reflexivity]].
  - repeat split; cbn; try lia; naive_solver.
  - exists 2. repeat split; cbn; lia.
Qed.
