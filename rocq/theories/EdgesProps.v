(** * Property C18: edges computed from polygons *)
From Verif Require Import Base CsrModel MeshModel MeshHist FillModel FillSpec FillProofB EdgesModel EdgesSpec EdgesProof.

(** Every pair of consecutive vertices exactly once (smaller vertex first) and nothing else; entry [v] of the edges of a
    polygon is the position of the edge between vertex [v] and the next one.  Numbers of sides are 32-bit ([few]). *)
Theorem C18_edges : forall n cells,
  in_range n cells -> (forall c a, c ∈ cells -> ~ follows c a a) -> few (length (concat cells)) ->
  exists es rows, ComputeMesh2DCell1Ds n cells = Ok (es, rows) /\
    NoDup es /\ (forall a b, (a, b) ∈ es <-> (a < b)%N /\ joined cells a b) /\
    length rows = length cells /\
    forall c vs, cells !! c = Some vs -> exists row, rows !! c = Some row /\ row.*1 = vs /\
      forall v a b, vs !! v = Some a -> vs !! ((v + 1) mod length vs) = Some b ->
        exists e, row !! v = Some (a, e) /\ es !! N.to_nat e = Some (N.min a b, N.max a b).
Proof. exact edges_ok. Qed.
Print Assumptions C18_edges.

(** The result is what FillMesh2D expects: the mesh has the polygons, and their edges join their consecutive vertices. *)
Theorem C18_mesh : forall m c0 cells,
  blank m -> few (length c0) -> few (length cells) -> few (length (concat cells)) ->
  in_range (length c0) cells -> (forall c a, c ∈ cells -> ~ follows c a a) ->
  exists es rows m', ComputeMesh2DCell1Ds (length c0) cells = Ok (es, rows) /\ FillMesh2D c0 es rows m = Ok m' /\
    num D2 m' = length cells /\
    (forall c vs, cells !! c = Some vs -> RelRow V2 c m' = Ok vs) /\
    forall c vs v a b, cells !! c = Some vs -> vs !! v = Some a -> vs !! ((v + 1) mod length vs) = Some b ->
      exists er e, RelRow E2 c m' = Ok er /\ er !! v = Some e /\
        Cell1DOrigin (N.to_nat e) m' = Ok (N.min a b) /\ Cell1DEnd (N.to_nat e) m' = Ok (N.max a b).
Proof. exact edges_mesh. Qed.
Print Assumptions C18_mesh.

(** Vertices out of range are not detected. *)
Theorem C18_out_of_range : forall n cells, ~ in_range n cells -> ComputeMesh2DCell1Ds n cells = UB.
Proof. exact edges_ub. Qed.
Print Assumptions C18_out_of_range.

(** Two triangles and a quadrilateral around a point. *)
Example C18_nonvacuous : let cells := [[0; 1; 2]; [2; 3; 0]; [0; 3; 4; 1]]%N in
  in_range 5 cells /\ (forall c a, c ∈ cells -> ~ follows c a a) /\ few (length (concat cells)) /\
  ComputeMesh2DCell1Ds 5 cells =
    Ok ([(0, 1); (0, 2); (1, 2); (0, 3); (2, 3); (1, 4); (3, 4)],
        [[(0, 0); (1, 2); (2, 1)]; [(2, 4); (3, 3); (0, 1)]; [(0, 3); (3, 6); (4, 5); (1, 0)]])%N.
Proof.
  cbn zeta. split; [by repeat constructor|]. split; [|split; [done|by vm_compute]].
  intros c a Hc Hf. apply sides_follows in Hf. rewrite !elem_of_cons, elem_of_nil in Hc.
  destruct Hc as [->|[->|[->|[]]]]; cbn in Hf; rewrite !elem_of_cons, elem_of_nil in Hf; naive_solver.
Qed.
(** The hypothesis on consecutive vertices is needed: the number given to the degenerate side is not that of an edge. *)
Example C18_repeated_vertex : ComputeMesh2DCell1Ds 2 [[0; 0; 1]]%N = Ok ([(0, 1)], [[(0, 1); (0, 0); (1, 0)]])%N.
Proof. by vm_compute. Qed.
