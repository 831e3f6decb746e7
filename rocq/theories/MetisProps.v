(** * Properties C26-C30: networks and partitions.  The notions are in MetisSpec.v. *)
From stdpp Require Import relations.
From Verif Require Import Base MeshModel MeshHist MeshWit GraphModel GraphSpec MetisModel MetisSpec
  MetisProof MetisProof2 MetisProof3 MetisProof4.

(** Two triangles 0-1-2 and 3-4-5 joined by the connection 2-3. *)
Definition net_ex (constrained : list bool) : network :=
  Network (MAdj [0; 2; 4; 7; 10; 12; 14] [1; 2; 0; 2; 0; 1; 3; 2; 4; 5; 3; 5; 3; 4]) [] [] constrained.

Lemma net_ex_ok c : adj_ok 6 (nadj (net_ex c)).
Proof.
  split_and!; try done.
  - intros v lo hi. cbn. intros H1 H2. do 7 (destruct v as [|v]; cbn in H1, H2; [simplify_eq; lia|]).
    done.
  - cbn. repeat (constructor; [lia|]). constructor.
Qed.

(** C26. *)
Theorem C26_constraints_repaired net n parts :
  adj_ok n (nadj net) -> length parts = n ->
  edges_constrained net = [] \/ length (edges_constrained net) = length (Cols (nadj net)) ->
  exists parts', PartitionCheckConstraints net parts = Ok parts' /\ length parts' = n /\
    (forall pos u w, entry (nadj net) pos u w -> edges_constrained net !! pos = Some true -> u <> w -> parts' !! u <> parts' !! w) /\
    (forall u w, u < n -> w < n -> parts !! u <> parts !! w -> parts' !! u <> parts' !! w).
Proof. exact (constraints_ok net n parts). Qed.
Print Assumptions C26_constraints_repaired.

(** The connection 2-3 and the triangle 3-4-5 are constrained; all six elements start in part 1. *)
Example C26_example :
  PartitionCheckConstraints
    (net_ex [false; false; false; false; false; false; true; true; true; true; true; true; true; true]) [1; 1; 1; 1; 1; 1]
  = Ok [1; 1; 1; 2; 1; 3].
Proof. vm_compute. reflexivity. Qed.

(** C27. [order] is the order in which the hash maps happen to be iterated. *)
Theorem C27_parts_connected order fuel net n parts :
  (forall l, order l ≡ₚ l) -> n <= fuel -> adj_ok n (nadj net) -> 0 < n -> length parts = n ->
  exists parts', PartitionCheckConnectedComponents order fuel net parts = Ok parts' /\ length parts' = n /\
    forall u w, u < n -> w < n ->
      parts' !! u = parts' !! w <->
      parts !! u = parts !! w /\ reach_inside (nadj net) parts u w /\ reach_inside (nadj net) parts w u.
Proof. exact (components_ok order fuel net n parts). Qed.
Print Assumptions C27_parts_connected.

Example C27_example :
  PartitionCheckConnectedComponents (fun l => l) 6 (net_ex []) [1; 1; 0; 0; 1; 1] = Ok [2; 2; 0; 0; 1; 1].
Proof. vm_compute. reflexivity. Qed.

(** C28. The partition given back by METIS is compacted; [objval] is the reported cut. *)
Theorem C28_compaction_partial numberParts (master : bool) net objval parts n :
  2 <= numberParts -> length (Rows (nadj net)) = n + 1 -> 0 < n -> length parts = n ->
  (forall p, p ∈ parts -> p < numberParts) -> objval <> 0 ->
  exists res, NetworkPartition numberParts master net (Some (MetisOk objval parts)) = Ok res /\
    consecutive (if master then 0 else 1) res /\ same_classes parts res.
Proof. exact (partition_ok numberParts master net objval parts n). Qed.
Print Assumptions C28_compaction_partial.

Example C28_example :
  NetworkPartition 6 false (net_ex []) (Some (MetisOk 3 [1; 4; 4; 1; 5; 1])) = Ok [1; 2; 2; 1; 3; 1] /\
  NetworkPartition 6 true (net_ex []) (Some (MetisOk 3 [1; 4; 4; 1; 5; 1])) = Ok [0; 1; 1; 0; 2; 0].
Proof. vm_compute. done. Qed.

(** A zero cut (for example two parts of a disconnected network) is treated as a failure: everything is put in one
    part. *)
Theorem C28_refuted : exists net parts res, adj_ok 2 (nadj net) /\ length parts = 2 /\ (forall p, p ∈ parts -> p < 2) /\
  NetworkPartition 2 false net (Some (MetisOk 0 parts)) = Ok res /\ ~ same_classes parts res.
Proof.
  exists (Network (MAdj [0; 0; 0] []) [] [] []), [0; 1], [1; 1]. split; [|split; [done|]; split; [|split; [done|]]].
  - split; [done|]. split; [done|]. split; [|split; [done|constructor]].
    intros v lo hi H1 H2. cbn in H1, H2. destruct v as [|[|[|v]]]; cbn in H1, H2; simplify_eq; done.
  - intros p Hp. repeat (apply elem_of_cons in Hp as [->|Hp]; [lia|]). by apply elem_of_nil in Hp.
  - intros [_ H]. pose proof (H 0 1 0 1 1 1 eq_refl eq_refl eq_refl eq_refl) as [H1 _]. by specialize (H1 eq_refl).
Qed.
Print Assumptions C28_refuted.

(** Built without METIS every element gets part 0, even when there is no master part. *)
Theorem C28_without_metis_refuted : exists net res, adj_ok 6 (nadj net) /\
  NetworkPartition 2 false net None = Ok res /\ ~ consecutive 1 res.
Proof.
  exists (net_ex []), [0; 0; 0; 0; 0; 0]. split; [apply (net_ex_ok [])|]. split; [done|].
  intros [k Hk]. destruct (proj1 (Hk 0)); [left|lia].
Qed.
Print Assumptions C28_without_metis_refuted.

(** C29. *)
Theorem C29_master_partial net metis n :
  0 < n -> length (Rows (nadj net)) = n + 1 -> NetworkPartition 1 true net metis = Ok (replicate n 0).
Proof. exact (single_part true net metis n). Qed.
Print Assumptions C29_master_partial.

(** Without a master part the elements should get part 1, but the vector already has its size and [resize] does not
    touch it. *)
Theorem C29_refuted : exists net metis, adj_ok 6 (nadj net) /\ NetworkPartition 1 false net metis <> Ok (replicate 6 1).
Proof. exists (net_ex []), None. split; [apply net_ex_ok|]. vm_compute. discriminate. Qed.
Print Assumptions C29_refuted.

Theorem C29_without_master net metis n :
  0 < n -> length (Rows (nadj net)) = n + 1 -> NetworkPartition 1 false net metis = Ok (replicate n 0).
Proof. exact (single_part false net metis n). Qed.
Print Assumptions C29_without_master.

Example C29_example : NetworkPartition 1 true (net_ex []) None = Ok [0; 0; 0; 0; 0; 0].
Proof. vm_compute. reflexivity. Qed.

(** C30. *)
Theorem C30_graph_round_trip (g : list (list nat)) :
  MetisAdjacencyToGraphAdjacency (GraphAdjacencyToMetisAdjacency g) = Ok g.
Proof. exact (graph_round_trip g). Qed.
Print Assumptions C30_graph_round_trip.

Theorem C30_compressed_valid (g : list (list nat)) :
  graph_ok g -> adj_ok (length g) (GraphAdjacencyToMetisAdjacency g) /\
  forall u w, net_edge (GraphAdjacencyToMetisAdjacency g) u w <-> edge g u w.
Proof. exact (compressed_valid g). Qed.
Print Assumptions C30_compressed_valid.

Theorem C30_compressed_round_trip n a : adj_ok n a ->
  exists g, MetisAdjacencyToGraphAdjacency a = Ok g /\ length g = n /\ graph_ok g /\ GraphAdjacencyToMetisAdjacency g = a.
Proof. exact (metis_round_trip n a). Qed.
Print Assumptions C30_compressed_round_trip.

(** The network of an edge list: the connections of [v] with their weights are the edges leaving [v], and those entering
    it when the network is undirected.  [ws]: weights, all 1 when none is given. *)
Theorem C30_edge_list_network n cols undirect vw ew :
  Forall (fun c => c.1 < n /\ c.2 < n) cols -> ew = [] \/ length ew = length cols ->
  exists net, MeshToGraph n cols undirect vw ew = Ok net /\ adj_ok n (nadj net) /\ nodes_weight net = vw /\
    edges_constrained net = [] /\ length (edges_weight net) = length (Cols (nadj net)) /\
    forall v w x, v < n ->
      let ws := match ew with [] => replicate (length cols) 1%N | _ => ew end in
      count_occ (decide_rel (=)) (zip (slice (nadj net) v (Cols (nadj net))) (slice (nadj net) v (edges_weight net))) (w, x) =
      count_occ (decide_rel (=)) (zip cols ws) (v, w, x) +
      (if undirect then count_occ (decide_rel (=)) (zip cols ws) (w, v, x) else 0).
Proof. exact (mesh_to_graph_ok n cols undirect vw ew). Qed.
Print Assumptions C30_edge_list_network.

(** The dual graph of a mesh ([r] = R12: polygons sharing edges; [r] = R23: polyhedra sharing faces).  Each connection
    (a, b) comes with the facet it crosses, and occurs once for each way the facet is shared by a and b. *)
Theorem C30_dual_graph r m vw constrained nw :
  reachable m ->
  exists net facets, MeshToDualGraph r m vw constrained nw = Ok (net, facets) /\
    adj_ok (num (tgt r) m) (nadj net) /\ nodes_weight net = vw /\
    length facets = length (Cols (nadj net)) /\ length (edges_constrained net) = length (Cols (nadj net)) /\
    length (edges_weight net) = length (Cols (nadj net)) /\
    (forall a b f l, a < num (tgt r) m -> RelNeighbours r f m = Ok l ->
       count_occ (decide_rel (=)) (zip (slice (nadj net) a (Cols (nadj net))) (slice (nadj net) a facets)) (b, f) = shared l a b) /\
    (forall pos f, facets !! pos = Some f ->
       f < num (src r) m /\ edges_constrained net !! pos = Some (facet_constrained r m constrained f)) /\
    (forall pos a b, entry (nadj net) pos a b ->
       let w := match nw with Some W => W a b | None => 1%N end in
       (length constrained <> num (src r) m -> edges_weight net !! pos = Some w) /\
       (length constrained = num (src r) m ->
          ((exists f l, constrained !! f = Some true /\ RelNeighbours r f m = Ok l /\ 0 < shared l a b) ->
             edges_weight net !! pos = Some 1%N) /\
          ((forall f l, constrained !! f = Some true -> RelNeighbours r f m = Ok l -> shared l a b = 0) ->
             edges_weight net !! pos = Some ((w + N.of_nat (length (Cols (nadj net)))) `mod` 4294967296)%N))).
Proof. exact (dual_ok r m vw constrained nw). Qed.
Print Assumptions C30_dual_graph.

Theorem C30_dual_symmetric l a b : shared l a b = shared l b a.
Proof. exact (shared_sym l a b). Qed.
Print Assumptions C30_dual_symmetric.

(** Three polygons in a row; the edge between the last two is constrained. *)
Definition w_strip : list op :=
  [OAppend D1 3; OAppend D2 3; OInitOne R12 0 2; OInsert R12 0 0 0; OInsert R12 0 1 1;
   OInitOne R12 1 2; OInsert R12 1 1 2; OInsert R12 1 0 1; OInitOne R12 2 2; OInsert R12 2 1 2].

Example C30_example :
  reachable (after w_strip) /\
  okq w_strip (RelNeighbours R12 1) = Ok [1; 2]%N /\
  okq w_strip (fun m => MeshToDualGraph R12 m [] [false; true; false] None) =
    Ok (Network (MAdj [0; 1; 3; 4] [1; 0; 2; 1]) [] [5; 5; 1; 1]%N [false; false; true; true], [0; 0; 1; 1]) /\
  MetisAdjacencyToGraphAdjacency (MAdj [0; 1; 3; 4] [1; 0; 2; 1]) = Ok [[1]; [0; 2]; [1]] /\
  MeshToGraph 3 [(0, 1); (1, 2)] true [] [7; 8]%N =
    Ok (Network (MAdj [0; 1; 3; 4] [1; 0; 2; 1]) [] [7; 7; 8; 8]%N []).
Proof. split; [apply after_reachable, plain_allowed; done|]. vm_compute. done. Qed.
