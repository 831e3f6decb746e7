(** * Properties C20-C25: graph utilities. *)
From stdpp Require Import relations.
From Verif Require Import Base GraphModel GraphSpec GraphProof GraphProof3 GraphProof4 GraphProof5.

(** Two cycles joined by a one-way edge, with a parallel edge and a loop. *)
Definition g_ex : list (list nat) := [[1; 1]; [2]; [0; 3]; [4]; [3; 4]; []].

Example g_ex_ok : graph_ok g_ex.
Proof. unfold graph_ok. vm_compute. repeat constructor. Qed.

(** C20. *)
Theorem C20_depth_first_search g v visited out0 :
  graph_ok g -> length visited = length g -> visited !! v = Some false ->
  exists visited' found,
    (forall fuel, length g <= fuel -> DepthFirstSearch fuel g v (visited, out0) = Ok (visited', out0 ++ v :: found)) /\
    NoDup (v :: found) /\
    (forall w, w ∈ v :: found <-> reach_in g (fun x => visited !! x = Some false) v w) /\
    length visited' = length visited /\
    (forall w, visited' !! w = Some true <-> visited !! w = Some true \/ w ∈ v :: found).
Proof. exact (dfs_spec g v visited out0). Qed.
Print Assumptions C20_depth_first_search.

Example C20_example :
  DepthFirstSearch 6 g_ex 0 ([false; false; false; true; false; false], []) =
  Ok ([true; true; true; true; false; false], [0; 1; 2]).
Proof. vm_compute. reflexivity. Qed.

(** C21. *)
Theorem C21_breadth_first_search g s :
  graph_ok g -> s < length g ->
  exists out, (forall fuel, length g <= fuel -> BreadthFirstSearch fuel s g = Ok out) /\
    NoDup out /\ (forall w, w ∈ out <-> reach g s w) /\
    (forall i j u w n m, i <= j -> out !! i = Some u -> out !! j = Some w ->
       distance g s u n -> distance g s w m -> n <= m).
Proof. exact (bfs_spec g s). Qed.
Print Assumptions C21_breadth_first_search.

Example C21_example : BreadthFirstSearch 6 2 g_ex = Ok [2; 0; 3; 1; 4].
Proof. vm_compute. reflexivity. Qed.

(** C22. *)
Theorem C22_transpose g :
  graph_ok g -> exists t, ComputeAdjacencyTranspose g = Ok t /\ length t = length g /\ graph_ok t /\
    forall u w, u < length g -> w < length g -> mult t w u = mult g u w.
Proof. exact (transpose_mult g). Qed.
Print Assumptions C22_transpose.

Theorem C22_transpose_twice (g t t2 : list (list nat)) :
  graph_ok g -> ComputeAdjacencyTranspose g = Ok t -> ComputeAdjacencyTranspose t = Ok t2 ->
  Forall2 (fun r2 r => r2 ≡ₚ r) t2 g.
Proof. exact (transpose_twice g t t2). Qed.
Print Assumptions C22_transpose_twice.

Example C22_example :
  ComputeAdjacencyTranspose g_ex = Ok [[2]; [0; 0]; [1]; [2; 4]; [3; 4]; []] /\
  ComputeAdjacencyTranspose [[2]; [0; 0]; [1]; [2; 4]; [3; 4]; []] = Ok [[1; 1]; [2]; [0; 3]; [4]; [3; 4]; []].
Proof. vm_compute. split; reflexivity. Qed.

(** C23. *)
Theorem C23_strongly_connected_components g :
  graph_ok g ->
  exists comps, (forall fuel, length g <= fuel -> ComputeStronglyConnectedComponents fuel g = Ok comps) /\
    concat comps ≡ₚ seq 0 (length g) /\ (forall c, c ∈ comps -> c <> []) /\
    forall u w, u < length g -> w < length g -> (exists c, c ∈ comps /\ u ∈ c /\ w ∈ c) <-> mutual g u w.
Proof. exact (scc_spec g). Qed.
Print Assumptions C23_strongly_connected_components.

Example C23_example : ComputeStronglyConnectedComponents 6 g_ex = Ok [[5]; [0; 2; 1]; [3; 4]].
Proof. vm_compute. reflexivity. Qed.

(** C24. *)
Theorem C24_edge_list_to_adjacency n cols direct :
  Forall (fun c => c.1 < n /\ (direct = false -> c.2 < n)) cols ->
  exists a, GraphConnectivityToGraphAdjacency n cols direct = Ok a /\
    length (adj_vertices a) = n /\ length (adj_edges a) = n /\
    length (adj_vertices_map a) = n /\ length (adj_edges_map a) = n /\
    forall v, v < n -> exists vs es vm em,
      adj_vertices a !! v = Some vs /\ adj_edges a !! v = Some es /\
      adj_vertices_map a !! v = Some vm /\ adj_edges_map a !! v = Some em /\
      length vs = length es /\
      (forall w e, count_occ (decide_rel (=)) (zip vs es) (w, e) =
         hits cols e (v, w) + (if direct then 0 else hits cols e (w, v))) /\
      first_position vs vm /\ first_position es em.
Proof. exact (connectivity_spec n cols direct). Qed.
Print Assumptions C24_edge_list_to_adjacency.

Theorem C24_adjacency_to_edge_list n g :
  (sum_list_with length g <= n ->
     exists cols, GraphAdjacencyToGraphConnectivity n g = Ok (map Some cols ++ replicate (n - length cols) None) /\
       length cols = sum_list_with length g /\
       forall u w, count_occ (decide_rel (=)) cols (u, w) = mult g u w) /\
  (n < sum_list_with length g -> GraphAdjacencyToGraphConnectivity n g = UB).
Proof. exact (edge_list_spec n g). Qed.
Print Assumptions C24_adjacency_to_edge_list.

Theorem C24_round_trip n cols a :
  Forall (fun c => c.1 < n /\ c.2 < n) cols ->
  GraphConnectivityToGraphAdjacency n cols true = Ok a ->
  exists cols', GraphAdjacencyToGraphConnectivity (length cols) (adj_vertices a) = Ok (map Some cols') /\ cols' ≡ₚ cols.
Proof. exact (edge_list_round_trip n cols a). Qed.
Print Assumptions C24_round_trip.

Example C24_example :
  exists a, GraphConnectivityToGraphAdjacency 3 [(0, 2); (1, 0); (0, 2)] false = Ok a /\
    adj_vertices a = [[2; 1; 2]; [0]; [0; 0]] /\ adj_edges a = [[0; 1; 2]; [1]; [0; 2]] /\
    GraphAdjacencyToGraphConnectivity 6 (adj_vertices a) =
      Ok [Some (0, 2); Some (0, 1); Some (0, 2); Some (1, 0); Some (2, 0); Some (2, 0)].
Proof. eexists. split; [vm_compute; reflexivity|]. vm_compute. auto. Qed.

(** C25. *)
Theorem C25_induced_subgraph g filter :
  graph_ok g -> NoDup filter.*1 -> (forall o, o ∈ filter.*1 -> o < length g) -> filter.*2 ≡ₚ seq 0 (length filter) ->
  exists sub, ExtractSubGraph g filter = Ok sub /\ length sub = length filter /\ graph_ok sub /\
    forall o1 f1 o2 f2, (o1, f1) ∈ filter -> (o2, f2) ∈ filter -> mult sub f1 f2 = mult g o1 o2.
Proof. exact (subgraph_spec g filter). Qed.
Print Assumptions C25_induced_subgraph.

Example C25_example :
  ExtractSubGraph g_ex [(2, 0); (0, 2); (3, 1)] = Ok [[2; 1]; []; []] /\
  [(2, 0); (0, 2); (3, 1)].*2 ≡ₚ seq 0 3 /\ NoDup [(2, 0); (0, 2); (3, 1)].*1.
Proof.
  split; [vm_compute; reflexivity|]. split; [cbn; apply Permutation_skip, Permutation_swap|].
  cbn. repeat constructor; set_solver.
Qed.
