(** * Model of GeDiM/src/MpiTools/GraphUtilities.cpp.

    A graph is its adjacency list of lists; vertex numbers are [nat] (in C++ [unsigned int], always smaller than
    the number of vertices where the code is defined).  Out-of-range vector accesses are [UB]. *)
From Verif Require Import Base.

Definition graph := list (list nat).

(** DepthFirstSearch, GraphUtilities.cpp:17-34.  State: [visited] and [visitedVertices].  [fuel] bounds the depth
    of the recursion. *)
Fixpoint DepthFirstSearch (fuel : nat) (g : graph) (v : nat) (st : list bool * list nat)
  : outcome (list bool * list nat) :=
  match fuel with
  | 0 => OutOfFuel
  | S fuel' =>
      vis ← vset st.1 v true;
      adj ← vget g v;
      ofold (fun st w => b ← vget st.1 w; if b : bool then Ok st else DepthFirstSearch fuel' g w st)
            adj (vis, st.2 ++ [v])
  end.

(** The inner loop of BreadthFirstSearch, 53-60: mark and push the unmarked neighbours. *)
Definition bfs_push (st : list bool * list nat) (w : nat) : outcome (list bool * list nat) :=
  b ← vget st.1 w;
  if b : bool then Ok st
  else mk ← vset st.1 w true; Ok (mk, st.2 ++ [w]).

(** The [while] loop of BreadthFirstSearch, 47-61; [queue] front first. *)
Fixpoint bfs_loop (fuel : nat) (g : graph) (marked : list bool) (queue out : list nat) : outcome (list nat) :=
  match queue with
  | [] => Ok out
  | v :: queue' =>
      match fuel with
      | 0 => OutOfFuel
      | S fuel' =>
          adj ← vget g v;
          mq ← ofold bfs_push adj (marked, queue');
          bfs_loop fuel' g mq.1 mq.2 (out ++ [v])
      end
  end.

(** BreadthFirstSearch, 36-65. *)
Definition BreadthFirstSearch (fuel : nat) (v : nat) (g : graph) : outcome (list nat) :=
  mk ← vset (replicate (length g) false) v true;
  bfs_loop fuel g mk [v] [].

(** [l[i].push_back(a)]. *)
Definition vpush {A} (l : list (list A)) (i : nat) (a : A) : outcome (list (list A)) :=
  row ← vget l i;
  vset l i (row ++ [a]).

(** The loops of ComputeAdjacencyTranspose, 73-77, from vertex [v] on. *)
Fixpoint transpose_from (v : nat) (rows : graph) (acc : graph) : outcome graph :=
  match rows with
  | [] => Ok acc
  | adj :: rows' =>
      acc' ← ofold (fun acc w => vpush acc w v) adj acc;
      transpose_from (S v) rows' acc'
  end.

(** ComputeAdjacencyTranspose, 67-84. *)
Definition ComputeAdjacencyTranspose (g : graph) : outcome graph :=
  transpose_from 0 g (replicate (length g) []).

(** FillOrder, 86-104; the stack is a list, top first. *)
Fixpoint FillOrder (fuel : nat) (g : graph) (v : nat) (st : list bool * list nat)
  : outcome (list bool * list nat) :=
  match fuel with
  | 0 => OutOfFuel
  | S fuel' =>
      vis ← vset st.1 v true;
      adj ← vget g v;
      st' ← ofold (fun st w => b ← vget st.1 w; if b : bool then Ok st else FillOrder fuel' g w st)
                  adj (vis, st.2);
      Ok (st'.1, v :: st'.2)
  end.

(** ExtractSubGraph, 106-134.  [filter]: the entries (original, filtered) of the unordered map in the order in
    which it iterates over them. *)
Fixpoint filter_find (filter : list (nat * nat)) (v : nat) : option nat :=
  match filter with
  | [] => None
  | (o, f) :: filter' => if o =? v then Some f else filter_find filter' v
  end.

Definition ExtractSubGraph (g : graph) (filter : list (nat * nat)) : outcome graph :=
  ofold (fun acc of =>
           adj ← vget g of.1;
           ofold (fun acc w => match filter_find filter w with
                               | None => Ok acc
                               | Some fw => vpush acc of.2 fw
                               end) adj acc)
        filter (replicate (length filter) []).

(** The collecting loop of GraphConnectivityToGraphAdjacency, 147-156: pairs (vertex, edge), edges from [e] on. *)
Fixpoint connectivity_rows (direct : bool) (e : nat) (cols : list (nat * nat)) (acc : list (list (nat * nat)))
  : outcome (list (list (nat * nat))) :=
  match cols with
  | [] => Ok acc
  | (o, t) :: cols' =>
      acc1 ← vpush acc o (t, e);
      acc2 ← (if direct then Ok acc1 else vpush acc1 t (o, e));
      connectivity_rows direct (S e) cols' acc2
  end.

(** [unordered_map::insert] of (key, position) for the keys of a list in order: the first position wins; 169-177. *)
Fixpoint position_map (pos : nat) (keys : list nat) (m : gmap nat nat) : gmap nat nat :=
  match keys with
  | [] => m
  | k :: keys' => position_map (S pos) keys' (match m !! k with Some _ => m | None => <[k := pos]> m end)
  end.

Record adjacency := Adjacency {
  adj_vertices : list (list nat);
  adj_vertices_map : list (gmap nat nat);
  adj_edges : list (list nat);
  adj_edges_map : list (gmap nat nat)
}.

(** GraphConnectivityToGraphAdjacency, 136-184; the columns of the connectivity matrix as pairs (non-negative). *)
Definition GraphConnectivityToGraphAdjacency (n : nat) (cols : list (nat * nat)) (direct : bool) : outcome adjacency :=
  rows ← connectivity_rows direct 0 cols (replicate n []);
  Ok (Adjacency (map (map fst) rows) (map (fun r => position_map 0 (map fst r) ∅) rows)
                (map (map snd) rows) (map (fun r => position_map 0 (map snd r) ∅) rows)).

(** The loops of GraphAdjacencyToGraphConnectivity, 192-198; the matrix is a list of columns, [None] being an
    uninitialised one, and writing a column that does not exist is undefined. *)
Fixpoint adjacency_columns (v : nat) (rows : graph) (e : nat) (mat : list (option (nat * nat)))
  : outcome (list (option (nat * nat))) :=
  match rows with
  | [] => Ok mat
  | adj :: rows' =>
      em ← ofold (fun em w => mat' ← vset em.2 em.1 (Some (v, w)); Ok (S em.1, mat')) adj (e, mat);
      adjacency_columns (S v) rows' em.1 em.2
  end.

(** GraphAdjacencyToGraphConnectivity, 186-201. *)
Definition GraphAdjacencyToGraphConnectivity (n_edges : nat) (g : graph) : outcome (list (option (nat * nat))) :=
  adjacency_columns 0 g 0 (replicate n_edges None).

(** The first loop of ComputeStronglyConnectedComponents, 214-220. *)
Definition fill_all (fuel : nat) (g : graph) : outcome (list bool * list nat) :=
  ofold (fun st i => b ← vget st.1 i; if b : bool then Ok st else FillOrder fuel g i st)
        (seq 0 (length g)) (replicate (length g) false, []).

(** The [while] loop, 232-245. *)
Definition scc_loop (fuel : nat) (gT : graph) (stack : list nat) (n : nat) : outcome (list bool * list (list nat)) :=
  ofold (fun st v =>
           b ← vget st.1 v;
           if b : bool then Ok st
           else r ← DepthFirstSearch fuel gT v (st.1, []);
                Ok (r.1, st.2 ++ [r.2]))
        stack (replicate n false, []).

(** ComputeStronglyConnectedComponents, 203-246. *)
Definition ComputeStronglyConnectedComponents (fuel : nat) (g : graph) : outcome (list (list nat)) :=
  vs ← fill_all fuel g;
  gT ← ComputeAdjacencyTranspose g;
  r ← scc_loop fuel gT vs.2 (length g);
  Ok r.2.
