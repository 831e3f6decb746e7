(** * Model of GeDiM/src/MpiTools/MetisUtilities.cpp (everything except the call of METIS itself).

    Part numbers, vertex numbers and offsets are [nat]: the C++ [unsigned int] additions on them do not wrap as long
    as the number of connections plus the largest part number is below 2^32. *)
From Verif Require Import Base CsrModel MeshModel GraphModel.

Record madj := MAdj { Rows : list nat; Cols : list nat }.

(** MetisNetwork, MetisUtilities.hpp:88-100. *)
Record network := Network {
  nadj : madj;
  nodes_weight : list N;
  edges_weight : list N;
  edges_constrained : list bool
}.

(** GraphAdjacencyToMetisAdjacency, MetisUtilities.cpp:192-213 ([offsets_from] is the loop
    [Rows[v + 1] = Rows[v] + size]). *)
Definition GraphAdjacencyToMetisAdjacency (g : graph) : madj :=
  MAdj (offsets_from 0 (map length g)) (concat g).

(** The body of the loop of MetisAdjacencyToGraphAdjacency, 221-226: [Cols] is read with [at].  When the offsets
    decrease, the C++ count wraps to a huge number and [at] (or the allocation) throws. *)
Definition metis_row (a : madj) (v : nat) : outcome (list nat) :=
  lo ← vget (Rows a) v;
  hi ← vget (Rows a) (v + 1);
  if hi <? lo then Throw
  else omapM (fun c => vat (Cols a) (lo + c)) (seq 0 (hi - lo)).

(** MetisAdjacencyToGraphAdjacency, 215-229.  With no offset at all [Rows.size() - 1] wraps and [Rows[0]] is read
    out of range. *)
Definition MetisAdjacencyToGraphAdjacency (a : madj) : outcome graph :=
  match Rows a with
  | [] => UB
  | _ => omapM (metis_row a) (seq 0 (length (Rows a) - 1))
  end.

(** The connections of MeshToGraph, 140-164: pairs (To, Weight) per vertex. *)
Definition edge_weight (ws : list N) (e : nat) : outcome N :=
  match ws with [] => Ok 1%N | _ => vget ws e end.

Fixpoint graph_connections (undirect : bool) (ws : list N) (e : nat) (cols : list (nat * nat))
         (acc : list (list (nat * N))) : outcome (list (list (nat * N))) :=
  match cols with
  | [] => Ok acc
  | (o, t) :: cols' =>
      w ← edge_weight ws e;
      acc1 ← vpush acc o (t, w);
      acc2 ← (if undirect then vpush acc1 t (o, w) else Ok acc1);
      graph_connections undirect ws (S e) cols' acc2
  end.

(** MeshToGraph, 130-190. *)
Definition MeshToGraph (n : nat) (cols : list (nat * nat)) (undirect : bool) (vw ew : list N) : outcome network :=
  conns ← graph_connections undirect ew 0 cols (replicate n []);
  Ok (Network (MAdj (offsets_from 0 (map length conns)) (map fst (concat conns))) vw (map snd (concat conns)) []).

(** One connection of the dual graph: constrained, other cell, facet; 42-47, 243-248. *)
Record connection := Conn { c_constrained : bool; c_cell : nat; c_facet : nat }.

Record dual := Dual { d_conns : list (list connection); d_constraints : gset (nat * nat) }.

(** 71-79, 269-277: the pair of connections of one couple of neighbours. *)
Definition connect (con : bool) (f c1 c2 : nat) (st : dual) : outcome dual :=
  l1 ← vpush (d_conns st) c1 (Conn con c2 f);
  l2 ← vpush l1 c2 (Conn con c1 f);
  Ok (Dual l2 (if con then {[(c1, c2); (c2, c1)]} ∪ d_constraints st else d_constraints st)).

(** The loops over the neighbours of facet [f], 57-81 and 255-279; [r] is [R12] (edges and polygons) or [R23] (faces
    and polyhedra). *)
Definition dual_facet (r : rel) (m : mesh) (constrained : list bool) (st : dual) (f : nat) : outcome dual :=
  n ← RelNumber r f m;
  let n := N.to_nat n in
  ofold (fun st n1 =>
    b1 ← RelHas r f n1 m;
    if b1 : bool then
      c1 ← RelGet r f n1 m;
      ofold (fun st n2 =>
        b2 ← RelHas r f n2 m;
        if b2 : bool then
          c2 ← RelGet r f n2 m;
          con ← (if length constrained =? num (src r) m then vget constrained f else Ok false);
          connect con f (N.to_nat c1) (N.to_nat c2) st
        else Ok st) (seq (n1 + 1) (n - (n1 + 1))) st
    else Ok st) (seq 0 n) st.

Definition u32 (x : N) : N := (x `mod` 4294967296)%N.

(** 108-122, 306-320: weight of one connection of vertex [v].  [nw] is the sparse matrix of weights, [None] when its
    size is 0; its [coeff] is only defined inside the matrix, which the caller must ensure. *)
Definition conn_weight (nw : option (nat -> nat -> N)) (check : bool) (cs : gset (nat * nat)) (numEdges v : nat)
           (c : connection) : N :=
  let w := match nw with Some f => f v (c_cell c) | None => 1%N end in
  if check then if decide ((v, c_cell c) ∈ cs) then 1%N else u32 (w + N.of_nat numEdges) else w.

(** Mesh3DToDualGraph 33-128 and Mesh2DToDualGraph 231-326.  The result is the network and EdgesMeshCellIndex. *)
Definition MeshToDualGraph (r : rel) (m : mesh) (vw : list N) (constrained : list bool) (nw : option (nat -> nat -> N))
  : outcome (network * list nat) :=
  st ← ofold (dual_facet r m constrained) (seq 0 (num (src r) m)) (Dual (replicate (num (tgt r) m) []) ∅);
  let all := concat (d_conns st) in
  let check := length constrained =? num (src r) m in
  Ok (Network (MAdj (offsets_from 0 (map length (d_conns st))) (map c_cell all)) vw
              (concat (imap (fun v => map (conn_weight nw check (d_constraints st) (length all) v)) (d_conns st)))
              (map c_constrained all),
      map c_facet all).

(** ** Partitions *)

(** The renumbering loop at the end of NetworkPartition, 537-556: [k] iterations left. *)
Fixpoint reorder (k : nat) (c : nat) (partition : list nat) : list nat :=
  match k with
  | 0 => partition
  | S k' =>
      if existsb (Nat.eqb c) partition then reorder k' (S c) partition
      else reorder k' c (map (fun p => if c <? p then p - 1 else p) partition)
  end.

(** What METIS_PartGraphKway gives back: an error code, or the objective value and the part of each element. *)
Inductive metis_result := MetisError | MetisOk (objval : nat) (parts : list nat).

(** NetworkPartition, 328-561.  [metis] is [None] when the library is built without METIS (the [#if] at 352).  [idx_t] has 32
    bits (otherwise the [memcpy] at 519 copies half of the values).  The checks that the weights fit in [idx_t] (400-432) and the option switches are left out: they do not touch the
    partition. *)
Definition NetworkPartition (numberParts : nat) (master : bool) (net : network) (metis : option metis_result)
  : outcome (list nat) :=
  match Rows (nadj net) with
  | [] => UB
  | _ =>
  let n := length (Rows (nadj net)) - 1 in
  require (0 <? n);;
  require (0 <? numberParts);;
  let start := if master then 0 else 1 in
  if numberParts =? 1 then Ok (vresize (replicate n 0) n start)
  else
    partition ← match metis with
                | None => Ok (replicate n 0)
                | Some MetisError => Throw
                | Some (MetisOk objval parts) =>
                    if objval =? 0 then Ok (replicate n start)
                    else Ok (map (fun p => p + start) parts)
                end;
    Ok (reorder numberParts start partition)
  end.

(** [*std::max_element(begin, end)]: undefined on an empty range. *)
Definition max_element (l : list nat) : outcome nat :=
  match l with [] => UB | _ => Ok (max_list l) end.

(** The inner loop of PartitionCheckConstraints, 578-589, over the connections [lo .. lo + k) of vertex [v]; state:
    edge counter, largest part, parts. *)
Definition constraint_step (net : network) (v : nat) (st : nat * nat * list nat) (pos : nat)
  : outcome (nat * nat * list nat) :=
  let '(edge, top, parts) := st in
  b ← vget (edges_constrained net) edge;
  if b : bool then
    w ← vat (Cols (nadj net)) pos;
    pv ← vat parts v;
    pw ← vat parts w;
    if pv =? pw then
      parts' ← vset parts w (S top);
      Ok (S edge, S top, parts')
    else Ok (S edge, top, parts)
  else Ok (S edge, top, parts).

(** PartitionCheckConstraints, 563-593. *)
Definition PartitionCheckConstraints (net : network) (parts : list nat) : outcome (list nat) :=
  match edges_constrained net with
  | [] => Ok parts
  | _ =>
      top ← max_element parts;
      match Rows (nadj net) with
      | [] => UB
      | _ =>
          st ← ofold (fun st v =>
                  lo ← vget (Rows (nadj net)) v;
                  hi ← vget (Rows (nadj net)) (v + 1);
                  if hi <? lo then UB   (* the wrapped count runs past the end of EdgesConstrained *)
                  else ofold (constraint_step net v) (seq lo (hi - lo)) st)
               (seq 0 (length (Rows (nadj net)) - 1)) (0, top, parts);
          Ok st.2
      end
  end.

(** The vertices of part [p] in increasing order, paired with their position: 608-614. *)
Definition part_vertices (parts : list nat) (n p : nat) : list nat :=
  filter (fun v => parts !! v = Some p) (seq 0 n).
Definition part_filter (parts : list nat) (n p : nat) : list (nat * nat) :=
  imap (fun k v => (v, k)) (part_vertices parts n p).

(** 630-639: the components after the first one get new part numbers. *)
Definition relabel (vertices : list nat) (st : nat * list nat) (comp : list nat) : outcome (nat * list nat) :=
  parts' ← ofold (fun ps k => w ← vat vertices k; vset ps w (S st.1)) comp st.2;
  Ok (S st.1, parts').

(** PartitionCheckConnectedComponents, 595-643.  [order] is the order in which the unordered maps are iterated. *)
Definition PartitionCheckConnectedComponents (order : list (nat * nat) -> list (nat * nat)) (fuel : nat)
           (net : network) (parts : list nat) : outcome (list nat) :=
  match Rows (nadj net) with
  | [] => UB
  | _ =>
  let n := length (Rows (nadj net)) - 1 in
  top ← max_element parts;
  if length parts <? n then UB else   (* partitions[v], 610 *)
  g ← MetisAdjacencyToGraphAdjacency (nadj net);
  st ← ofold (fun st p =>
          sub ← ExtractSubGraph g (order (part_filter parts n p));
          comps ← ComputeStronglyConnectedComponents fuel sub;
          if length comps <? 2 then Ok st
          else ofold (relabel (part_vertices parts n p)) (tail comps) st)
       (seq 0 (S top)) (top, parts);
  Ok st.2
  end.
