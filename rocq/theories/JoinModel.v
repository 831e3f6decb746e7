(** * Joining edges into one edge.
    File: MU1 = GeDiM/src/Mesh/MeshUtilities1D.cpp.
    An [unordered_set] is the list of its elements, each once.  The order in which it is gone through is unspecified: the edges to
    join are given in that order, and [order] is applied to the contents of the sets and maps made inside; it may be any
    rearrangement. *)
From Verif Require Import Base CsrModel MeshModel.
Local Open Scope nat_scope.

Definition set_add (x : N) (s : list N) : list N := if bool_decide (x ∈ s) then s else s ++ [x].

(** The loop over the neighbours of a vertex, MU1 320-338, from position [n] on, [count] of them found so far among the edges. *)
Fixpoint all_joined (es : list N) (v : nat) (ns : list nat) (count : nat) (m : mesh) : outcome (bool * nat) :=
  match ns with
  | [] => Ok (true, count)
  | n :: ns =>
      h ← RelHas R01 v n m;
      if h : bool then
        e ← RelGet R01 v n m;
        if bool_decide (e ∈ es) then all_joined es v ns (S count) m else Ok (false, count)
      else Ok (false, count)
  end.

(** One vertex of an edge, MU1 311-356: the vertices that stay and those that go. *)
Definition sort_vertex (es : list N) (m : mesh) (s : list N * list N) (v : N) : outcome (list N * list N) :=
  if bool_decide (v ∈ s.2) then Ok s
  else
    n ← RelNumber R01 (N.to_nat v) m;
    r ← all_joined es (N.to_nat v) (seq 0 (N.to_nat n)) 0 m;
    if r.1 && (2 <=? r.2) then Ok (s.1, set_add v s.2) else Ok (set_add v s.1, s.2).

(** AgglomerateCell1Ds, MU1 293-358: AgglomerateCell1DVertices and SubCell1DsRemovedVertices. *)
Definition JoinedVertices (order : list N -> list N) (es : list N) (m : mesh) : outcome (list N * list N) :=
  if length es <? 2 then Ok ([], [])
  else
    s ← ofold (fun s e =>
           o ← Cell1DVertex (N.to_nat e) 0 m;
           s ← sort_vertex es m s o;
           t ← Cell1DVertex (N.to_nat e) 1 m;
           sort_vertex es m s t) es ([], []);
    Ok (order s.1, order s.2).

(** What is collected from the edges, MU1 377-381: the greatest marker, the original edges, the polygons with the position where
    each was first found, the polyhedra. *)
Record harvest := Harvest { h_marker : N; h_original : list N; h_polygons : list (N * nat); h_solids : list N }.

(** MU1 395-404. *)
Definition take_polygon (e : nat) (m : mesh) (s : list (N * nat)) (n : nat) : outcome (list (N * nat)) :=
  h ← RelHas R12 e n m;
  if h : bool then
    p ← RelGet R12 e n m;
    Ok (if bool_decide (p ∈ s.*1) then s else s ++ [(p, n)])
  else Ok s.
(** MU1 406-415. *)
Definition take_solid (e : nat) (m : mesh) (s : list N) (n : nat) : outcome (list N) :=
  h ← RelHas R13 e n m;
  if h : bool then
    p ← RelGet R13 e n m;
    Ok (set_add p s)
  else Ok s.

(** One of the edges, MU1 383-416. *)
Definition retire_one (original : list (list N)) (s : mesh * harvest) (e : N) : outcome (mesh * harvest) :=
  let i := N.to_nat e in
  m ← SetState D1 i false s.1;
  k ← Marker D1 i m;
  l ← vat original i;
  n2 ← RelNumber R12 i m;
  ps ← ofold (take_polygon i m) (seq 0 (N.to_nat n2)) (h_polygons s.2);
  n3 ← RelNumber R13 i m;
  ss ← ofold (take_solid i m) (seq 0 (N.to_nat n3)) (h_solids s.2);
  Ok (m, Harvest (if (h_marker s.2 <? k)%N then k else h_marker s.2) (h_original s.2 ++ l) ps ss).

(** The neighbours of the new edge, MU1 430-452; [order2] goes through the map. *)
Definition set_neighbours (order : list N -> list N) (order2 : list (N * nat) -> list (N * nat)) (keep_sides : bool) (c : nat) (h : harvest)
  (m : mesh) : outcome mesh :=
  m ← (if decide (h_polygons h = []) then Ok m
       else if keep_sides then
         m ← RelInitOne R12 c 2 m;
         ofold (fun m pn => RelInsert R12 c pn.2 pn.1 m) (order2 (h_polygons h)) m
       else RelAdd R12 c (order2 (h_polygons h)).*1 m);
  if decide (h_solids h = []) then Ok m else RelAdd R13 c (order (h_solids h)) m.

(** The edges of a vertex that are not joined: MU1 460-469. *)
Definition other_edges (es : list N) (v : nat) (m : mesh) (l : list N) (n : nat) : outcome (list N) :=
  h ← RelHas R01 v n m;
  if h : bool then
    e ← RelGet R01 v n m;
    Ok (if bool_decide (e ∈ es) then l else l ++ [e])
  else Ok l.

(** One end of the new edge, MU1 454-476. *)
Definition update_end (es : list N) (c : nat) (m : mesh) (k : nat) : outcome mesh :=
  v ← Cell1DVertex c k m;
  n ← RelNumber R01 (N.to_nat v) m;
  l ← ofold (other_edges es (N.to_nat v) m) (seq 0 (N.to_nat n)) [];
  match l with
  | [] => Ok m
  | _ => RelAdd R01 (N.to_nat v) (l ++ [N.of_nat c]) m
  end.

(** AgglomerateCell1Ds, MU1 360-480: the mesh, the new edge, and the original edges of every edge
    (meshCell1DsOriginalCell1Ds).  [at] throws; [*begin()] of a set of one edge is that edge. *)
Definition JoinEdges (order : list N -> list N) (order2 : list (N * nat) -> list (N * nat)) (es ends gone : list N)
  (original : list (list N)) (keep_sides : bool) (m : mesh) : outcome (mesh * nat * list (list N)) :=
  match es with
  | [] => Ok (m, num D1 m, original)
  | [e] => Ok (m, N.to_nat e, original)
  | _ =>
      ms ← CellAppend D1 1 m;
      let c := ms.2 in
      r ← ofold (retire_one original) es (ms.1, Harvest 0 [] [] []);
      let h := r.2 in
      original' ← (if c <? length original + 1 then Ok (<[c := h_original h]> (original ++ [[]])) else Throw);
      match ends with
      | [a; b] =>
          m ← Cell1DInsertExtremes c a b r.1;
          m ← SetMarker D1 c (h_marker h) m;
          m ← SetState D1 c true m;
          m ← set_neighbours order order2 keep_sides c h m;
          m ← ofold (update_end es c) [0; 1] m;
          m ← ofold (fun m v => SetState D0 (N.to_nat v) false m) gone m;
          Ok (m, c, original')
      | _ => Abort
      end
  end.
