(** * Splitting a polygon with a segment: GeDiM/src/Geometry/GeometryUtilities_Split.cpp:21-824. *)
From Verif Require Import Base.

(** SplitPolygonInput::SplitSegment::Vertex::Types, GeometryUtilities.hpp:177-182. *)
Inductive end_type := EndUnknown | EndVertex | EndEdge.
Global Instance end_type_eq_dec : EqDecision end_type.
Proof. solve_decision. Defined.
(** SplitPolygonInput, GeometryUtilities.hpp:165-195; indices as naturals, the type [unsigned int] is not bounded in this model. *)
Record split_input := SplitInput {
  number_vertices : nat;
  aligned_edges : list (nat * nat);  (* OriginVertexIndex, EndVertexIndex *)
  origin_type : end_type; origin_index : nat;
  end_type_of : end_type; end_index : nat }.

(** SplitPolygonWithSegmentResult, GeometryUtilities.hpp:197-248. *)
Inductive split_type := SplitUnknown | NoAction | PolygonUpdate | PolygonCreation.
Inductive new_vertex := NewVertexUnknown | SegmentOrigin | SegmentEnd.
Inductive new_edge_type := EdgeUnknown | EdgeNew | EdgeUpdate.
Record new_edge := NewEdge { edge_type : new_edge_type; old_edge : nat; edge_origin : nat; edge_end : nat; edge_neighbours : list nat }.
Record new_polygon := NewPolygon { new_vertices_of : list nat; new_edges_of : list nat }.
Record split_result := SplitResult { result_type : split_type; new_vertices : list new_vertex; new_edges : list new_edge; new_polygons : list new_polygon }.

Definition end_eqb (a b : end_type) : bool :=
  match a, b with EndUnknown, EndUnknown | EndVertex, EndVertex | EndEdge, EndEdge => true | _, _ => false end.

(** "check contigous edges": the loops 41-49, 66-75, 169-178, 273-283. *)
Definition contiguous (inp : split_input) : bool :=
  existsb (fun a : nat * nat => (a.1 <=? origin_index inp) && (end_index inp <=? a.2)) (aligned_edges inp).

(** [(i == 0) ? n - 1 : i - 1]. *)
Definition previous (n i : nat) : nat := if i =? 0 then n - 1 else i - 1.

(** Iteration over a [std::map] in the order of its keys. *)
Definition map_values {A} (bound : nat) (m : gmap nat A) : list A := omap (fun k => m !! k) (seq 0 bound).

(** ** Update of the polygon: lines 77-150, 180-253 and 285-391.  [points v] lists the vertices inserted after vertex [v];
    [both] is what happens to an edge with two new ends (throw, or the edge of the origin of the segment); [types] gives the
    type recorded for a new vertex. *)
Section update.
Context (n : nat) (points : nat -> list nat) (both : option nat) (types : nat -> new_vertex).
Definition update_vertices : list nat := flat_map (fun v => v :: points v) (seq 0 n).
Fixpoint update_edges (vs : list nat) (first : nat) (number : nat) (edges : list nat) (news : list new_edge) (m : gmap nat new_vertex)
  : outcome (list nat * list new_edge * gmap nat new_vertex) :=
  match vs with
  | [] => Ok (edges, news, m)
  | o :: vs' =>
      let e := match vs' with [] => first | x :: _ => x end in
      if (o <? n) && (e <? n) then update_edges vs' first number (edges ++ [o]) news m
      else if o <? n then
        update_edges vs' first (number + 1) (edges ++ [number]) (news ++ [NewEdge EdgeUpdate o o e [0]]) (<[e := types e]> m)
      else if e <? n then
        update_edges vs' first (number + 1) (edges ++ [number]) (news ++ [NewEdge EdgeUpdate (previous n e) o e [0]]) (<[o := types o]> m)
      else match both with
           | Some old => update_edges vs' first (number + 1) (edges ++ [number]) (news ++ [NewEdge EdgeUpdate old o e [0]])
                           (<[e := types e]> (<[o := types o]> m))
           | None => Throw
           end
  end.
Definition update_polygon : outcome split_result :=
  let vs := update_vertices in
  '(edges, news, m) ← update_edges vs (default 0 (head vs)) n [] [] ∅;
  Ok (SplitResult PolygonUpdate (map_values (n + 2) m) news [NewPolygon vs edges]).
End update.

(** ** Creation of two polygons: lines 394-823. *)
Record visit_result := Visit { visit_vertices : list nat; visit_edges : list nat; visit_news : list (nat * new_vertex);
  visit_new_edges : list (nat * new_edge); visit_next : nat }.
(** One pass of the inner loop at vertex [v]; [first] is [polygons.size() == 1]. *)
Definition visit (inp : split_input) (first : bool) (v : nat) : visit_result :=
  let n := number_vertices inp in
  let o := origin_index inp in
  let e := end_index inp in
  let here := if first then [0] else [1] in
  let there := if first then [1] else [0] in
  let forward := if first then [1; 0] else [0; 1] in
  let backward := if first then [0; 1] else [1; 0] in
  if end_eqb (origin_type inp) EndVertex && (o =? v) then       (* 415-477 *)
    if end_eqb (end_type_of inp) EndVertex then
      Visit [o; e] [n; e] [] [(n, NewEdge EdgeNew 0 o e forward)] ((e + 1) mod n)
    else
      Visit [o; n] [n; n + 1] [(n, SegmentEnd)]
        [(n, NewEdge EdgeNew 0 o n forward); (n + 1, NewEdge EdgeUpdate e n ((e + 1) mod n) here); (n + 2, NewEdge EdgeUpdate e e n there)]
        ((e + 1) mod n)
  else if end_eqb (end_type_of inp) EndVertex && (e =? v) then  (* 479-541 *)
    if end_eqb (origin_type inp) EndVertex then
      Visit [e; o] [n; o] [] [(n, NewEdge EdgeNew 0 o e backward)] ((o + 1) mod n)
    else
      Visit [e; n] [n; n + 2] [(n, SegmentOrigin)]
        [(n, NewEdge EdgeNew 0 n e backward); (n + 1, NewEdge EdgeUpdate o o n there); (n + 2, NewEdge EdgeUpdate o n ((o + 1) mod n) here)]
        ((o + 1) mod n)
  else if end_eqb (origin_type inp) EndEdge && (o =? v) then    (* 544-672 *)
    if end_eqb (end_type_of inp) EndEdge then
      Visit [v; n; n + 1] [n + 1; n; n + 4] [(n, SegmentOrigin); (n + 1, SegmentEnd)]
        [(n, NewEdge EdgeNew 0 n (n + 1) forward); (n + 1, NewEdge EdgeUpdate o o n here); (n + 2, NewEdge EdgeUpdate o n ((o + 1) mod n) there);
         (n + 3, NewEdge EdgeUpdate e e (n + 1) there); (n + 4, NewEdge EdgeUpdate e (n + 1) ((e + 1) mod n) here)]
        ((e + 1) mod n)
    else
      Visit [v; n; e] [n + 1; n; e] [(n, SegmentOrigin)]
        [(n, NewEdge EdgeNew 0 n e forward); (n + 1, NewEdge EdgeUpdate o o n here); (n + 2, NewEdge EdgeUpdate o n ((o + 1) mod n) there)]
        ((e + 1) mod n)
  else if end_eqb (end_type_of inp) EndEdge && (e =? v) then    (* 673-786 *)
    if end_eqb (origin_type inp) EndEdge then
      Visit [v; n + 1; n] [n + 3; n; n + 2] [(n, SegmentOrigin); (n + 1, SegmentEnd)]
        [(n, NewEdge EdgeNew 0 n (n + 1) backward); (n + 1, NewEdge EdgeUpdate o o n there); (n + 2, NewEdge EdgeUpdate o n ((o + 1) mod n) here);
         (n + 3, NewEdge EdgeUpdate e e (n + 1) here); (n + 4, NewEdge EdgeUpdate e (n + 1) ((e + 1) mod n) there)]
        ((o + 1) mod n)
    else
      Visit [v; n; o] [n + 2; n; o] [(n, SegmentEnd)]
        [(n, NewEdge EdgeNew 0 o n backward); (n + 1, NewEdge EdgeUpdate e n ((e + 1) mod n) there); (n + 2, NewEdge EdgeUpdate e e n here)]
        ((o + 1) mod n)
  else Visit [v] [v] [] [] ((v + 1) mod n).                      (* 788-790 *)

Definition insert_all {A} (l : list (nat * A)) (m : gmap nat A) : gmap nat A := fold_left (fun m kv => <[kv.1 := kv.2]> m) l m.
Record walk_state := Walk { visited : list bool; walk_news : gmap nat new_vertex; walk_new_edges : gmap nat new_edge }.

(** The inner [do ... while (v != startingVertex)], 410-791. *)
Fixpoint walk (fuel : nat) (inp : split_input) (first : bool) (start v : nat) (p : new_polygon) (w : walk_state) : outcome (new_polygon * walk_state) :=
  match fuel with
  | O => OutOfFuel
  | S fuel =>
      vis ← vset (visited w) v true;
      let r := visit inp first v in
      let p := NewPolygon (new_vertices_of p ++ visit_vertices r) (new_edges_of p ++ visit_edges r) in
      let w := Walk vis (insert_all (visit_news r) (walk_news w)) (insert_all (visit_new_edges r) (walk_new_edges w)) in
      if visit_next r =? start then Ok (p, w) else walk fuel inp first start (visit_next r) p w
  end.
(** The first vertex which was not visited, 794-803. *)
Fixpoint first_false (l : list bool) (k : nat) : option nat :=
  match l with [] => None | b :: l => if b then first_false l (k + 1) else Some k end.
(** The outer loop, 401-806. *)
Fixpoint create (fuel : nat) (inp : split_input) (v : nat) (polygons : list new_polygon) (w : walk_state) : outcome (list new_polygon * walk_state) :=
  match fuel with
  | O => OutOfFuel
  | S fuel =>
      '(p, w) ← walk (number_vertices inp) inp (length polygons =? 0) v v (NewPolygon [] []) w;
      let polygons := polygons ++ [p] in
      match first_false (visited w) 0 with
      | Some k => create fuel inp k polygons w
      | None => Ok (polygons, w)
      end
  end.

(** SplitPolygonWithSegment, 21-824. *)
Definition SplitPolygonWithSegment (inp : split_input) : outcome split_result :=
  let n := number_vertices inp in
  let o := origin_index inp in
  let e := end_index inp in
  let creation :=
    '(ps, w) ← create n inp 0 [] (Walk (replicate n false) ∅ ∅);
    Ok (SplitResult PolygonCreation (map_values (n + 2) (walk_news w)) (map_values (n + 5) (walk_new_edges w)) ps) in
  match origin_type inp, end_type_of inp with
  | EndVertex, EndVertex =>                                                (* 26-50 *)
      if ((o + 1) mod n =? e) || ((e + 1) mod n =? o) || contiguous inp then Ok (SplitResult NoAction [] [] []) else creation
  | EndVertex, EndEdge =>                                                  (* 53-152 *)
      if (o =? e) || (previous n o =? e) || contiguous inp
      then update_polygon n (fun v => if v =? e then [n] else []) None (fun _ => SegmentEnd) else creation
  | EndEdge, EndVertex =>                                                  (* 155-255 *)
      if (o =? e) || (previous n e =? o) || contiguous inp
      then update_polygon n (fun v => if v =? o then [n] else []) None (fun _ => SegmentOrigin) else creation
  | EndEdge, EndEdge =>                                                    (* 258-392; the number of vertices is compared with 4 in 343, 357, 369, 376 *)
      if (o =? e) || contiguous inp
      then update_polygon n (fun v => (if v =? o then [n] else []) ++ (if v =? e then [n + 1] else [])) (Some o)
             (fun x => if x =? 4 then SegmentOrigin else SegmentEnd)
      else creation
  | _, _ => creation
  end.
