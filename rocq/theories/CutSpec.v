(** * Notions used in the statements about splitting a polygon *)
From Verif Require Import Base CutModel.

(** Consecutive pairs of a list, and of a closed list. *)
Fixpoint path (l : list nat) : list (nat * nat) :=
  match l with
  | x :: ((y :: _) as l') => (x, y) :: path l'
  | _ => []
  end.
Definition cycle (l : list nat) : list (nat * nat) := match l with [] => [] | x :: _ => path (l ++ [x]) end.

(** The numbers of the ends of the segment: a vertex keeps its number, points inside edges are numbered from [n] on,
    the origin first. *)
Definition origin_point (inp : split_input) : nat :=
  match origin_type inp with EndEdge => number_vertices inp | _ => origin_index inp end.
Definition end_point (inp : split_input) : nat :=
  match end_type_of inp, origin_type inp with
  | EndEdge, EndEdge => number_vertices inp + 1
  | EndEdge, _ => number_vertices inp
  | _, _ => end_index inp
  end.
(** The new points inside edge [v] in the direction of the edge (the caller gives the origin first when both are there). *)
Definition points_inside (inp : split_input) (v : nat) : list nat :=
  (if decide (origin_type inp = EndEdge /\ origin_index inp = v) then [origin_point inp] else []) ++
  (if decide (end_type_of inp = EndEdge /\ end_index inp = v) then [end_point inp] else []).
(** The boundary of the polygon with the new points. *)
Definition boundary (inp : split_input) : list nat := flat_map (fun v => v :: points_inside inp v) (seq 0 (number_vertices inp)).
(** The parts of edge [v]. *)
Definition edge_parts (inp : split_input) (v : nat) : list (nat * nat) :=
  path (v :: points_inside inp v ++ [(v + 1) mod number_vertices inp]).

(** Ends of the edge number [e]: edges of the polygon, then the new ones. *)
Definition edge_ends (n : nat) (news : list new_edge) (e : nat) : option (nat * nat) :=
  if e <? n then Some (e, (e + 1) mod n) else (fun x => (edge_origin x, edge_end x)) <$> news !! (e - n).

Definition well_formed (inp : split_input) : Prop :=
  3 <= number_vertices inp /\ origin_index inp < number_vertices inp /\ end_index inp < number_vertices inp /\
  origin_type inp <> EndUnknown /\ end_type_of inp <> EndUnknown /\
  ~ (origin_type inp = EndVertex /\ end_type_of inp = EndVertex /\ origin_index inp = end_index inp).
(** Both ends of the segment are on the same edge. *)
Definition on_edge (inp : split_input) (e : nat) (t : end_type) (i : nat) : Prop :=
  match t with EndVertex => i = e \/ i = (e + 1) mod number_vertices inp | _ => i = e end.
Definition on_boundary (inp : split_input) : Prop :=
  exists e, e < number_vertices inp /\ on_edge inp e (origin_type inp) (origin_index inp) /\ on_edge inp e (end_type_of inp) (end_index inp).

(** The types of the new vertices. *)
Definition vertex_types (inp : split_input) : list new_vertex :=
  (if decide (origin_type inp = EndEdge) then [SegmentOrigin] else []) ++ (if decide (end_type_of inp = EndEdge) then [SegmentEnd] else []).

(** The listed edges of a polygon run along its listed vertices, forward except for the new segment. *)
Definition chained (inp : split_input) (news : list new_edge) (p : new_polygon) : Prop :=
  Forall2 (fun e st => edge_ends (number_vertices inp) news e = Some st \/
                       (st = (end_point inp, origin_point inp) /\ edge_ends (number_vertices inp) news e = Some (origin_point inp, end_point inp)))
    (new_edges_of p) (cycle (new_vertices_of p)).

(** What a new edge records: the segment between the two polygons (right one, then left one), or a part of an old edge with
    the polygon which uses it. *)
Definition recorded (inp : split_input) (ps : list new_polygon) (x : new_edge) : Prop :=
  match edge_type x with
  | EdgeNew => (edge_origin x, edge_end x) = (origin_point inp, end_point inp) /\
      exists l r pl pr, edge_neighbours x = [r; l] /\ ps !! l = Some pl /\ ps !! r = Some pr /\
        (edge_origin x, edge_end x) ∈ cycle (new_vertices_of pl) /\ (edge_end x, edge_origin x) ∈ cycle (new_vertices_of pr)
  | EdgeUpdate => (edge_origin x, edge_end x) ∈ edge_parts inp (old_edge x) /\
      exists c p, edge_neighbours x = [c] /\ ps !! c = Some p /\ (edge_origin x, edge_end x) ∈ cycle (new_vertices_of p)
  | EdgeUnknown => False
  end.

(** A result with two polygons which together go along every part of the boundary once, in its direction, and along the
    segment once in each direction. *)
Definition two_halves (inp : split_input) (r : split_result) : Prop :=
  exists p0 p1, result_type r = PolygonCreation /\ new_vertices r = vertex_types inp /\ new_polygons r = [p0; p1] /\
    cycle (new_vertices_of p0) ++ cycle (new_vertices_of p1) ≡ₚ
      cycle (boundary inp) ++ [(origin_point inp, end_point inp); (end_point inp, origin_point inp)] /\
    Forall (fun p => chained inp (new_edges r) p /\ NoDup (new_vertices_of p) /\ 3 <= length (new_vertices_of p)) [p0; p1] /\
    Forall (recorded inp [p0; p1]) (new_edges r).
(** A result with the same polygon, with the new points on its boundary. *)
Definition one_polygon (inp : split_input) (r : split_result) : Prop :=
  exists p, result_type r = PolygonUpdate /\ new_polygons r = [p] /\ new_vertices_of p = boundary inp /\ chained inp (new_edges r) p /\
    Forall (fun x => edge_type x = EdgeUpdate /\ recorded inp [p] x) (new_edges r).
