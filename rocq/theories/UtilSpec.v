(** * Words used to state the properties of the mesh utilities. *)
From Verif Require Import Base MeshModel MeshHist.
From Coq Require Import Sorted.

(** Is cell [i] of dimension [d] active? *)
Definition active (d : dim) (m : mesh) (i : nat) : bool :=
  match IsActive d i m with Ok b => b | _ => false end.

(** Number of active cells before cell [i]. *)
Definition rank (d : dim) (m : mesh) (i : nat) : nat := length (filter (fun j => active d m j = true) (seq 0 i)).

(** The reference [v] to a cell of dimension [d] becomes [w] when the cells are renumbered by [f]: the reference to a
    cell that survives is the reference to the same cell; any other one refers to no cell of [m']. *)
Definition ref_renamed (f : gmap nat nat) (d : dim) (m' : mesh) (v w : N) : Prop :=
  (exists i j, v = N.of_nat i /\ f !! i = Some j /\ w = N.of_nat j) \/
  ((forall i, v = N.of_nat i -> f !! i = None) /\ (N.of_nat (num d m') <= w)%N).

(** ** Neighbours *)

(** How often [v] occurs in [l]. *)
Definition occurrences (v : N) (l : list N) : nat := length (filter (fun w => w = v) l).

(** All the active cells of the higher dimension refer, through [row], to existing cells. *)
Definition valid_incidence (r : rel) (row : nat -> mesh -> outcome (list N)) (m : mesh) : Prop :=
  forall c, active (tgt r) m c = true ->
    exists l, row c m = Ok l /\ Forall (fun v => (v < N.of_nat (num (src r) m))%N) l.

(** [m'] is [m] with the neighbours [r] recomputed: the neighbours of [v] are, in increasing order, the active cells
    having [v] in their [row], each one as often as [v] occurs there.  Nothing else differs. *)
Definition neighbours_computed (r : rel) (row : nat -> mesh -> outcome (list N)) (m m' : mesh) : Prop :=
  (forall v, v < num (src r) m ->
     exists l, RelRow r v m' = Ok l /\ StronglySorted N.le l /\
       forall c, occurrences (N.of_nat c) l =
         if active (tgt r) m c
         then match row c m with Ok k => occurrences (N.of_nat v) k | _ => 0 end
         else 0) /\
  (forall r' j, r' <> r -> RelRow r' j m' = RelRow r' j m) /\ same_values m m' /\ same_props m m'.

(** Polygon [c] has edge [e]; it runs along it when it goes from its origin to its end. *)
Definition has_edge (m : mesh) (c e : nat) : Prop :=
  exists es p, RelRow E2 c m = Ok es /\ es !! p = Some (N.of_nat e).
Definition runs_along (m : mesh) (c e : nat) : Prop :=
  exists vs es p o t, RelRow V2 c m = Ok vs /\ RelRow E2 c m = Ok es /\ es !! p = Some (N.of_nat e) /\
    vs !! p = Some o /\ vs !! ((p + 1) mod length es) = Some t /\ Cell1DOrigin e m = Ok o /\ Cell1DEnd e m = Ok t.

(** Every active polygon has as many edges as vertices, its edges exist, and no two of them have the same origin and the
    same end. *)
Definition plane_polygons (m : mesh) : Prop :=
  forall c, active D2 m c = true ->
    exists vs es, RelRow V2 c m = Ok vs /\ RelRow E2 c m = Ok es /\ length vs = length es /\
      Forall (fun e => (e < N.of_nat (num D1 m))%N) es /\
      forall p q e e', es !! p = Some e -> es !! q = Some e' ->
        Cell1DOrigin (N.to_nat e) m = Cell1DOrigin (N.to_nat e') m ->
        Cell1DEnd (N.to_nat e) m = Cell1DEnd (N.to_nat e') m -> p = q.

(** [w] is the last cell satisfying [P], or the "no cell" mark. *)
Definition last_such (P : nat -> Prop) (w : N) : Prop :=
  (exists c, w = N.of_nat c /\ P c /\ forall c', P c' -> c' <= c) \/ (w = UINT_MAX /\ forall c, ~ P c).

(** ** Splitting *)

(** Everything about the cells that existed before, except the neighbours of lower-dimensional cells: cell [parent] of
    dimension [d] was replaced by [k] new cells, which come last. *)
Definition split_frame (d : dim) (parent k : nat) (m m' : mesh) : Prop :=
  mdim m' = mdim m /\
  (forall d', num d' m' = num d' m + if decide (d' = d) then k else 0) /\
  (forall d' i, i < num d' m -> Marker d' i m' = Marker d' i m) /\
  (forall d' i, i < num d' m ->
     IsActive d' i m' = if decide (d' = d /\ i = parent) then Ok false else IsActive d' i m) /\
  (forall i, i < num D0 m -> Cell0DCoordinates i m' = Cell0DCoordinates i m) /\
  (forall e, e < num D1 m -> Cell1DOrigin e m' = Cell1DOrigin e m /\ Cell1DEnd e m' = Cell1DEnd e m) /\
  (forall d' i, d' <> D0 -> i < num d' m -> Original d' i m' = Original d' i m) /\
  (forall d' i p, i < num d' m -> PropSize d' i p m' = PropSize d' i p m /\
     forall q, PropValue d' i p q m' = PropValue d' i p q m) /\
  (forall d' i j, i < num d' m ->
     replaced_by d' m' i j <->
     replaced_by d' m i j \/ (d' = d /\ i = parent /\ num d m <= j < num d m + k)).

(** The new cells: active, with the marker of [parent], created from [parent], not replaced. *)
Definition split_children (d : dim) (parent k : nat) (m m' : mesh) : Prop :=
  forall c, c < k ->
    let n := num d m + c in
    Marker d n m' = Marker d parent m /\ IsActive d n m' = Ok true /\ Original d n m' = Ok (N.of_nat parent) /\
    HasUpdateds d n m' = Ok false.

(** The neighbours of the parent are the neighbours of all the new cells; missing neighbours stay missing. *)
Definition inherited (r : rel) (parent k : nat) (m m' : mesh) : Prop :=
  forall c, c < k ->
    exists l, RelRow r parent m = Ok l /\
      RelRow r (num (src r) m + c) m' = Ok ((fun v => if (v <? N.of_nat (num (tgt r) m))%N then v else UINT_MAX) <$> l).

(** In the neighbours of [v], the parent is replaced by the first new cell having [v]; [rows]: for each new cell, the
    cells it has. *)
Definition redirected (r : rel) (parent : nat) (rows : list (list N)) (m m' : mesh) : Prop :=
  forall v, v < num (src r) m ->
    exists l, RelRow r v m = Ok l /\
      RelRow r v m' = Ok ((fun w =>
        match list_find (fun row => N.of_nat v ∈ row) rows with
        | Some (c, _) => if (w =? N.of_nat parent)%N then N.of_nat (num (tgt r) m + c) else w
        | None => w
        end) <$> l).

(** No neighbour list of a cell belonging to a child mentions [parent], and where [parent] was mentioned one of the
    children having that cell is; [rows]: for each child the cells it has. *)
Definition references_replaced (r : rel) (parent : nat) (rows : list (list N)) (m m' : mesh) : Prop :=
  forall v row l l', v < num (src r) m -> row ∈ rows -> N.of_nat v ∈ row ->
    RelRow r v m = Ok l -> RelRow r v m' = Ok l' ->
    length l' = length l /\ N.of_nat parent ∉ l' /\
    forall k, l !! k = Some (N.of_nat parent) ->
      exists c row', rows !! c = Some row' /\ N.of_nat v ∈ row' /\ l' !! k = Some (N.of_nat (num (tgt r) m + c)).

(** Every active cell having [v] is listed among the neighbours of [v]. *)
Definition neighbours_complete (r inc : rel) (m : mesh) : Prop :=
  forall v c lc, v < num (src r) m -> active (tgt r) m c -> RelRow inc c m = Ok lc -> N.of_nat v ∈ lc ->
    exists l, RelRow r v m = Ok l /\ N.of_nat c ∈ l.
