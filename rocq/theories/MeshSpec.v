(** * Abstract view of the mesh store.

    A mesh is four lists of cells.  A cell is a record holding everything the API lets one store for it.
    Editing calls act on these lists in the obvious way; nothing here mentions offsets or arrays. *)
From Verif Require Import Base MeshModel.

Record acell := ACell {
  ac_geo : list N;               (* 0D: x, y, z;  1D: origin, end;  otherwise empty *)
  ac_mark : N;
  ac_act : bool;
  ac_orig : N;                   (* cell this one was created from; not used for 0D *)
  ac_upd : option (gset N);      (* cells replacing this one, if any *)
  ac_rel : rel -> list N;        (* vertices, edges, neighbours, ... *)
  ac_prop : list (list N)        (* values of each double property *)
}.

Record amesh := AMesh {
  am_dim : nat;
  am_cells : dim -> list acell;
  am_names : dim -> list string  (* names of the double properties *)
}.

Definition anum (d : dim) (a : amesh) : nat := length (am_cells a d).
Definition aempty : amesh := AMesh 0 (fun _ => []) (fun _ => []).

Definition geo_size (d : dim) : nat := match d with D0 => 3 | D1 => 2 | _ => 0 end.

(** A freshly created cell with [p] properties. *)
Definition new_cell (d : dim) (p : nat) : acell :=
  ACell (replicate (geo_size d) 0%N) 0 false UINT_MAX None (fun _ => []) (replicate p []).

Definition with_cells (d : dim) (cs : list acell) (a : amesh) : amesh :=
  AMesh (am_dim a) (upd_fun (am_cells a) d cs) (am_names a).

(** Field updates of one cell. *)
Definition with_geo (g : list N) (x : acell) : acell :=
  ACell g (ac_mark x) (ac_act x) (ac_orig x) (ac_upd x) (ac_rel x) (ac_prop x).
Definition with_mark (v : N) (x : acell) : acell :=
  ACell (ac_geo x) v (ac_act x) (ac_orig x) (ac_upd x) (ac_rel x) (ac_prop x).
Definition with_act (b : bool) (x : acell) : acell :=
  ACell (ac_geo x) (ac_mark x) b (ac_orig x) (ac_upd x) (ac_rel x) (ac_prop x).
Definition with_orig (o : N) (x : acell) : acell :=
  ACell (ac_geo x) (ac_mark x) (ac_act x) o (ac_upd x) (ac_rel x) (ac_prop x).
Definition with_upd (u : option (gset N)) (x : acell) : acell :=
  ACell (ac_geo x) (ac_mark x) (ac_act x) (ac_orig x) u (ac_rel x) (ac_prop x).
Definition with_row (r : rel) (l : list N) (x : acell) : acell :=
  ACell (ac_geo x) (ac_mark x) (ac_act x) (ac_orig x) (ac_upd x) (upd_fun (ac_rel x) r l) (ac_prop x).
Definition with_props (ps : list (list N)) (x : acell) : acell :=
  ACell (ac_geo x) (ac_mark x) (ac_act x) (ac_orig x) (ac_upd x) (ac_rel x) ps.

(** Apply [f] to cell [i] of dimension [d]; [None] when there is no such cell. *)
Definition on_cell (d : dim) (i : nat) (f : acell -> acell) (a : amesh) : option amesh :=
  x ← am_cells a d !! i;
  Some (with_cells d (<[i := f x]> (am_cells a d)) a).

(** ** Renumbering caused by the removal of cell [i]: cells above [i] move down by one, a reference to [i]
    itself becomes [gone]. *)
Definition renumber (i gone v : N) : N :=
  if decide (v < i)%N then v else if decide (v = i) then gone else (v - 1)%N.

(** Is the attribute a list of neighbours (absent entries marked UINT_MAX) or part of the cell's description? *)
Definition is_neighbour (r : rel) : bool :=
  match r with R01 | R02 | R03 | R12 | R13 | R23 => true | _ => false end.

(** What a reference to the removed cell becomes: the "no cell" marker in neighbour lists, the new number of
    cells elsewhere.  Sub-divisions are left alone by the code. *)
Definition renumber_row (d : dim) (i gone : N) (r : rel) (l : list N) : list N :=
  if decide (tgt r = d /\ r <> S2)
  then renumber i (if is_neighbour r then UINT_MAX else gone) <$> l
  else l.

(** The set of replacing cells without [i]; a cell left without any is no longer replaced. *)
Definition renumber_upd (i : N) (u : option (gset N)) : option (gset N) :=
  s ← u;
  if decide (s ⊆ {[i]}) then None
  else Some (set_map (fun v => if decide (v < i)%N then v else (v - 1)%N) (s ∖ {[i]})).

(** Effect on a cell of dimension [d'] of removing cell [i] of dimension [d]; [gone] is the new number of cells. *)
Definition renumber_cell (d : dim) (i gone : N) (d' : dim) (x : acell) : acell :=
  ACell (if decide (d = D0 /\ d' = D1) then renumber i gone <$> ac_geo x else ac_geo x)
        (ac_mark x) (ac_act x)
        (if decide (d = d' /\ d <> D0) then renumber i UINT_MAX (ac_orig x) else ac_orig x)
        (if decide (d = d') then renumber_upd i (ac_upd x) else ac_upd x)
        (fun r => renumber_row d i gone r (ac_rel x r))
        (ac_prop x).

Definition aremove (d : dim) (i : nat) (a : amesh) : amesh :=
  AMesh (am_dim a)
        (fun d' => renumber_cell d (N.of_nat i) (N.of_nat (anum d a - 1)) d' <$>
                   (if decide (d = d') then delete i (am_cells a d') else am_cells a d'))
        (am_names a).

(** ** Bulk initialisation: the rows get the requested lengths; the old values of all cells, one after the other,
    are dealt out again and the missing ones are defaults. *)
Fixpoint deal {A} (cnt : list nat) (l : list A) : list (list A) :=
  match cnt with
  | [] => []
  | n :: cnt' => take n l :: deal cnt' (drop n l)
  end.

Definition redeal {A} (d : A) (cnt : list nat) (rows : list (list A)) : list (list A) :=
  deal cnt (resize (sum_list cnt) d (concat rows)).

Definition default_bulk (r : rel) : N := if decide (r = S2) then 0%N else UINT_MAX.
Definition default_single (r : rel) : N := if is_neighbour r then UINT_MAX else 0%N.

Definition all_below (n : nat) (vs : list N) : Prop := Forall (fun v => (v < N.of_nat n)%N) vs.
Global Instance all_below_dec n vs : Decision (all_below n vs).
Proof. unfold all_below. apply _. Defined.

Definition row_of (r : rel) (x : acell) : list N := ac_rel x r.
Definition prop_of (p : nat) (x : acell) : list N := default [] (ac_prop x !! p).

(** ** The editing calls.  [None]: the call aborts on a failed assertion. *)
Definition astep (a : amesh) (o : op) : option amesh :=
  match o with
  | OInitDimension n => Some (AMesh n (am_cells a) (am_names a))
  | OInitialize d n =>
      Some (with_cells d (am_cells a d ++ replicate (n - anum d a) (new_cell d (length (am_names a d)))) a)
  | OAppend d n =>
      Some (with_cells d (am_cells a d ++ replicate n (new_cell d (length (am_names a d)))) a)
  | ORemove d i => if decide (i < anum d a) then Some (aremove d i a) else None
  | OCoordinates i x y z => on_cell D0 i (with_geo [x; y; z]) a
  | OAllCoordinates cols =>
      if decide (length cols = anum D0 a)
      then Some (with_cells D0 (zip_with (fun c x => with_geo [c.1.1; c.1.2; c.2] x) cols (am_cells a D0)) a)
      else None
  | OExtremes e o t => on_cell D1 e (with_geo [o; t]) a
  | OAllExtremes cols =>
      if decide (length cols = anum D1 a /\ all_below (anum D0 a) (cols.*1) /\ all_below (anum D0 a) (cols.*2))
      then Some (with_cells D1 (zip_with (fun c x => with_geo [c.1; c.2] x) cols (am_cells a D1)) a)
      else None
  | OMarker d i v => on_cell d i (with_mark v) a
  | OState d i b => on_cell d i (with_act b) a
  | OUpdated d i j =>
      if decide (i < anum d a /\ j < anum d a) then
        a' ← on_cell d i (fun x => with_upd (Some ({[N.of_nat j]} ∪ default ∅ (ac_upd x))) x) a;
        on_cell d j (fun x => if decide (d = D0) then x else with_orig (N.of_nat i) x) a'
      else None
  | OInitAll r cnt =>
      if decide (length cnt = anum (src r) a)
      then Some (with_cells (src r)
             (zip_with (with_row r) (redeal (default_bulk r) cnt (row_of r <$> am_cells a (src r)))
                       (am_cells a (src r))) a)
      else None
  | OInitConst r k =>
      Some (with_cells (src r)
             (zip_with (with_row r)
                (redeal (default_bulk r) (replicate (anum (src r) a) k) (row_of r <$> am_cells a (src r)))
                (am_cells a (src r))) a)
  | OInitOne r i n =>
      if decide (r = S2 -> n mod 3 = 0)
      then on_cell (src r) i (fun x => with_row r (resize n (default_single r) (ac_rel x r)) x) a
      else None
  | OInsert r i k v =>
      x ← am_cells a (src r) !! i;
      if decide (k < length (ac_rel x r) /\ (v < N.of_nat (anum (tgt r) a))%N)
      then on_cell (src r) i (fun x => with_row r (<[k := v]> (ac_rel x r)) x) a
      else None
  | OInsertList r i vs =>
      if decide (vs = []) then Some a else
      x ← am_cells a (src r) !! i;
      if decide (length vs <= length (ac_rel x r) /\ all_below (anum (tgt r) a) vs)
      then on_cell (src r) i (fun x => with_row r (vs ++ drop (length vs) (ac_rel x r)) x) a
      else None
  | OAdd r i vs =>
      if decide ((r = S2 -> length vs mod 3 = 0) /\ all_below (anum (tgt r) a) vs)
      then on_cell (src r) i (with_row r vs) a
      else None
  | OAddVE i cols =>
      if decide (all_below (anum D0 a) (cols.*1) /\ all_below (anum D1 a) (cols.*2))
      then on_cell D2 i (fun x => with_row E2 (cols.*2) (with_row V2 (cols.*1) x)) a
      else None
  | OReset r i k => on_cell (src r) i (fun x => with_row r (<[k := UINT_MAX]> (ac_rel x r)) x) a
  | OAddProperty d id =>
      if decide (id ∈ am_names a d) then None
      else Some (AMesh (am_dim a)
                       (upd_fun (am_cells a) d ((fun x => with_props (ac_prop x ++ [[]]) x) <$> am_cells a d))
                       (upd_fun (am_names a) d (am_names a d ++ [id])))
  | OPropInitAll d p cnt =>
      if decide (p < length (am_names a d) /\ length cnt = anum d a)
      then Some (with_cells d
             (zip_with (fun l x => with_props (<[p := l]> (ac_prop x)) x)
                (redeal 0%N cnt (prop_of p <$> am_cells a d)) (am_cells a d)) a)
      else None
  | OPropInitOne d i p n =>
      if decide (p < length (am_names a d))
      then on_cell d i (fun x => with_props (<[p := resize n 0%N (prop_of p x)]> (ac_prop x)) x) a
      else None
  | OPropInsert d i p k v =>
      if decide (p < length (am_names a d))
      then on_cell d i (fun x => with_props (<[p := <[k := v]> (prop_of p x)]> (ac_prop x)) x) a
      else None
  | OCompress => Some a
  end.

(** ** When the calls that do not check their arguments are safe.

    - [CellkDsInitialize] may only be used while no cell of that dimension has any variable-length data, and not to
      shrink (or with the current number);
    - [Reset...] and [InsertDoublePropertyValue] do not check the position. *)
Definition bare (d : dim) (x : acell) : Prop :=
  (forall r, src r = d -> ac_rel x r = []) /\ Forall (fun l => l = []) (ac_prop x).

Definition pre (a : amesh) (o : op) : Prop :=
  match o with
  | OInitialize d n => n = anum d a \/ (anum d a <= n /\ Forall (bare d) (am_cells a d))
  | OReset r i k => exists x, am_cells a (src r) !! i = Some x /\ k < length (ac_rel x r)
  | OPropInsert d i p k _ =>
      forall x l, am_cells a d !! i = Some x -> ac_prop x !! p = Some l -> k < length l
  | _ => True
  end.

(** Running a list of calls. *)
Fixpoint arun (ops : list op) (a : amesh) : option amesh :=
  match ops with
  | [] => Some a
  | o :: ops' => a' ← astep a o; arun ops' a'
  end.

(** Every unchecked call of the history is safe when it happens. *)
Fixpoint safe (ops : list op) (a : amesh) : Prop :=
  match ops with
  | [] => True
  | o :: ops' => pre a o /\ match astep a o with Some a' => safe ops' a' | None => True end
  end.
