(** * Histories of mesh-editing calls, seen through the queries only. *)
From Verif Require Import Base MeshModel.

(** What the caller must ensure before a call that does not check its arguments itself.

    - CellkDsInitialize: not shrink, and change the number of cells only while the cells of that dimension have
      no variable-length data yet;
    - CellkDResetNeighbourCellmD: the slot exists;
    - CellkDInsertDoublePropertyValue: the position is within the declared size. *)
Definition allowed (m : mesh) (o : op) : Prop :=
  match o with
  | OInitialize d n =>
      n = num d m \/
      (num d m <= n /\ forall i, i < num d m ->
         (forall r, RelNumber r i m = Ok 0%N \/ src r <> d) /\
         (forall p, PropSize d i p m = Ok 0%N \/ length (pids (cprops (mcells m d))) <= p))
  | OReset r i k => exists n, RelNumber r i m = Ok n /\ (N.of_nat k < n)%N
  | OPropInsert d i p k _ => forall n, PropSize d i p m = Ok n -> (N.of_nat k < n)%N
  | _ => True
  end.

(** Every mesh a program can obtain from an empty one by successful calls. *)
Inductive reachable : mesh -> Prop :=
| reach_empty : reachable empty_mesh
| reach_step m o m' : reachable m -> allowed m o -> step m o = Ok m' -> reachable m'.

(** A list of calls, each one allowed when it happens. *)
Fixpoint all_allowed (ops : list op) (m : mesh) : Prop :=
  match ops with
  | [] => True
  | o :: ops' => allowed m o /\ match step m o with Ok m' => all_allowed ops' m' | _ => True end
  end.

(** The number a surviving cell gets when cell [i] is removed. *)
Definition new_number (i v : nat) : nat := if v <? i then v else v - 1.
Definition new_numberN (i v : N) : N := if (v <? i)%N then v else (v - 1)%N.

(** Position of cell [j] of dimension [d'] after the removal of cell [i] of dimension [d]. *)
Definition moved (d : dim) (i : nat) (d' : dim) (j : nat) : nat :=
  if decide (d' = d) then new_number i j else j.

(** ** Frames

    All the other stored data, as seen by the queries. *)
Definition same_rows_but (r : rel) (i : nat) (m m' : mesh) : Prop :=
  forall r' j, (r', j) <> (r, i) -> RelRow r' j m' = RelRow r' j m.

Definition same_values (m m' : mesh) : Prop :=
  (forall d, num d m' = num d m) /\
  (forall i, Cell0DCoordinates i m' = Cell0DCoordinates i m) /\
  (forall e, Cell1DOrigin e m' = Cell1DOrigin e m /\ Cell1DEnd e m' = Cell1DEnd e m) /\
  (forall d i, Marker d i m' = Marker d i m /\ IsActive d i m' = IsActive d i m) /\
  (forall d i, HasUpdateds d i m' = HasUpdateds d i m) /\
  (forall d i, d <> D0 -> Original d i m' = Original d i m).

Definition same_props (m m' : mesh) : Prop :=
  forall d i p, PropSize d i p m' = PropSize d i p m /\
                forall k, PropValue d i p k m' = PropValue d i p k m.

(** ** Following one cell through a history *)

(** Where cell [j] of dimension [d] is after the call; [None] when the call removes it. *)
Definition follow (o : op) (d : dim) (j : nat) : option nat :=
  match o with
  | ORemove d' i => if decide (d' = d) then if decide (j = i) then None else Some (new_number i j) else Some j
  | _ => Some j
  end.

Fixpoint follow_all (ops : list op) (d : dim) (j : nat) : option nat :=
  match ops with
  | [] => Some j
  | o :: ops' => match follow o d j with Some j' => follow_all ops' d j' | None => None end
  end.

(** Does the call (re)write attribute [r] of cell [j]? *)
Definition writes_row (o : op) (r : rel) (j : nat) : Prop :=
  match o with
  | OInitAll r' _ | OInitConst r' _ => r' = r
  | OInitOne r' i _ | OInsert r' i _ _ | OInsertList r' i _ | OAdd r' i _ | OReset r' i _ => r' = r /\ i = j
  | OAddVE i _ => (r = V2 \/ r = E2) /\ i = j
  | _ => False
  end.

(** Does the call record an origin for cell [j] of dimension [d]? *)
Definition writes_origin (o : op) (d : dim) (j : nat) : Prop :=
  match o with OUpdated d' _ i => d' = d /\ i = j | _ => False end.

(** Does the call rewrite the end points of edge [j]? *)
Definition writes_extremes (o : op) (j : nat) : Prop :=
  match o with OExtremes e _ _ => e = j | OAllExtremes _ => True | _ => False end.

(** No call of the history satisfies [P] for the followed cell. *)
Fixpoint never (P : op -> nat -> Prop) (ops : list op) (d : dim) (j : nat) : Prop :=
  match ops with
  | [] => True
  | o :: ops' => ~ P o j /\ match follow o d j with Some j' => never P ops' d j' | None => True end
  end.

(** Number of cells of dimension [d] the history creates. *)
Definition created1 (d : dim) (m : mesh) (o : op) : nat :=
  match o with
  | OAppend d' n => if decide (d' = d) then n else 0
  | OInitialize d' n => if decide (d' = d) then n - num d m else 0
  | _ => 0
  end.

Fixpoint created (d : dim) (ops : list op) (m : mesh) : nat :=
  match ops with
  | [] => 0
  | o :: ops' => created1 d m o + match step m o with Ok m' => created d ops' m' | _ => 0 end
  end.

(** ** Genealogy *)

(** Cell [i] was replaced (among others) by cell [j]. *)
Definition replaced_by (d : dim) (m : mesh) (i j : nat) : Prop := HasUpdated d i j m = Ok true.
Definition current (d : dim) (m : mesh) (i : nat) : Prop := forall j, ~ replaced_by d m i j.
