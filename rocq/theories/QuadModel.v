(** * Quadrature rules: vocabulary for the tables of GeDiM/src/Quadrature. *)
From Coq Require Import QArith Qcanon.
From Verif Require Import Base QcTac.
Local Open Scope Z_scope.

(** A decimal literal of the source, digits over a power of ten: [Dec 21132486540518713 17] is 2.1132486540518713e-01. *)
Inductive decimal := Dec (digits : Z) (places : Z).

(** The double denoted by a literal, as [m / 2^k]: the nearest one with 53 significant bits, ties to even.  Overflow and
    subnormal numbers do not occur in the tables and are not modelled. *)
Definition dyadic : Type := Z * Z.
Definition double_of (l : decimal) : dyadic :=
  let '(Dec p e) := l in
  if p =? 0 then (0, 0) else
  let d := 10 ^ e in
  let k0 := 53 + Z.log2 d - Z.log2 (Z.abs p) in
  let k := if (Z.abs p * 2 ^ k0) / d <? 2 ^ 53 then k0 else k0 - 1 in
  let t := 2 * (Z.abs p * 2 ^ k) + d in
  let q := t / (2 * d) in
  let q := if (t mod (2 * d) =? 0) && Z.odd q then q - 1 else q in
  (Z.sgn p * q, k).

(** Points (the coordinates which are assigned) and weights of one case of the switch.  The other coordinates are zero
    after [points.setZero(3, n)] and indeterminate after [points.resize(3, n)]. *)
Record rule := Rule { zeroed : bool; columns : list (list decimal * decimal) }.

(** Row [i] of the matrix of points of QuadratureData; [None] is an indeterminate value. *)
Definition coordinate (r : rule) (c : list decimal) (i : nat) : option dyadic :=
  match c !! i with
  | Some l => Some (double_of l)
  | None => if zeroed r then Some (0, 0) else None
  end.
Definition points (r : rule) : list (list (option dyadic)) :=
  (fun c => (fun i => coordinate r c.1 i) <$> seq 0 3) <$> columns r.
Definition weights (r : rule) : list dyadic := (fun c => double_of c.2) <$> columns r.
