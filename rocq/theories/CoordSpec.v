(** * Equispaced and random coordinates: what the callers expect. *)
From Verif Require Import Base QcTac GeoModel.
Local Open Scope nat_scope.

(** From [a] to [b] in equal steps. *)
Definition even_line (a b : Qc) (l : list Qc) : Prop :=
  l !! 0 = Some a /\ last l = Some b /\ exists d, forall k x y, l !! k = Some x -> l !! S k = Some y -> (y - x = d)%Qc.
(** Every value is at least [d] greater than the one before. *)
Definition gaps (d : Qc) (l : list Qc) : Prop := forall k x y, l !! k = Some x -> l !! S k = Some y -> (x + d <= y)%Qc.
(** The greatest natural number that is not greater than [x]. *)
Definition floor_of (x : Qc) (n : nat) : Prop := (Q2Qc (inject_Z (Z.of_nat n)) <= x)%Qc /\ (x < Q2Qc (inject_Z (Z.of_nat n + 1)))%Qc.
