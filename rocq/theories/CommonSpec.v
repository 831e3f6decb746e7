(** * Notions used in the statements about the common utilities. *)
From Verif Require Import QcTac.
Local Open Scope nat_scope.

Fixpoint factorial (n : nat) : N := match n with 0 => 1%N | S n' => (N.of_nat n * factorial n')%N end.

(** [k] numbers among 0 .. n-1, repetitions allowed. *)
Definition selection (n : Z) (k : nat) (w : list Z) : Prop := length w = k /\ Forall (fun x => 0 <= x < n)%Z w.

(** Sum of the squared vertical distances of the points from the line with slope [a] and intercept [b]. *)
Fixpoint squared_error (a b : Qc) (x y : list Qc) : Qc :=
  match x, y with
  | u :: x', v :: y' => ((v - (a * u + b)) * (v - (a * u + b)) + squared_error a b x' y')%Qc
  | _, _ => 0%Qc
  end.
