(** * Vocabulary of C18 *)
From Verif Require Import Base.

(** [b] follows [a] in the closed chain [c]. *)
Definition follows (c : list N) (a b : N) : Prop :=
  exists v, c !! v = Some a /\ c !! ((v + 1) mod length c) = Some b.

(** Some polygon has a side between [a] and [b], in one direction or the other. *)
Definition joined (cells : list (list N)) (a b : N) : Prop :=
  exists c, c ∈ cells /\ (follows c a b \/ follows c b a).

(** All vertices are numbers of points. *)
Definition in_range (n : nat) (cells : list (list N)) : Prop := Forall (Forall (fun v => (v < N.of_nat n)%N)) cells.
