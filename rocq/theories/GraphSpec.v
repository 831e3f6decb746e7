(** * Graph notions used in the statements, independent of the algorithms. *)
From Verif Require Import Base.
From stdpp Require Import relations.

(** Every listed neighbour is a vertex. *)
Definition graph_ok (g : list (list nat)) : Prop := Forall (Forall (fun w => w < length g)) g.

Definition edge (g : list (list nat)) (u w : nat) : Prop := exists adj, g !! u = Some adj /\ w ∈ adj.

(** Number of edges from [u] to [w]. *)
Definition mult (g : list (list nat)) (u w : nat) : nat := count_occ PeanoNat.Nat.eq_dec (default [] (g !! u)) w.

(** Reachable, and reachable using only vertices allowed by [P] (the start excepted). *)
Definition reach (g : list (list nat)) : nat -> nat -> Prop := rtc (edge g).
Definition reach_in (g : list (list nat)) (P : nat -> Prop) : nat -> nat -> Prop :=
  rtc (fun u w => edge g u w /\ P w).

(** Each one reaches the other. *)
Definition mutual (g : list (list nat)) (u w : nat) : Prop := reach g u w /\ reach g w u.

(** [n] is the length of a shortest path from [s] to [w]. *)
Definition distance (g : list (list nat)) (s w n : nat) : Prop :=
  nsteps (edge g) n s w /\ forall k, nsteps (edge g) k s w -> n <= k.

(** 1 when edge number [e] of the list is [p], else 0. *)
Definition hits (cols : list (nat * nat)) (e : nat) (p : nat * nat) : nat :=
  match cols !! e with Some q => if decide (q = p) then 1 else 0 | None => 0 end.

(** [m] maps each key of the list to its first position. *)
Definition first_position (keys : list nat) (m : gmap nat nat) : Prop :=
  forall k p, m !! k = Some p <-> keys !! p = Some k /\ forall q, keys !! q = Some k -> p <= q.
