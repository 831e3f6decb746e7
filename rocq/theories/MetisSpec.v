(** * Notions used in the statements about networks and partitions. *)
From stdpp Require Import relations.
From Verif Require Import Base MetisModel.

(** A compressed adjacency over [n] vertices: [n + 1] non-decreasing offsets from 0 to the number of entries, entries
    being vertices. *)
Definition adj_ok (n : nat) (a : madj) : Prop :=
  length (Rows a) = n + 1 /\
  Rows a !! 0 = Some 0 /\
  (forall v lo hi, Rows a !! v = Some lo -> Rows a !! (v + 1) = Some hi -> lo <= hi) /\
  Rows a !! n = Some (length (Cols a)) /\
  Forall (fun w => w < n) (Cols a).

(** Entry number [pos] is a connection from [v] to [w]. *)
Definition entry (a : madj) (pos v w : nat) : Prop :=
  Cols a !! pos = Some w /\ exists lo hi, Rows a !! v = Some lo /\ Rows a !! (v + 1) = Some hi /\ lo <= pos < hi.

Definition net_edge (a : madj) (v w : nat) : Prop := exists pos, entry a pos v w.

(** [w] can be reached from [u] along connections between vertices of one part. *)
Definition reach_inside (a : madj) (parts : list nat) (u w : nat) : Prop :=
  rtc (fun x y => net_edge a x y /\ parts !! x = parts !! y) u w.

(** The part numbers in use are exactly [start], ..., [start + k - 1]. *)
Definition consecutive (start : nat) (parts : list nat) : Prop :=
  exists k, forall p, p ∈ parts <-> start <= p < start + k.

(** Two elements are together in [new] iff they are together in [old]. *)
Definition same_classes (old new : list nat) : Prop :=
  length new = length old /\
  forall i j p q p' q', old !! i = Some p -> old !! j = Some q -> new !! i = Some p' -> new !! j = Some q' ->
    (p' = q' <-> p = q).

(** The slice of a per-connection array that belongs to vertex [v]. *)
Definition slice {A} (a : madj) (v : nat) (l : list A) : list A :=
  let lo := default 0 (Rows a !! v) in let hi := default 0 (Rows a !! (v + 1)) in take (hi - lo) (drop lo l).

(** Number of pairs of different places of [l] holding [a] and [b]: in how many ways a facet whose neighbours are [l]
    is shared by the cells [a] and [b]. *)
Definition shared (l : list N) (a b : nat) : nat :=
  count_occ N.eq_dec l (N.of_nat a) * (count_occ N.eq_dec l (N.of_nat b) - if decide (a = b) then 1 else 0).
