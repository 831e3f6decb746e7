(** * Computations for the tables of Quadrature_GaussLobatto1D.hpp *)
From Coq Require Import QArith Qcanon.
From Verif Require Import Base QcTac QuadModel QuadSpec QuadProof QuadCheck QuadDouble QuadLobatto1D.
Local Open Scope Z_scope.

(** The different tables with the degrees up to which they are checked. *)
Definition Lobatto1D_list : list (nat * rule) :=
  [(1%nat, Lobatto1D_1); (3%nat, Lobatto1D_3); (5%nat, Lobatto1D_5); (7%nat, Lobatto1D_7); (9%nat, Lobatto1D_9); (11%nat, Lobatto1D_11); (13%nat, Lobatto1D_13); (15%nat, Lobatto1D_15); (17%nat, Lobatto1D_17); (19%nat, Lobatto1D_19); (21%nat, Lobatto1D_21); (23%nat, Lobatto1D_23); (25%nat, Lobatto1D_25); (27%nat, Lobatto1D_27); (29%nat, Lobatto1D_29); (31%nat, Lobatto1D_31); (33%nat, Lobatto1D_33); (35%nat, Lobatto1D_35); (37%nat, Lobatto1D_37); (39%nat, Lobatto1D_39); (41%nat, Lobatto1D_41); (43%nat, Lobatto1D_43)].

Definition Lobatto1D_basic (mr : nat * rule) : bool := check_inside_cube mr.2 && check_weights mr.2.
Definition Lobatto1D_exact (mr : nat * rule) : bool := check_rule cube_nd 1 mr.1 (3 * 10 ^ 14) mr.2.
Lemma Lobatto1D_basic_list : forallb Lobatto1D_basic Lobatto1D_list = true.
Proof. vm_cast_no_check (eq_refl true). Qed.
Lemma Lobatto1D_exact_list : forallb Lobatto1D_exact Lobatto1D_list = true.
Proof. vm_cast_no_check (eq_refl true). Qed.

Lemma Lobatto1D_cases order : (order <= 43)%nat ->
  exists m r, In (m, r) Lobatto1D_list /\ (order <= m)%nat /\ Lobatto1D_Fill order = Ok r.
Proof.
  intros Ho.
  destruct order as [|order].
  { exists 1%nat, Lobatto1D_1. split; [left; reflexivity|]. split; [apply Nat.leb_le; reflexivity|]. reflexivity. }
  destruct order as [|order].
  { exists 1%nat, Lobatto1D_1. split; [left; reflexivity|]. split; [apply Nat.leb_le; reflexivity|]. reflexivity. }
  destruct order as [|order].
  { exists 3%nat, Lobatto1D_3. split; [right; left; reflexivity|]. split; [apply Nat.leb_le; reflexivity|]. reflexivity. }
  destruct order as [|order].
  { exists 3%nat, Lobatto1D_3. split; [right; left; reflexivity|]. split; [apply Nat.leb_le; reflexivity|]. reflexivity. }
  destruct order as [|order].
  { exists 5%nat, Lobatto1D_5. split; [right; right; left; reflexivity|]. split; [apply Nat.leb_le; reflexivity|]. reflexivity. }
  destruct order as [|order].
  { exists 5%nat, Lobatto1D_5. split; [right; right; left; reflexivity|]. split; [apply Nat.leb_le; reflexivity|]. reflexivity. }
  destruct order as [|order].
  { exists 7%nat, Lobatto1D_7. split; [right; right; right; left; reflexivity|]. split; [apply Nat.leb_le; reflexivity|]. reflexivity. }
  destruct order as [|order].
  { exists 7%nat, Lobatto1D_7. split; [right; right; right; left; reflexivity|]. split; [apply Nat.leb_le; reflexivity|]. reflexivity. }
  destruct order as [|order].
  { exists 9%nat, Lobatto1D_9. split; [right; right; right; right; left; reflexivity|]. split; [apply Nat.leb_le; reflexivity|]. reflexivity. }
  destruct order as [|order].
  { exists 9%nat, Lobatto1D_9. split; [right; right; right; right; left; reflexivity|]. split; [apply Nat.leb_le; reflexivity|]. reflexivity. }
  destruct order as [|order].
  { exists 11%nat, Lobatto1D_11. split; [right; right; right; right; right; left; reflexivity|]. split; [apply Nat.leb_le; reflexivity|]. reflexivity. }
  destruct order as [|order].
  { exists 11%nat, Lobatto1D_11. split; [right; right; right; right; right; left; reflexivity|]. split; [apply Nat.leb_le; reflexivity|]. reflexivity. }
  destruct order as [|order].
  { exists 13%nat, Lobatto1D_13. split; [right; right; right; right; right; right; left; reflexivity|]. split; [apply Nat.leb_le; reflexivity|]. reflexivity. }
  destruct order as [|order].
  { exists 13%nat, Lobatto1D_13. split; [right; right; right; right; right; right; left; reflexivity|]. split; [apply Nat.leb_le; reflexivity|]. reflexivity. }
  destruct order as [|order].
  { exists 15%nat, Lobatto1D_15. split; [right; right; right; right; right; right; right; left; reflexivity|]. split; [apply Nat.leb_le; reflexivity|]. reflexivity. }
  destruct order as [|order].
  { exists 15%nat, Lobatto1D_15. split; [right; right; right; right; right; right; right; left; reflexivity|]. split; [apply Nat.leb_le; reflexivity|]. reflexivity. }
  destruct order as [|order].
  { exists 17%nat, Lobatto1D_17. split; [right; right; right; right; right; right; right; right; left; reflexivity|]. split; [apply Nat.leb_le; reflexivity|]. reflexivity. }
  destruct order as [|order].
  { exists 17%nat, Lobatto1D_17. split; [right; right; right; right; right; right; right; right; left; reflexivity|]. split; [apply Nat.leb_le; reflexivity|]. reflexivity. }
  destruct order as [|order].
  { exists 19%nat, Lobatto1D_19. split; [right; right; right; right; right; right; right; right; right; left; reflexivity|]. split; [apply Nat.leb_le; reflexivity|]. reflexivity. }
  destruct order as [|order].
  { exists 19%nat, Lobatto1D_19. split; [right; right; right; right; right; right; right; right; right; left; reflexivity|]. split; [apply Nat.leb_le; reflexivity|]. reflexivity. }
  destruct order as [|order].
  { exists 21%nat, Lobatto1D_21. split; [right; right; right; right; right; right; right; right; right; right; left; reflexivity|]. split; [apply Nat.leb_le; reflexivity|]. reflexivity. }
  destruct order as [|order].
  { exists 21%nat, Lobatto1D_21. split; [right; right; right; right; right; right; right; right; right; right; left; reflexivity|]. split; [apply Nat.leb_le; reflexivity|]. reflexivity. }
  destruct order as [|order].
  { exists 23%nat, Lobatto1D_23. split; [right; right; right; right; right; right; right; right; right; right; right; left; reflexivity|]. split; [apply Nat.leb_le; reflexivity|]. reflexivity. }
  destruct order as [|order].
  { exists 23%nat, Lobatto1D_23. split; [right; right; right; right; right; right; right; right; right; right; right; left; reflexivity|]. split; [apply Nat.leb_le; reflexivity|]. reflexivity. }
  destruct order as [|order].
  { exists 25%nat, Lobatto1D_25. split; [right; right; right; right; right; right; right; right; right; right; right; right; left; reflexivity|]. split; [apply Nat.leb_le; reflexivity|]. reflexivity. }
  destruct order as [|order].
  { exists 25%nat, Lobatto1D_25. split; [right; right; right; right; right; right; right; right; right; right; right; right; left; reflexivity|]. split; [apply Nat.leb_le; reflexivity|]. reflexivity. }
  destruct order as [|order].
  { exists 27%nat, Lobatto1D_27. split; [right; right; right; right; right; right; right; right; right; right; right; right; right; left; reflexivity|]. split; [apply Nat.leb_le; reflexivity|]. reflexivity. }
  destruct order as [|order].
  { exists 27%nat, Lobatto1D_27. split; [right; right; right; right; right; right; right; right; right; right; right; right; right; left; reflexivity|]. split; [apply Nat.leb_le; reflexivity|]. reflexivity. }
  destruct order as [|order].
  { exists 29%nat, Lobatto1D_29. split; [right; right; right; right; right; right; right; right; right; right; right; right; right; right; left; reflexivity|]. split; [apply Nat.leb_le; reflexivity|]. reflexivity. }
  destruct order as [|order].
  { exists 29%nat, Lobatto1D_29. split; [right; right; right; right; right; right; right; right; right; right; right; right; right; right; left; reflexivity|]. split; [apply Nat.leb_le; reflexivity|]. reflexivity. }
  destruct order as [|order].
  { exists 31%nat, Lobatto1D_31. split; [right; right; right; right; right; right; right; right; right; right; right; right; right; right; right; left; reflexivity|]. split; [apply Nat.leb_le; reflexivity|]. reflexivity. }
  destruct order as [|order].
  { exists 31%nat, Lobatto1D_31. split; [right; right; right; right; right; right; right; right; right; right; right; right; right; right; right; left; reflexivity|]. split; [apply Nat.leb_le; reflexivity|]. reflexivity. }
  destruct order as [|order].
  { exists 33%nat, Lobatto1D_33. split; [right; right; right; right; right; right; right; right; right; right; right; right; right; right; right; right; left; reflexivity|]. split; [apply Nat.leb_le; reflexivity|]. reflexivity. }
  destruct order as [|order].
  { exists 33%nat, Lobatto1D_33. split; [right; right; right; right; right; right; right; right; right; right; right; right; right; right; right; right; left; reflexivity|]. split; [apply Nat.leb_le; reflexivity|]. reflexivity. }
  destruct order as [|order].
  { exists 35%nat, Lobatto1D_35. split; [right; right; right; right; right; right; right; right; right; right; right; right; right; right; right; right; right; left; reflexivity|]. split; [apply Nat.leb_le; reflexivity|]. reflexivity. }
  destruct order as [|order].
  { exists 35%nat, Lobatto1D_35. split; [right; right; right; right; right; right; right; right; right; right; right; right; right; right; right; right; right; left; reflexivity|]. split; [apply Nat.leb_le; reflexivity|]. reflexivity. }
  destruct order as [|order].
  { exists 37%nat, Lobatto1D_37. split; [right; right; right; right; right; right; right; right; right; right; right; right; right; right; right; right; right; right; left; reflexivity|]. split; [apply Nat.leb_le; reflexivity|]. reflexivity. }
  destruct order as [|order].
  { exists 37%nat, Lobatto1D_37. split; [right; right; right; right; right; right; right; right; right; right; right; right; right; right; right; right; right; right; left; reflexivity|]. split; [apply Nat.leb_le; reflexivity|]. reflexivity. }
  destruct order as [|order].
  { exists 39%nat, Lobatto1D_39. split; [right; right; right; right; right; right; right; right; right; right; right; right; right; right; right; right; right; right; right; left; reflexivity|]. split; [apply Nat.leb_le; reflexivity|]. reflexivity. }
  destruct order as [|order].
  { exists 39%nat, Lobatto1D_39. split; [right; right; right; right; right; right; right; right; right; right; right; right; right; right; right; right; right; right; right; left; reflexivity|]. split; [apply Nat.leb_le; reflexivity|]. reflexivity. }
  destruct order as [|order].
  { exists 41%nat, Lobatto1D_41. split; [right; right; right; right; right; right; right; right; right; right; right; right; right; right; right; right; right; right; right; right; left; reflexivity|]. split; [apply Nat.leb_le; reflexivity|]. reflexivity. }
  destruct order as [|order].
  { exists 41%nat, Lobatto1D_41. split; [right; right; right; right; right; right; right; right; right; right; right; right; right; right; right; right; right; right; right; right; left; reflexivity|]. split; [apply Nat.leb_le; reflexivity|]. reflexivity. }
  destruct order as [|order].
  { exists 43%nat, Lobatto1D_43. split; [right; right; right; right; right; right; right; right; right; right; right; right; right; right; right; right; right; right; right; right; right; left; reflexivity|]. split; [apply Nat.leb_le; reflexivity|]. reflexivity. }
  destruct order as [|order].
  { exists 43%nat, Lobatto1D_43. split; [right; right; right; right; right; right; right; right; right; right; right; right; right; right; right; right; right; right; right; right; right; left; reflexivity|]. split; [apply Nat.leb_le; reflexivity|]. reflexivity. }
  exfalso. lia.
Qed.
Lemma Lobatto1D_throws order : (43 < order)%nat -> Lobatto1D_Fill order = Throw.
Proof. intros Ho. do 44 (destruct order as [|order]; [exfalso; lia|]). reflexivity. Qed.

Lemma Lobatto1D_entry m r : In (m, r) Lobatto1D_list -> Lobatto1D_basic (m, r) = true /\ Lobatto1D_exact (m, r) = true.
Proof.
  intros H. split; [exact (proj1 (forallb_forall _ _) Lobatto1D_basic_list _ H)|exact (proj1 (forallb_forall _ _) Lobatto1D_exact_list _ H)].
Qed.
