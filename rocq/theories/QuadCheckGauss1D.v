(** * Computations for the tables of Quadrature_Gauss1D.hpp *)
From Coq Require Import QArith Qcanon.
From Verif Require Import Base QcTac QuadModel QuadSpec QuadProof QuadCheck QuadDouble QuadGauss1D.
Local Open Scope Z_scope.

(** The different tables with the degrees up to which they are checked. *)
Definition Gauss1D_list : list (nat * rule) :=
  [(1%nat, Gauss1D_1); (3%nat, Gauss1D_3); (5%nat, Gauss1D_5); (7%nat, Gauss1D_7); (9%nat, Gauss1D_9); (11%nat, Gauss1D_11); (13%nat, Gauss1D_13); (15%nat, Gauss1D_15); (17%nat, Gauss1D_17); (19%nat, Gauss1D_19); (21%nat, Gauss1D_21); (23%nat, Gauss1D_23); (25%nat, Gauss1D_25); (27%nat, Gauss1D_27); (29%nat, Gauss1D_29); (31%nat, Gauss1D_31)].

Definition Gauss1D_basic (mr : nat * rule) : bool := check_determined 1 mr.2 && check_inside_cube mr.2 && check_weights mr.2.
Definition Gauss1D_exact (mr : nat * rule) : bool := check_rule cube_nd 1 mr.1 (5 * 10 ^ 14) mr.2.
Lemma Gauss1D_basic_list : forallb Gauss1D_basic Gauss1D_list = true.
Proof. vm_cast_no_check (eq_refl true). Qed.
Lemma Gauss1D_exact_list : forallb Gauss1D_exact Gauss1D_list = true.
Proof. vm_cast_no_check (eq_refl true). Qed.

Lemma Gauss1D_cases order : (order <= 31)%nat ->
  exists m r, In (m, r) Gauss1D_list /\ (order <= m)%nat /\ Gauss1D_Fill order = Ok r.
Proof.
  intros Ho.
  destruct order as [|order].
  { exists 1%nat, Gauss1D_1. split; [left; reflexivity|]. split; [apply Nat.leb_le; reflexivity|]. reflexivity. }
  destruct order as [|order].
  { exists 1%nat, Gauss1D_1. split; [left; reflexivity|]. split; [apply Nat.leb_le; reflexivity|]. reflexivity. }
  destruct order as [|order].
  { exists 3%nat, Gauss1D_3. split; [right; left; reflexivity|]. split; [apply Nat.leb_le; reflexivity|]. reflexivity. }
  destruct order as [|order].
  { exists 3%nat, Gauss1D_3. split; [right; left; reflexivity|]. split; [apply Nat.leb_le; reflexivity|]. reflexivity. }
  destruct order as [|order].
  { exists 5%nat, Gauss1D_5. split; [right; right; left; reflexivity|]. split; [apply Nat.leb_le; reflexivity|]. reflexivity. }
  destruct order as [|order].
  { exists 5%nat, Gauss1D_5. split; [right; right; left; reflexivity|]. split; [apply Nat.leb_le; reflexivity|]. reflexivity. }
  destruct order as [|order].
  { exists 7%nat, Gauss1D_7. split; [right; right; right; left; reflexivity|]. split; [apply Nat.leb_le; reflexivity|]. reflexivity. }
  destruct order as [|order].
  { exists 7%nat, Gauss1D_7. split; [right; right; right; left; reflexivity|]. split; [apply Nat.leb_le; reflexivity|]. reflexivity. }
  destruct order as [|order].
  { exists 9%nat, Gauss1D_9. split; [right; right; right; right; left; reflexivity|]. split; [apply Nat.leb_le; reflexivity|]. reflexivity. }
  destruct order as [|order].
  { exists 9%nat, Gauss1D_9. split; [right; right; right; right; left; reflexivity|]. split; [apply Nat.leb_le; reflexivity|]. reflexivity. }
  destruct order as [|order].
  { exists 11%nat, Gauss1D_11. split; [right; right; right; right; right; left; reflexivity|]. split; [apply Nat.leb_le; reflexivity|]. reflexivity. }
  destruct order as [|order].
  { exists 11%nat, Gauss1D_11. split; [right; right; right; right; right; left; reflexivity|]. split; [apply Nat.leb_le; reflexivity|]. reflexivity. }
  destruct order as [|order].
  { exists 13%nat, Gauss1D_13. split; [right; right; right; right; right; right; left; reflexivity|]. split; [apply Nat.leb_le; reflexivity|]. reflexivity. }
  destruct order as [|order].
  { exists 13%nat, Gauss1D_13. split; [right; right; right; right; right; right; left; reflexivity|]. split; [apply Nat.leb_le; reflexivity|]. reflexivity. }
  destruct order as [|order].
  { exists 15%nat, Gauss1D_15. split; [right; right; right; right; right; right; right; left; reflexivity|]. split; [apply Nat.leb_le; reflexivity|]. reflexivity. }
  destruct order as [|order].
  { exists 15%nat, Gauss1D_15. split; [right; right; right; right; right; right; right; left; reflexivity|]. split; [apply Nat.leb_le; reflexivity|]. reflexivity. }
  destruct order as [|order].
  { exists 17%nat, Gauss1D_17. split; [right; right; right; right; right; right; right; right; left; reflexivity|]. split; [apply Nat.leb_le; reflexivity|]. reflexivity. }
  destruct order as [|order].
  { exists 17%nat, Gauss1D_17. split; [right; right; right; right; right; right; right; right; left; reflexivity|]. split; [apply Nat.leb_le; reflexivity|]. reflexivity. }
  destruct order as [|order].
  { exists 19%nat, Gauss1D_19. split; [right; right; right; right; right; right; right; right; right; left; reflexivity|]. split; [apply Nat.leb_le; reflexivity|]. reflexivity. }
  destruct order as [|order].
  { exists 19%nat, Gauss1D_19. split; [right; right; right; right; right; right; right; right; right; left; reflexivity|]. split; [apply Nat.leb_le; reflexivity|]. reflexivity. }
  destruct order as [|order].
  { exists 21%nat, Gauss1D_21. split; [right; right; right; right; right; right; right; right; right; right; left; reflexivity|]. split; [apply Nat.leb_le; reflexivity|]. reflexivity. }
  destruct order as [|order].
  { exists 21%nat, Gauss1D_21. split; [right; right; right; right; right; right; right; right; right; right; left; reflexivity|]. split; [apply Nat.leb_le; reflexivity|]. reflexivity. }
  destruct order as [|order].
  { exists 23%nat, Gauss1D_23. split; [right; right; right; right; right; right; right; right; right; right; right; left; reflexivity|]. split; [apply Nat.leb_le; reflexivity|]. reflexivity. }
  destruct order as [|order].
  { exists 23%nat, Gauss1D_23. split; [right; right; right; right; right; right; right; right; right; right; right; left; reflexivity|]. split; [apply Nat.leb_le; reflexivity|]. reflexivity. }
  destruct order as [|order].
  { exists 25%nat, Gauss1D_25. split; [right; right; right; right; right; right; right; right; right; right; right; right; left; reflexivity|]. split; [apply Nat.leb_le; reflexivity|]. reflexivity. }
  destruct order as [|order].
  { exists 25%nat, Gauss1D_25. split; [right; right; right; right; right; right; right; right; right; right; right; right; left; reflexivity|]. split; [apply Nat.leb_le; reflexivity|]. reflexivity. }
  destruct order as [|order].
  { exists 27%nat, Gauss1D_27. split; [right; right; right; right; right; right; right; right; right; right; right; right; right; left; reflexivity|]. split; [apply Nat.leb_le; reflexivity|]. reflexivity. }
  destruct order as [|order].
  { exists 27%nat, Gauss1D_27. split; [right; right; right; right; right; right; right; right; right; right; right; right; right; left; reflexivity|]. split; [apply Nat.leb_le; reflexivity|]. reflexivity. }
  destruct order as [|order].
  { exists 29%nat, Gauss1D_29. split; [right; right; right; right; right; right; right; right; right; right; right; right; right; right; left; reflexivity|]. split; [apply Nat.leb_le; reflexivity|]. reflexivity. }
  destruct order as [|order].
  { exists 29%nat, Gauss1D_29. split; [right; right; right; right; right; right; right; right; right; right; right; right; right; right; left; reflexivity|]. split; [apply Nat.leb_le; reflexivity|]. reflexivity. }
  destruct order as [|order].
  { exists 31%nat, Gauss1D_31. split; [right; right; right; right; right; right; right; right; right; right; right; right; right; right; right; left; reflexivity|]. split; [apply Nat.leb_le; reflexivity|]. reflexivity. }
  destruct order as [|order].
  { exists 31%nat, Gauss1D_31. split; [right; right; right; right; right; right; right; right; right; right; right; right; right; right; right; left; reflexivity|]. split; [apply Nat.leb_le; reflexivity|]. reflexivity. }
  exfalso. lia.
Qed.
Lemma Gauss1D_throws order : (31 < order)%nat -> Gauss1D_Fill order = Throw.
Proof. intros Ho. do 32 (destruct order as [|order]; [exfalso; lia|]). reflexivity. Qed.

Lemma Gauss1D_entry m r : In (m, r) Gauss1D_list -> Gauss1D_basic (m, r) = true /\ Gauss1D_exact (m, r) = true.
Proof.
  intros H. split; [exact (proj1 (forallb_forall _ _) Gauss1D_basic_list _ H)|exact (proj1 (forallb_forall _ _) Gauss1D_exact_list _ H)].
Qed.
