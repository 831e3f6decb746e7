(** * Computations for the tables of Quadrature_Gauss2D_Triangle.cpp *)
From Coq Require Import QArith Qcanon.
From Verif Require Import Base QcTac QuadModel QuadSpec QuadProof QuadCheck QuadDouble QuadWord QuadTriangle.
Local Open Scope Z_scope.

(** The different tables with the degrees up to which they are checked. *)
Definition Triangle_list : list (nat * rule) :=
  [(1%nat, Triangle_1); (2%nat, Triangle_2); (3%nat, Triangle_3); (4%nat, Triangle_4); (5%nat, Triangle_5); (6%nat, Triangle_6); (7%nat, Triangle_7); (8%nat, Triangle_8); (9%nat, Triangle_9); (10%nat, Triangle_10); (11%nat, Triangle_11); (12%nat, Triangle_12); (13%nat, Triangle_13); (14%nat, Triangle_14); (15%nat, Triangle_15); (16%nat, Triangle_16); (17%nat, Triangle_17); (19%nat, Triangle_19); (20%nat, Triangle_21); (25%nat, Triangle_25); (30%nat, Triangle_30)].
(** Tables which repeat another one. *)
Lemma Triangle_0_same : Triangle_0 = Triangle_1.
Proof. reflexivity. Qed.
Lemma Triangle_18_same : Triangle_18 = Triangle_19.
Proof. reflexivity. Qed.
Lemma Triangle_20_same : Triangle_20 = Triangle_21.
Proof. reflexivity. Qed.
Lemma Triangle_22_same : Triangle_22 = Triangle_25.
Proof. reflexivity. Qed.
Lemma Triangle_23_same : Triangle_23 = Triangle_25.
Proof. reflexivity. Qed.
Lemma Triangle_24_same : Triangle_24 = Triangle_25.
Proof. reflexivity. Qed.
Lemma Triangle_26_same : Triangle_26 = Triangle_30.
Proof. reflexivity. Qed.
Lemma Triangle_27_same : Triangle_27 = Triangle_30.
Proof. reflexivity. Qed.
Lemma Triangle_28_same : Triangle_28 = Triangle_30.
Proof. reflexivity. Qed.
Lemma Triangle_29_same : Triangle_29 = Triangle_30.
Proof. reflexivity. Qed.

Definition Triangle_check (mr : nat * rule) : bool := check_table true true 2 mr.1 (5 * 10 ^ 12) mr.2.
Lemma Triangle_check_list : forallb Triangle_check Triangle_list = true.
Proof. vm_cast_no_check (eq_refl true). Qed.

Lemma Triangle_cases order : (order <= 30)%nat ->
  exists m r, In (m, r) Triangle_list /\ (order <= m + 1)%nat /\ Triangle_Fill order = Ok r /\ (order <> 21%nat -> (order <= m)%nat).
Proof.
  intros Ho.
  destruct order as [|order].
  { exists 1%nat, Triangle_1. split; [left; reflexivity|]. split; [apply Nat.leb_le; reflexivity|]. split; [rewrite <- Triangle_0_same; reflexivity|]. intros _; apply Nat.leb_le; reflexivity. }
  destruct order as [|order].
  { exists 1%nat, Triangle_1. split; [left; reflexivity|]. split; [apply Nat.leb_le; reflexivity|]. split; [reflexivity|]. intros _; apply Nat.leb_le; reflexivity. }
  destruct order as [|order].
  { exists 2%nat, Triangle_2. split; [right; left; reflexivity|]. split; [apply Nat.leb_le; reflexivity|]. split; [reflexivity|]. intros _; apply Nat.leb_le; reflexivity. }
  destruct order as [|order].
  { exists 3%nat, Triangle_3. split; [right; right; left; reflexivity|]. split; [apply Nat.leb_le; reflexivity|]. split; [reflexivity|]. intros _; apply Nat.leb_le; reflexivity. }
  destruct order as [|order].
  { exists 4%nat, Triangle_4. split; [right; right; right; left; reflexivity|]. split; [apply Nat.leb_le; reflexivity|]. split; [reflexivity|]. intros _; apply Nat.leb_le; reflexivity. }
  destruct order as [|order].
  { exists 5%nat, Triangle_5. split; [right; right; right; right; left; reflexivity|]. split; [apply Nat.leb_le; reflexivity|]. split; [reflexivity|]. intros _; apply Nat.leb_le; reflexivity. }
  destruct order as [|order].
  { exists 6%nat, Triangle_6. split; [right; right; right; right; right; left; reflexivity|]. split; [apply Nat.leb_le; reflexivity|]. split; [reflexivity|]. intros _; apply Nat.leb_le; reflexivity. }
  destruct order as [|order].
  { exists 7%nat, Triangle_7. split; [right; right; right; right; right; right; left; reflexivity|]. split; [apply Nat.leb_le; reflexivity|]. split; [reflexivity|]. intros _; apply Nat.leb_le; reflexivity. }
  destruct order as [|order].
  { exists 8%nat, Triangle_8. split; [right; right; right; right; right; right; right; left; reflexivity|]. split; [apply Nat.leb_le; reflexivity|]. split; [reflexivity|]. intros _; apply Nat.leb_le; reflexivity. }
  destruct order as [|order].
  { exists 9%nat, Triangle_9. split; [right; right; right; right; right; right; right; right; left; reflexivity|]. split; [apply Nat.leb_le; reflexivity|]. split; [reflexivity|]. intros _; apply Nat.leb_le; reflexivity. }
  destruct order as [|order].
  { exists 10%nat, Triangle_10. split; [right; right; right; right; right; right; right; right; right; left; reflexivity|]. split; [apply Nat.leb_le; reflexivity|]. split; [reflexivity|]. intros _; apply Nat.leb_le; reflexivity. }
  destruct order as [|order].
  { exists 11%nat, Triangle_11. split; [right; right; right; right; right; right; right; right; right; right; left; reflexivity|]. split; [apply Nat.leb_le; reflexivity|]. split; [reflexivity|]. intros _; apply Nat.leb_le; reflexivity. }
  destruct order as [|order].
  { exists 12%nat, Triangle_12. split; [right; right; right; right; right; right; right; right; right; right; right; left; reflexivity|]. split; [apply Nat.leb_le; reflexivity|]. split; [reflexivity|]. intros _; apply Nat.leb_le; reflexivity. }
  destruct order as [|order].
  { exists 13%nat, Triangle_13. split; [right; right; right; right; right; right; right; right; right; right; right; right; left; reflexivity|]. split; [apply Nat.leb_le; reflexivity|]. split; [reflexivity|]. intros _; apply Nat.leb_le; reflexivity. }
  destruct order as [|order].
  { exists 14%nat, Triangle_14. split; [right; right; right; right; right; right; right; right; right; right; right; right; right; left; reflexivity|]. split; [apply Nat.leb_le; reflexivity|]. split; [reflexivity|]. intros _; apply Nat.leb_le; reflexivity. }
  destruct order as [|order].
  { exists 15%nat, Triangle_15. split; [right; right; right; right; right; right; right; right; right; right; right; right; right; right; left; reflexivity|]. split; [apply Nat.leb_le; reflexivity|]. split; [reflexivity|]. intros _; apply Nat.leb_le; reflexivity. }
  destruct order as [|order].
  { exists 16%nat, Triangle_16. split; [right; right; right; right; right; right; right; right; right; right; right; right; right; right; right; left; reflexivity|]. split; [apply Nat.leb_le; reflexivity|]. split; [reflexivity|]. intros _; apply Nat.leb_le; reflexivity. }
  destruct order as [|order].
  { exists 17%nat, Triangle_17. split; [right; right; right; right; right; right; right; right; right; right; right; right; right; right; right; right; left; reflexivity|]. split; [apply Nat.leb_le; reflexivity|]. split; [reflexivity|]. intros _; apply Nat.leb_le; reflexivity. }
  destruct order as [|order].
  { exists 19%nat, Triangle_19. split; [right; right; right; right; right; right; right; right; right; right; right; right; right; right; right; right; right; left; reflexivity|]. split; [apply Nat.leb_le; reflexivity|]. split; [rewrite <- Triangle_18_same; reflexivity|]. intros _; apply Nat.leb_le; reflexivity. }
  destruct order as [|order].
  { exists 19%nat, Triangle_19. split; [right; right; right; right; right; right; right; right; right; right; right; right; right; right; right; right; right; left; reflexivity|]. split; [apply Nat.leb_le; reflexivity|]. split; [reflexivity|]. intros _; apply Nat.leb_le; reflexivity. }
  destruct order as [|order].
  { exists 20%nat, Triangle_21. split; [right; right; right; right; right; right; right; right; right; right; right; right; right; right; right; right; right; right; left; reflexivity|]. split; [apply Nat.leb_le; reflexivity|]. split; [rewrite <- Triangle_20_same; reflexivity|]. intros _; apply Nat.leb_le; reflexivity. }
  destruct order as [|order].
  { exists 20%nat, Triangle_21. split; [right; right; right; right; right; right; right; right; right; right; right; right; right; right; right; right; right; right; left; reflexivity|]. split; [apply Nat.leb_le; reflexivity|]. split; [reflexivity|]. intros H; by destruct H. }
  destruct order as [|order].
  { exists 25%nat, Triangle_25. split; [right; right; right; right; right; right; right; right; right; right; right; right; right; right; right; right; right; right; right; left; reflexivity|]. split; [apply Nat.leb_le; reflexivity|]. split; [rewrite <- Triangle_22_same; reflexivity|]. intros _; apply Nat.leb_le; reflexivity. }
  destruct order as [|order].
  { exists 25%nat, Triangle_25. split; [right; right; right; right; right; right; right; right; right; right; right; right; right; right; right; right; right; right; right; left; reflexivity|]. split; [apply Nat.leb_le; reflexivity|]. split; [rewrite <- Triangle_23_same; reflexivity|]. intros _; apply Nat.leb_le; reflexivity. }
  destruct order as [|order].
  { exists 25%nat, Triangle_25. split; [right; right; right; right; right; right; right; right; right; right; right; right; right; right; right; right; right; right; right; left; reflexivity|]. split; [apply Nat.leb_le; reflexivity|]. split; [rewrite <- Triangle_24_same; reflexivity|]. intros _; apply Nat.leb_le; reflexivity. }
  destruct order as [|order].
  { exists 25%nat, Triangle_25. split; [right; right; right; right; right; right; right; right; right; right; right; right; right; right; right; right; right; right; right; left; reflexivity|]. split; [apply Nat.leb_le; reflexivity|]. split; [reflexivity|]. intros _; apply Nat.leb_le; reflexivity. }
  destruct order as [|order].
  { exists 30%nat, Triangle_30. split; [right; right; right; right; right; right; right; right; right; right; right; right; right; right; right; right; right; right; right; right; left; reflexivity|]. split; [apply Nat.leb_le; reflexivity|]. split; [rewrite <- Triangle_26_same; reflexivity|]. intros _; apply Nat.leb_le; reflexivity. }
  destruct order as [|order].
  { exists 30%nat, Triangle_30. split; [right; right; right; right; right; right; right; right; right; right; right; right; right; right; right; right; right; right; right; right; left; reflexivity|]. split; [apply Nat.leb_le; reflexivity|]. split; [rewrite <- Triangle_27_same; reflexivity|]. intros _; apply Nat.leb_le; reflexivity. }
  destruct order as [|order].
  { exists 30%nat, Triangle_30. split; [right; right; right; right; right; right; right; right; right; right; right; right; right; right; right; right; right; right; right; right; left; reflexivity|]. split; [apply Nat.leb_le; reflexivity|]. split; [rewrite <- Triangle_28_same; reflexivity|]. intros _; apply Nat.leb_le; reflexivity. }
  destruct order as [|order].
  { exists 30%nat, Triangle_30. split; [right; right; right; right; right; right; right; right; right; right; right; right; right; right; right; right; right; right; right; right; left; reflexivity|]. split; [apply Nat.leb_le; reflexivity|]. split; [rewrite <- Triangle_29_same; reflexivity|]. intros _; apply Nat.leb_le; reflexivity. }
  destruct order as [|order].
  { exists 30%nat, Triangle_30. split; [right; right; right; right; right; right; right; right; right; right; right; right; right; right; right; right; right; right; right; right; left; reflexivity|]. split; [apply Nat.leb_le; reflexivity|]. split; [reflexivity|]. intros _; apply Nat.leb_le; reflexivity. }
  exfalso. lia.
Qed.
Lemma Triangle_throws order : (30 < order)%nat -> Triangle_Fill order = Throw.
Proof. intros Ho. do 31 (destruct order as [|order]; [exfalso; lia|]). reflexivity. Qed.

Lemma Triangle_entry m r : In (m, r) Triangle_list -> Triangle_check (m, r) = true.
Proof. exact (proj1 (forallb_forall _ _) Triangle_check_list (m, r)). Qed.
