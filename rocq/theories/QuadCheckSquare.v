(** * Computations for the tables of Quadrature_Gauss2D_Square.cpp *)
From Coq Require Import QArith Qcanon.
From Verif Require Import Base QcTac QuadModel QuadSpec QuadProof QuadCheck QuadDouble QuadWord QuadSquare.
Local Open Scope Z_scope.

(** The different tables with the degrees up to which they are checked. *)
Definition Square_list : list (nat * rule) :=
  [(1%nat, Square_1); (3%nat, Square_3); (5%nat, Square_5); (7%nat, Square_7); (9%nat, Square_9); (11%nat, Square_11); (13%nat, Square_13); (15%nat, Square_15); (17%nat, Square_17); (19%nat, Square_19); (21%nat, Square_21); (23%nat, Square_23); (25%nat, Square_25); (27%nat, Square_27); (29%nat, Square_29); (31%nat, Square_31)].

Definition Square_check (mr : nat * rule) : bool := check_table false true 2 mr.1 (5 * 10 ^ 14) mr.2.
Lemma Square_check_list : forallb Square_check Square_list = true.
Proof. vm_cast_no_check (eq_refl true). Qed.

Lemma Square_cases order : (order <= 31)%nat ->
  exists m r, In (m, r) Square_list /\ (order <= m)%nat /\ Square_Fill order = Ok r.
Proof.
  intros Ho.
  destruct order as [|order].
  { exists 1%nat, Square_1. split; [left; reflexivity|]. split; [apply Nat.leb_le; reflexivity|]. reflexivity. }
  destruct order as [|order].
  { exists 1%nat, Square_1. split; [left; reflexivity|]. split; [apply Nat.leb_le; reflexivity|]. reflexivity. }
  destruct order as [|order].
  { exists 3%nat, Square_3. split; [right; left; reflexivity|]. split; [apply Nat.leb_le; reflexivity|]. reflexivity. }
  destruct order as [|order].
  { exists 3%nat, Square_3. split; [right; left; reflexivity|]. split; [apply Nat.leb_le; reflexivity|]. reflexivity. }
  destruct order as [|order].
  { exists 5%nat, Square_5. split; [right; right; left; reflexivity|]. split; [apply Nat.leb_le; reflexivity|]. reflexivity. }
  destruct order as [|order].
  { exists 5%nat, Square_5. split; [right; right; left; reflexivity|]. split; [apply Nat.leb_le; reflexivity|]. reflexivity. }
  destruct order as [|order].
  { exists 7%nat, Square_7. split; [right; right; right; left; reflexivity|]. split; [apply Nat.leb_le; reflexivity|]. reflexivity. }
  destruct order as [|order].
  { exists 7%nat, Square_7. split; [right; right; right; left; reflexivity|]. split; [apply Nat.leb_le; reflexivity|]. reflexivity. }
  destruct order as [|order].
  { exists 9%nat, Square_9. split; [right; right; right; right; left; reflexivity|]. split; [apply Nat.leb_le; reflexivity|]. reflexivity. }
  destruct order as [|order].
  { exists 9%nat, Square_9. split; [right; right; right; right; left; reflexivity|]. split; [apply Nat.leb_le; reflexivity|]. reflexivity. }
  destruct order as [|order].
  { exists 11%nat, Square_11. split; [right; right; right; right; right; left; reflexivity|]. split; [apply Nat.leb_le; reflexivity|]. reflexivity. }
  destruct order as [|order].
  { exists 11%nat, Square_11. split; [right; right; right; right; right; left; reflexivity|]. split; [apply Nat.leb_le; reflexivity|]. reflexivity. }
  destruct order as [|order].
  { exists 13%nat, Square_13. split; [right; right; right; right; right; right; left; reflexivity|]. split; [apply Nat.leb_le; reflexivity|]. reflexivity. }
  destruct order as [|order].
  { exists 13%nat, Square_13. split; [right; right; right; right; right; right; left; reflexivity|]. split; [apply Nat.leb_le; reflexivity|]. reflexivity. }
  destruct order as [|order].
  { exists 15%nat, Square_15. split; [right; right; right; right; right; right; right; left; reflexivity|]. split; [apply Nat.leb_le; reflexivity|]. reflexivity. }
  destruct order as [|order].
  { exists 15%nat, Square_15. split; [right; right; right; right; right; right; right; left; reflexivity|]. split; [apply Nat.leb_le; reflexivity|]. reflexivity. }
  destruct order as [|order].
  { exists 17%nat, Square_17. split; [right; right; right; right; right; right; right; right; left; reflexivity|]. split; [apply Nat.leb_le; reflexivity|]. reflexivity. }
  destruct order as [|order].
  { exists 17%nat, Square_17. split; [right; right; right; right; right; right; right; right; left; reflexivity|]. split; [apply Nat.leb_le; reflexivity|]. reflexivity. }
  destruct order as [|order].
  { exists 19%nat, Square_19. split; [right; right; right; right; right; right; right; right; right; left; reflexivity|]. split; [apply Nat.leb_le; reflexivity|]. reflexivity. }
  destruct order as [|order].
  { exists 19%nat, Square_19. split; [right; right; right; right; right; right; right; right; right; left; reflexivity|]. split; [apply Nat.leb_le; reflexivity|]. reflexivity. }
  destruct order as [|order].
  { exists 21%nat, Square_21. split; [right; right; right; right; right; right; right; right; right; right; left; reflexivity|]. split; [apply Nat.leb_le; reflexivity|]. reflexivity. }
  destruct order as [|order].
  { exists 21%nat, Square_21. split; [right; right; right; right; right; right; right; right; right; right; left; reflexivity|]. split; [apply Nat.leb_le; reflexivity|]. reflexivity. }
  destruct order as [|order].
  { exists 23%nat, Square_23. split; [right; right; right; right; right; right; right; right; right; right; right; left; reflexivity|]. split; [apply Nat.leb_le; reflexivity|]. reflexivity. }
  destruct order as [|order].
  { exists 23%nat, Square_23. split; [right; right; right; right; right; right; right; right; right; right; right; left; reflexivity|]. split; [apply Nat.leb_le; reflexivity|]. reflexivity. }
  destruct order as [|order].
  { exists 25%nat, Square_25. split; [right; right; right; right; right; right; right; right; right; right; right; right; left; reflexivity|]. split; [apply Nat.leb_le; reflexivity|]. reflexivity. }
  destruct order as [|order].
  { exists 25%nat, Square_25. split; [right; right; right; right; right; right; right; right; right; right; right; right; left; reflexivity|]. split; [apply Nat.leb_le; reflexivity|]. reflexivity. }
  destruct order as [|order].
  { exists 27%nat, Square_27. split; [right; right; right; right; right; right; right; right; right; right; right; right; right; left; reflexivity|]. split; [apply Nat.leb_le; reflexivity|]. reflexivity. }
  destruct order as [|order].
  { exists 27%nat, Square_27. split; [right; right; right; right; right; right; right; right; right; right; right; right; right; left; reflexivity|]. split; [apply Nat.leb_le; reflexivity|]. reflexivity. }
  destruct order as [|order].
  { exists 29%nat, Square_29. split; [right; right; right; right; right; right; right; right; right; right; right; right; right; right; left; reflexivity|]. split; [apply Nat.leb_le; reflexivity|]. reflexivity. }
  destruct order as [|order].
  { exists 29%nat, Square_29. split; [right; right; right; right; right; right; right; right; right; right; right; right; right; right; left; reflexivity|]. split; [apply Nat.leb_le; reflexivity|]. reflexivity. }
  destruct order as [|order].
  { exists 31%nat, Square_31. split; [right; right; right; right; right; right; right; right; right; right; right; right; right; right; right; left; reflexivity|]. split; [apply Nat.leb_le; reflexivity|]. reflexivity. }
  destruct order as [|order].
  { exists 31%nat, Square_31. split; [right; right; right; right; right; right; right; right; right; right; right; right; right; right; right; left; reflexivity|]. split; [apply Nat.leb_le; reflexivity|]. reflexivity. }
  exfalso. lia.
Qed.
Lemma Square_throws order : (31 < order)%nat -> Square_Fill order = Throw.
Proof. intros Ho. do 32 (destruct order as [|order]; [exfalso; lia|]). reflexivity. Qed.

Lemma Square_entry m r : In (m, r) Square_list -> Square_check (m, r) = true.
Proof. exact (proj1 (forallb_forall _ _) Square_check_list (m, r)). Qed.
