(** * Computations for the tables of Quadrature_Gauss3D_Tetrahedron.cpp *)
From Coq Require Import QArith Qcanon.
From Verif Require Import Base QcTac QuadModel QuadSpec QuadProof QuadCheck QuadDouble QuadWord QuadTetrahedron.
Local Open Scope Z_scope.

(** The different tables with the degrees up to which they are checked. *)
Definition Tetrahedron_list : list (nat * rule) :=
  [(1%nat, Tetrahedron_1); (2%nat, Tetrahedron_2); (3%nat, Tetrahedron_3); (4%nat, Tetrahedron_4); (5%nat, Tetrahedron_5); (6%nat, Tetrahedron_6); (8%nat, Tetrahedron_8); (9%nat, Tetrahedron_9); (11%nat, Tetrahedron_11); (13%nat, Tetrahedron_13); (15%nat, Tetrahedron_15)].
(** Tables which repeat another one. *)
Lemma Tetrahedron_0_same : Tetrahedron_0 = Tetrahedron_1.
Proof. reflexivity. Qed.
Lemma Tetrahedron_7_same : Tetrahedron_7 = Tetrahedron_8.
Proof. reflexivity. Qed.
Lemma Tetrahedron_10_same : Tetrahedron_10 = Tetrahedron_11.
Proof. reflexivity. Qed.
Lemma Tetrahedron_12_same : Tetrahedron_12 = Tetrahedron_13.
Proof. reflexivity. Qed.
Lemma Tetrahedron_14_same : Tetrahedron_14 = Tetrahedron_15.
Proof. reflexivity. Qed.

Definition Tetrahedron_check (mr : nat * rule) : bool := check_table true false 3 mr.1 (2 * 10 ^ 13) mr.2.
Lemma Tetrahedron_check_list : forallb Tetrahedron_check Tetrahedron_list = true.
Proof. vm_cast_no_check (eq_refl true). Qed.

Lemma Tetrahedron_cases order : (order <= 15)%nat ->
  exists m r, In (m, r) Tetrahedron_list /\ (order <= m)%nat /\ Tetrahedron_Fill order = Ok r.
Proof.
  intros Ho.
  destruct order as [|order].
  { exists 1%nat, Tetrahedron_1. split; [left; reflexivity|]. split; [apply Nat.leb_le; reflexivity|]. rewrite <- Tetrahedron_0_same; reflexivity. }
  destruct order as [|order].
  { exists 1%nat, Tetrahedron_1. split; [left; reflexivity|]. split; [apply Nat.leb_le; reflexivity|]. reflexivity. }
  destruct order as [|order].
  { exists 2%nat, Tetrahedron_2. split; [right; left; reflexivity|]. split; [apply Nat.leb_le; reflexivity|]. reflexivity. }
  destruct order as [|order].
  { exists 3%nat, Tetrahedron_3. split; [right; right; left; reflexivity|]. split; [apply Nat.leb_le; reflexivity|]. reflexivity. }
  destruct order as [|order].
  { exists 4%nat, Tetrahedron_4. split; [right; right; right; left; reflexivity|]. split; [apply Nat.leb_le; reflexivity|]. reflexivity. }
  destruct order as [|order].
  { exists 5%nat, Tetrahedron_5. split; [right; right; right; right; left; reflexivity|]. split; [apply Nat.leb_le; reflexivity|]. reflexivity. }
  destruct order as [|order].
  { exists 6%nat, Tetrahedron_6. split; [right; right; right; right; right; left; reflexivity|]. split; [apply Nat.leb_le; reflexivity|]. reflexivity. }
  destruct order as [|order].
  { exists 8%nat, Tetrahedron_8. split; [right; right; right; right; right; right; left; reflexivity|]. split; [apply Nat.leb_le; reflexivity|]. rewrite <- Tetrahedron_7_same; reflexivity. }
  destruct order as [|order].
  { exists 8%nat, Tetrahedron_8. split; [right; right; right; right; right; right; left; reflexivity|]. split; [apply Nat.leb_le; reflexivity|]. reflexivity. }
  destruct order as [|order].
  { exists 9%nat, Tetrahedron_9. split; [right; right; right; right; right; right; right; left; reflexivity|]. split; [apply Nat.leb_le; reflexivity|]. reflexivity. }
  destruct order as [|order].
  { exists 11%nat, Tetrahedron_11. split; [right; right; right; right; right; right; right; right; left; reflexivity|]. split; [apply Nat.leb_le; reflexivity|]. rewrite <- Tetrahedron_10_same; reflexivity. }
  destruct order as [|order].
  { exists 11%nat, Tetrahedron_11. split; [right; right; right; right; right; right; right; right; left; reflexivity|]. split; [apply Nat.leb_le; reflexivity|]. reflexivity. }
  destruct order as [|order].
  { exists 13%nat, Tetrahedron_13. split; [right; right; right; right; right; right; right; right; right; left; reflexivity|]. split; [apply Nat.leb_le; reflexivity|]. rewrite <- Tetrahedron_12_same; reflexivity. }
  destruct order as [|order].
  { exists 13%nat, Tetrahedron_13. split; [right; right; right; right; right; right; right; right; right; left; reflexivity|]. split; [apply Nat.leb_le; reflexivity|]. reflexivity. }
  destruct order as [|order].
  { exists 15%nat, Tetrahedron_15. split; [right; right; right; right; right; right; right; right; right; right; left; reflexivity|]. split; [apply Nat.leb_le; reflexivity|]. rewrite <- Tetrahedron_14_same; reflexivity. }
  destruct order as [|order].
  { exists 15%nat, Tetrahedron_15. split; [right; right; right; right; right; right; right; right; right; right; left; reflexivity|]. split; [apply Nat.leb_le; reflexivity|]. reflexivity. }
  exfalso. lia.
Qed.
Lemma Tetrahedron_throws order : (15 < order)%nat -> Tetrahedron_Fill order = Throw.
Proof. intros Ho. do 16 (destruct order as [|order]; [exfalso; lia|]). reflexivity. Qed.

Lemma Tetrahedron_entry m r : In (m, r) Tetrahedron_list -> Tetrahedron_check (m, r) = true.
Proof. exact (proj1 (forallb_forall _ _) Tetrahedron_check_list (m, r)). Qed.
