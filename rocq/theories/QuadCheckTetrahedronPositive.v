(** * Computations for the tables of Quadrature_Gauss3D_Tetrahedron_PositiveWeights.cpp *)
From Coq Require Import QArith Qcanon.
From Verif Require Import Base QcTac QuadModel QuadSpec QuadProof QuadCheck QuadDouble QuadWord QuadTetrahedronPositive.
Local Open Scope Z_scope.

(** The different tables with the degrees up to which they are checked. *)
Definition TetrahedronPositive_list : list (nat * rule) :=
  [(1%nat, TetrahedronPositive_1); (2%nat, TetrahedronPositive_2); (3%nat, TetrahedronPositive_3); (4%nat, TetrahedronPositive_4); (6%nat, TetrahedronPositive_6); (8%nat, TetrahedronPositive_8); (10%nat, TetrahedronPositive_10); (12%nat, TetrahedronPositive_12); (14%nat, TetrahedronPositive_14)].

Definition TetrahedronPositive_check (mr : nat * rule) : bool := check_table true true 3 mr.1 (10 ^ 14) mr.2.
Lemma TetrahedronPositive_check_list : forallb TetrahedronPositive_check TetrahedronPositive_list = true.
Proof. vm_cast_no_check (eq_refl true). Qed.

Lemma TetrahedronPositive_cases order : (order <= 14)%nat -> order <> 11%nat -> order <> 13%nat ->
  exists m r, In (m, r) TetrahedronPositive_list /\ (order <= m)%nat /\ TetrahedronPositive_Fill order = Ok r.
Proof.
  intros Ho M11 M13.
  destruct order as [|order].
  { exists 1%nat, TetrahedronPositive_1. split; [left; reflexivity|]. split; [apply Nat.leb_le; reflexivity|]. reflexivity. }
  destruct order as [|order].
  { exists 1%nat, TetrahedronPositive_1. split; [left; reflexivity|]. split; [apply Nat.leb_le; reflexivity|]. reflexivity. }
  destruct order as [|order].
  { exists 2%nat, TetrahedronPositive_2. split; [right; left; reflexivity|]. split; [apply Nat.leb_le; reflexivity|]. reflexivity. }
  destruct order as [|order].
  { exists 3%nat, TetrahedronPositive_3. split; [right; right; left; reflexivity|]. split; [apply Nat.leb_le; reflexivity|]. reflexivity. }
  destruct order as [|order].
  { exists 4%nat, TetrahedronPositive_4. split; [right; right; right; left; reflexivity|]. split; [apply Nat.leb_le; reflexivity|]. reflexivity. }
  destruct order as [|order].
  { exists 6%nat, TetrahedronPositive_6. split; [right; right; right; right; left; reflexivity|]. split; [apply Nat.leb_le; reflexivity|]. reflexivity. }
  destruct order as [|order].
  { exists 6%nat, TetrahedronPositive_6. split; [right; right; right; right; left; reflexivity|]. split; [apply Nat.leb_le; reflexivity|]. reflexivity. }
  destruct order as [|order].
  { exists 8%nat, TetrahedronPositive_8. split; [right; right; right; right; right; left; reflexivity|]. split; [apply Nat.leb_le; reflexivity|]. reflexivity. }
  destruct order as [|order].
  { exists 8%nat, TetrahedronPositive_8. split; [right; right; right; right; right; left; reflexivity|]. split; [apply Nat.leb_le; reflexivity|]. reflexivity. }
  destruct order as [|order].
  { exists 10%nat, TetrahedronPositive_10. split; [right; right; right; right; right; right; left; reflexivity|]. split; [apply Nat.leb_le; reflexivity|]. reflexivity. }
  destruct order as [|order].
  { exists 10%nat, TetrahedronPositive_10. split; [right; right; right; right; right; right; left; reflexivity|]. split; [apply Nat.leb_le; reflexivity|]. reflexivity. }
  destruct order as [|order].
  { done. }
  destruct order as [|order].
  { exists 12%nat, TetrahedronPositive_12. split; [right; right; right; right; right; right; right; left; reflexivity|]. split; [apply Nat.leb_le; reflexivity|]. reflexivity. }
  destruct order as [|order].
  { done. }
  destruct order as [|order].
  { exists 14%nat, TetrahedronPositive_14. split; [right; right; right; right; right; right; right; right; left; reflexivity|]. split; [apply Nat.leb_le; reflexivity|]. reflexivity. }
  exfalso. lia.
Qed.
Lemma TetrahedronPositive_throws order : (14 < order)%nat -> TetrahedronPositive_Fill order = Throw.
Proof. intros Ho. do 15 (destruct order as [|order]; [exfalso; lia|]). reflexivity. Qed.

Lemma TetrahedronPositive_entry m r : In (m, r) TetrahedronPositive_list -> TetrahedronPositive_check (m, r) = true.
Proof. exact (proj1 (forallb_forall _ _) TetrahedronPositive_check_list (m, r)). Qed.
