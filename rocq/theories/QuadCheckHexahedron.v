(** * Computations for the tables of Quadrature_Gauss3D_Hexahedron.cpp *)
From Coq Require Import QArith Qcanon.
From Verif Require Import Base QcTac QuadModel QuadSpec QuadProof QuadCheck QuadDouble QuadWord QuadHexahedron.
Local Open Scope Z_scope.

(** The different tables with the degrees up to which they are checked. *)
Definition Hexahedron_list : list (nat * rule) :=
  [(1%nat, Hexahedron_1); (3%nat, Hexahedron_3); (5%nat, Hexahedron_5); (7%nat, Hexahedron_7); (9%nat, Hexahedron_9); (11%nat, Hexahedron_11); (13%nat, Hexahedron_13); (15%nat, Hexahedron_15)].

Definition Hexahedron_check (mr : nat * rule) : bool := check_table false true 3 mr.1 (10 ^ 15) mr.2.
Lemma Hexahedron_check_list : forallb Hexahedron_check Hexahedron_list = true.
Proof. vm_cast_no_check (eq_refl true). Qed.

Lemma Hexahedron_cases order : (order <= 15)%nat ->
  exists m r, In (m, r) Hexahedron_list /\ (order <= m)%nat /\ Hexahedron_Fill order = Ok r.
Proof.
  intros Ho.
  destruct order as [|order].
  { exists 1%nat, Hexahedron_1. split; [left; reflexivity|]. split; [apply Nat.leb_le; reflexivity|]. reflexivity. }
  destruct order as [|order].
  { exists 1%nat, Hexahedron_1. split; [left; reflexivity|]. split; [apply Nat.leb_le; reflexivity|]. reflexivity. }
  destruct order as [|order].
  { exists 3%nat, Hexahedron_3. split; [right; left; reflexivity|]. split; [apply Nat.leb_le; reflexivity|]. reflexivity. }
  destruct order as [|order].
  { exists 3%nat, Hexahedron_3. split; [right; left; reflexivity|]. split; [apply Nat.leb_le; reflexivity|]. reflexivity. }
  destruct order as [|order].
  { exists 5%nat, Hexahedron_5. split; [right; right; left; reflexivity|]. split; [apply Nat.leb_le; reflexivity|]. reflexivity. }
  destruct order as [|order].
  { exists 5%nat, Hexahedron_5. split; [right; right; left; reflexivity|]. split; [apply Nat.leb_le; reflexivity|]. reflexivity. }
  destruct order as [|order].
  { exists 7%nat, Hexahedron_7. split; [right; right; right; left; reflexivity|]. split; [apply Nat.leb_le; reflexivity|]. reflexivity. }
  destruct order as [|order].
  { exists 7%nat, Hexahedron_7. split; [right; right; right; left; reflexivity|]. split; [apply Nat.leb_le; reflexivity|]. reflexivity. }
  destruct order as [|order].
  { exists 9%nat, Hexahedron_9. split; [right; right; right; right; left; reflexivity|]. split; [apply Nat.leb_le; reflexivity|]. reflexivity. }
  destruct order as [|order].
  { exists 9%nat, Hexahedron_9. split; [right; right; right; right; left; reflexivity|]. split; [apply Nat.leb_le; reflexivity|]. reflexivity. }
  destruct order as [|order].
  { exists 11%nat, Hexahedron_11. split; [right; right; right; right; right; left; reflexivity|]. split; [apply Nat.leb_le; reflexivity|]. reflexivity. }
  destruct order as [|order].
  { exists 11%nat, Hexahedron_11. split; [right; right; right; right; right; left; reflexivity|]. split; [apply Nat.leb_le; reflexivity|]. reflexivity. }
  destruct order as [|order].
  { exists 13%nat, Hexahedron_13. split; [right; right; right; right; right; right; left; reflexivity|]. split; [apply Nat.leb_le; reflexivity|]. reflexivity. }
  destruct order as [|order].
  { exists 13%nat, Hexahedron_13. split; [right; right; right; right; right; right; left; reflexivity|]. split; [apply Nat.leb_le; reflexivity|]. reflexivity. }
  destruct order as [|order].
  { exists 15%nat, Hexahedron_15. split; [right; right; right; right; right; right; right; left; reflexivity|]. split; [apply Nat.leb_le; reflexivity|]. reflexivity. }
  destruct order as [|order].
  { exists 15%nat, Hexahedron_15. split; [right; right; right; right; right; right; right; left; reflexivity|]. split; [apply Nat.leb_le; reflexivity|]. reflexivity. }
  exfalso. lia.
Qed.
Lemma Hexahedron_throws order : (15 < order)%nat -> Hexahedron_Fill order = Throw.
Proof. intros Ho. do 16 (destruct order as [|order]; [exfalso; lia|]). reflexivity. Qed.

Lemma Hexahedron_entry m r : In (m, r) Hexahedron_list -> Hexahedron_check (m, r) = true.
Proof. exact (proj1 (forallb_forall _ _) Hexahedron_check_list (m, r)). Qed.
