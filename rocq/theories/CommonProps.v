(** * Properties C34, C45, C46: common utilities.  The notions are in CommonSpec.v. *)
From Verif Require Import Base QcTac CommonModel CommonSpec CommonProof CommonProof2.
Local Open Scope nat_scope.

(** C34. Every selection is enumerated exactly once, up to order; [fuel] bounds the iterations of the loop, so the loop
    also ends. *)
Theorem C34_combinations n k fuel : (0 <= n)%Z -> (BinomialCoefficient (Z.to_nat n + k - 1) k < N.of_nat fuel)%N ->
  exists l, CombinationWithRepetition fuel n k = Ok l /\
    (forall i w, l !! i = Some w -> selection n k w) /\
    (forall w, selection n k w -> exists i, (exists w', l !! i = Some w' /\ w' ≡ₚ w) /\ forall j w', l !! j = Some w' -> w' ≡ₚ w -> j = i) /\
    N.of_nat (length l) = BinomialCoefficient (Z.to_nat n + k - 1) k.
Proof. exact (combinations_ok n k fuel). Qed.
Print Assumptions C34_combinations.

Theorem C34_binomial n k : k <= n -> (BinomialCoefficient n k * factorial k * factorial (n - k) = factorial n)%N.
Proof. exact (binomial_factorial n k). Qed.
Print Assumptions C34_binomial.

Theorem C34_binomial_out n k : n < k -> BinomialCoefficient n k = 0%N.
Proof. exact (binomial_over n k). Qed.
Print Assumptions C34_binomial_out.

Example C34_example :
  CombinationWithRepetition 11 3 2 = Ok [[0; 0]; [1; 0]; [2; 0]; [1; 1]; [2; 1]; [2; 2]]%Z /\
  CombinationWithRepetition 5 0 2 = Ok [] /\ CombinationWithRepetition 5 0 0 = Ok [[]] /\
  BinomialCoefficient 4 2 = 6%N /\ selection 3 2 [1; 2]%Z.
Proof.
  split_and!; [vm_compute; reflexivity..|]. split; [done|]. repeat (constructor; [lia|]). constructor.
Qed.

(** C45. Whatever permutation the random engine yields. *)
Theorem C45_random_array shuffle n maxNumber : (forall l, shuffle l ≡ₚ l) -> n <= maxNumber ->
  exists l, RandomArrayNoRepetition shuffle n maxNumber = Ok l /\ length l = n /\ NoDup l /\ Forall (fun x => x < maxNumber) l.
Proof. exact (random_ok shuffle n maxNumber). Qed.
Print Assumptions C45_random_array.

Example C45_example : (forall l : list nat, rev l ≡ₚ l) /\ RandomArrayNoRepetition (@rev nat) 3 5 = Ok [4; 3; 2].
Proof. split; [intros l; symmetry; apply Permutation_rev|done]. Qed.

(** C46. The slope is that of a line with the least squared error, and it exists as soon as two abscissae differ. *)
Theorem C46_slope x y : length x = length y ->
  (Slope x y = Throw <-> exists c, Forall (fun u => u = c) x) /\
  forall a, Slope x y = Ok a -> exists b, forall a' b', (squared_error a b x y <= squared_error a' b' x y)%Qc.
Proof. exact (slope_ok x y). Qed.
Print Assumptions C46_slope.

Example C46_example :
  match Slope [Q2Qc 0; Q2Qc 1; Q2Qc 3] [Q2Qc 1; Q2Qc 3; Q2Qc 7] with Ok a => qeq a (Q2Qc 2) | _ => false end = true.
Proof. vm_compute. reflexivity. Qed.
