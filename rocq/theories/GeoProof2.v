(** Comparisons: the statements of C33. *)
From Verif Require Import GeoModel GeoSpec GeoProof.
From Coq Require Import Lqa.
Local Open Scope Qc_scope.

Lemma allowed_nonneg g a b tol : 0 <= allowed_difference g a b tol.
Proof.
  unfold allowed_difference. pose proof (used_tolerance_nonneg g tol) as Ht. unfold used_tolerance in Ht.
  set (t := qmax _ _) in *. case_bool_decide; [done|]. assert (H0 : 0 <= qabs a) by (clear; qcases; qlra).
  clear -Ht H0. qnra.
Qed.

Lemma compare_is g a b tol : let t := allowed_difference g a b tol in
  CompareValues g a b tol =
    if qle (qabs (b - a)) t then Coincident else if qlt (b - a) (- t) then SecondBeforeFirst else FirstBeforeSecond.
Proof.
  unfold CompareValues, allowed_difference. set (T := qmax (qabs tol) (MinTolerance g)). cbn zeta.
  case_bool_decide as H.
  - replace (qle (qabs a) T || qle (qabs b) T) with true.
    2:{ symmetry. apply orb_true_iff. destruct (qle_spec (qabs a) T), (qle_spec (qabs b) T); tauto. }
    by rewrite !Qcmult_1_r.
  - replace (qle (qabs a) T || qle (qabs b) T) with false.
    2:{ symmetry. apply orb_false_iff. destruct (qle_spec (qabs a) T), (qle_spec (qabs b) T); tauto. }
    by replace (- T * qabs a) with (- (T * qabs a)) by ring.
Qed.

Ltac fin :=
  match goal with
  | |- _ <-> _ => split; [try done|]
  | _ => idtac
  end; intros; repeat match goal with H : _ /\ _ |- _ => destruct H end; try done; try (exfalso; qlra); try (split; qlra); qlra.

Lemma compare_three_way g a b tol :
  let t := allowed_difference g a b tol in 0 <= t /\
  (CompareValues g a b tol = Coincident <-> a - t <= b <= a + t) /\
  (CompareValues g a b tol = FirstBeforeSecond <-> a + t < b) /\
  (CompareValues g a b tol = SecondBeforeFirst <-> b < a - t).
Proof.
  cbn zeta. rewrite compare_is. cbn zeta. pose proof (allowed_nonneg g a b tol) as Ht. set (t := allowed_difference _ _ _ _) in *. clearbody t.
  split; [done|].
  destruct (qle_spec (qabs (b - a)) t) as [H1|H1]; [|destruct (qlt_spec (b - a) (- t)) as [H2|H2]].
  - assert (a - t <= b <= a + t) as [A B] by (clear -H1 Ht; split; qcases; qlra).
    clear H1. split_and!; fin.
  - assert (A : b < a - t) by (clear -H2; qlra). clear H1 H2. split_and!; fin.
  - assert (A : a + t < b) by (clear -H1 H2; qcases; qlra). clear H1 H2. split_and!; fin.
Qed.

Lemma compare_strict_reflexive g a b tol :
  CompareValues g a a tol = Coincident /\
  (CompareValues g a b tol = FirstBeforeSecond -> a < b) /\ (CompareValues g a b tol = SecondBeforeFirst -> b < a).
Proof. split; [apply compare_refl|apply compare_strict]. Qed.

Lemma tests_exact g a b tol :
  let t := allowed_difference g a b tol in
  (AreValuesEqual g a b tol = true <-> a - t <= b <= a + t) /\
  (IsValueGreater g a b tol = true <-> b < a - t) /\
  (IsValueGreaterOrEqual g a b tol = true <-> b <= a + t) /\
  (IsValueLower g a b tol = true <-> a + t < b) /\
  (IsValueLowerOrEqual g a b tol = true <-> a - t <= b).
Proof.
  cbn zeta. pose proof (compare_three_way g a b tol) as (Ht & H1 & H2 & H3). cbn zeta in *. set (t := allowed_difference _ _ _ _) in *. clearbody t.
  unfold IsValueLower, IsValueLowerOrEqual, IsValueGreaterOrEqual, IsValueGreater, AreValuesEqual.
  destruct (CompareValues g a b tol) eqn:E.
  - pose proof (proj1 H2 eq_refl) as A. clear H1 H2 H3. cbn. split_and!; fin.
  - pose proof (proj1 H1 eq_refl) as [A B]. clear H1 H2 H3. cbn. split_and!; fin.
  - pose proof (proj1 H3 eq_refl) as A. clear H1 H2 H3. cbn. split_and!; fin.
Qed.

Lemma signs_exact g v tol :
  let t := qmax (qabs tol) (MinTolerance g) in
  (IsValuePositive g v tol = true <-> t < v) /\ (IsValueNegative g v tol = true <-> v < - t) /\
  (IsValueZero g v tol = true <-> - t <= v <= t).
Proof.
  cbn zeta. change (qmax (qabs tol) (MinTolerance g)) with (used_tolerance g tol).
  split_and!; [apply positive_spec|apply negative_spec|]. rewrite zero_spec. pose proof (used_tolerance_nonneg g tol) as Ht.
  set (t := used_tolerance g tol) in *. clearbody t. split; [intros H; split|intros [A B]]; qcases; qlra.
Qed.

Lemma exchange g a b tol :
  (qabs a <= qmax (qabs tol) (MinTolerance g) \/ qabs b <= qmax (qabs tol) (MinTolerance g) ->
     CompareValues g b a tol = exchanged (CompareValues g a b tol)) /\
  (CompareValues g b a tol = exchanged (CompareValues g a b tol) \/
   CompareValues g b a tol = Coincident \/ CompareValues g a b tol = Coincident).
Proof. split; [apply (compare_swap_absolute g a b tol)|apply (compare_swap_weak g a b tol)]. Qed.
