(** * Property C33: comparisons with a tolerance. *)
From Verif Require Import GeoModel GeoSpec GeoProof GeoProof2.
Local Open Scope Qc_scope.

(** Exactly one answer, decided by the exact difference. *)
Theorem C33_three_way g a b tol :
  let t := allowed_difference g a b tol in 0 <= t /\
  (CompareValues g a b tol = Coincident <-> a - t <= b <= a + t) /\
  (CompareValues g a b tol = FirstBeforeSecond <-> a + t < b) /\
  (CompareValues g a b tol = SecondBeforeFirst <-> b < a - t).
Proof. exact (compare_three_way g a b tol). Qed.
Print Assumptions C33_three_way.

Theorem C33_strict_and_reflexive g a b tol :
  CompareValues g a a tol = Coincident /\
  (CompareValues g a b tol = FirstBeforeSecond -> a < b) /\ (CompareValues g a b tol = SecondBeforeFirst -> b < a).
Proof. exact (compare_strict_reflexive g a b tol). Qed.
Print Assumptions C33_strict_and_reflexive.

(** The named tests agree with the comparison. *)
Theorem C33_order_tests g a b tol :
  let t := allowed_difference g a b tol in
  (AreValuesEqual g a b tol = true <-> a - t <= b <= a + t) /\
  (IsValueGreater g a b tol = true <-> b < a - t) /\
  (IsValueGreaterOrEqual g a b tol = true <-> b <= a + t) /\
  (IsValueLower g a b tol = true <-> a + t < b) /\
  (IsValueLowerOrEqual g a b tol = true <-> a - t <= b).
Proof. exact (tests_exact g a b tol). Qed.
Print Assumptions C33_order_tests.

Theorem C33_sign_tests g v tol :
  let t := qmax (qabs tol) (MinTolerance g) in
  (IsValuePositive g v tol = true <-> t < v) /\ (IsValueNegative g v tol = true <-> v < - t) /\
  (IsValueZero g v tol = true <-> - t <= v <= t).
Proof. exact (signs_exact g v tol). Qed.
Print Assumptions C33_sign_tests.

(** Exchanging the arguments exchanges the answer when one of the values is within the tolerance; otherwise the two
    answers can still never contradict each other. *)
Theorem C33_exchange_partial g a b tol :
  (qabs a <= qmax (qabs tol) (MinTolerance g) \/ qabs b <= qmax (qabs tol) (MinTolerance g) ->
     CompareValues g b a tol = exchanged (CompareValues g a b tol)) /\
  (CompareValues g b a tol = exchanged (CompareValues g a b tol) \/
   CompareValues g b a tol = Coincident \/ CompareValues g a b tol = Coincident).
Proof. exact (exchange g a b tol). Qed.
Print Assumptions C33_exchange_partial.

(** False in general: the tolerance is relative to the first argument. *)
Theorem C33_exchange_refuted :
  exists g a b tol, 0 < MinTolerance g < tol /\
    CompareValues g a b tol = FirstBeforeSecond /\ CompareValues g b a tol = Coincident.
Proof.
  exists (GeoConfig (Q2Qc (1 # 1000)) (Q2Qc (1 # 100))), (Q2Qc (181 # 20)), (Q2Qc 10), (Q2Qc (1 # 10)).
  repeat split; vm_compute; reflexivity.
Qed.
Print Assumptions C33_exchange_refuted.

Definition geo_ex : geo_config := GeoConfig (Q2Qc (1 # 1000)) (Q2Qc (1 # 100)).

Example C33_example :
  CompareValues geo_ex (Q2Qc (1 # 2)) (Q2Qc (2 # 3)) (Q2Qc (1 # 10)) = FirstBeforeSecond /\
  CompareValues geo_ex (Q2Qc 20) (Q2Qc 21) (Q2Qc (1 # 10)) = Coincident /\
  CompareValues geo_ex (Q2Qc (1 # 20)) (Q2Qc (-1 # 10)) (Q2Qc (1 # 10)) = SecondBeforeFirst /\
  (* the minimum tolerance is used when the given one is smaller *)
  CompareValues geo_ex 0 (Q2Qc (1 # 2000)) 0 = Coincident.
Proof. vm_compute. done. Qed.
