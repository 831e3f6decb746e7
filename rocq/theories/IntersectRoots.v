(** The comparisons of lengths agree with those of the code, where the lengths are rational numbers. *)
From Coq Require Import QArith Qcanon.
From Verif Require Import Base BaseProof QcTac FillModel GeoModel MapModel PointModel PointSpec PointProof IntersectModel IntersectSpec IntersectProof.
Local Open Scope Qc_scope.

Lemma bool_iff (a b : bool) : (a = true <-> b = true) -> a = b.
Proof. destruct a, b; intros [H1 H2]; try done; [symmetry; by apply H1|by apply H2]. Qed.
Lemma qlt_iff x y : qlt x y = true <-> x < y.
Proof. destruct (qlt_spec x y); split; done. Qed.
Lemma qle_iff x y : qle x y = true <-> x <= y.
Proof. destruct (qle_spec x y); split; done. Qed.
Lemma max_tolerance_nonneg g tol : 0 <= max_tolerance g tol.
Proof. unfold max_tolerance. destruct (qmax_cases (qabs tol) (MinTolerance g)) as [[L ->]|[L ->]]; destruct (qabs_cases tol) as [[M E]|[M E]]; rewrite E in *; qlra. Qed.
Lemma square_iff (x y : Qc) : 0 <= x -> 0 <= y -> x < y <-> x * x < y * y.
Proof. intros X Y. split; [by apply square_lt'|by apply square_lt]. Qed.
Lemma square_le (x y : Qc) : 0 <= x -> 0 <= y -> x <= y <-> x * x <= y * y.
Proof.
  intros X Y. pose proof (square_iff y x Y X) as H. split; intros L.
  - apply Qcnot_lt_le. intros M. apply H in M. qlra.
  - apply Qcnot_lt_le. intros M. apply H in M. qlra.
Qed.

Lemma positive_iff g x tol : IsValuePositive g x tol = true <-> max_tolerance g tol < x.
Proof.
  pose proof (max_tolerance_nonneg g tol) as M. unfold IsValuePositive. rewrite bool_decide_eq_true. unfold CompareValues.
  change (qmax (qabs tol) (MinTolerance g)) with (max_tolerance g tol).
  assert (qle (qabs 0) (max_tolerance g tol) = true) as ->. { apply qle_iff. replace (qabs 0) with 0 by (vm_compute; reflexivity). exact M. }
  cbn [orb]. replace (x - 0) with x by ring. replace (max_tolerance g tol * 1) with (max_tolerance g tol) by ring. replace (- max_tolerance g tol * 1) with (- max_tolerance g tol) by ring.
  destruct (qle_spec (qabs x) (max_tolerance g tol)) as [H|H]; [|destruct (qlt_spec x (- max_tolerance g tol)) as [H1|H1]];
    destruct (qabs_cases x) as [[L E]|[L E]]; rewrite E in H; split; intros G; try done; qlra.
Qed.

Lemma spheres_code g (d a b tol : Qc) : 0 <= d -> 0 <= a -> 0 <= b ->
  spheres_apart g (d * d) (a * a) (b * b) tol = IsValuePositive g (d - (a * Q2Qc (1 # 2) + b * Q2Qc (1 # 2))) tol.
Proof.
  intros D A B. apply bool_iff. rewrite positive_iff. unfold spheres_apart. pose proof (max_tolerance_nonneg g tol) as T.
  set (t := max_tolerance g tol) in *. clearbody t. rewrite !andb_true_iff, !qlt_iff.
  rewrite <- (square_iff t d) by done.
  set (x := d * d + t * t - Q2Qc (1 # 4) * (a * a + b * b)).
  set (p := Q2Qc 2 * (t * d) + Q2Qc (1 # 2) * (a * b)).
  assert (P : 0 <= p) by (unfold p; assert (0 <= t * d) by qnra; assert (0 <= a * b) by qnra; qlra).
  assert (Hp : x * x - Q2Qc 4 * (t * t) * (d * d) - Q2Qc (1 # 4) * (a * a * (b * b)) = x * x - p * p + Q2Qc 2 * (t * d * (a * b))) by (unfold p; qlra).
  set (y := x * x - Q2Qc 4 * (t * t) * (d * d) - Q2Qc (1 # 4) * (a * a * (b * b))) in *.
  set (w := Q2Qc 2 * (t * d * (a * b))) in *.
  assert (W : 0 <= w) by (unfold w; assert (0 <= t * d * (a * b)) by (assert (0 <= t * d) by qnra; assert (0 <= a * b) by qnra; qnra); qlra).
  assert (Ew : Q2Qc 4 * (t * t) * (d * d * (a * a * (b * b))) = w * w) by (unfold w; qlra). rewrite Ew.
  assert (G : t < d -> (t < d - (a * Q2Qc (1 # 2) + b * Q2Qc (1 # 2)) <-> p < x)).
  { intros L. assert (H : t < d - (a * Q2Qc (1 # 2) + b * Q2Qc (1 # 2)) <-> a * Q2Qc (1 # 2) + b * Q2Qc (1 # 2) < d - t) by (split; intros H; qlra).
    rewrite H, square_iff by qlra. unfold p, x. split; intros Q; qlra. }
  split.
  - intros [[[L X] Y] Z]. apply (G L). apply square_lt; [done|qlra|]. apply square_lt in Z; [|done|qlra]. qlra.
  - intros H. assert (L : t < d) by qlra. apply (G L) in H. assert (X : 0 < x) by qlra. apply square_lt' in H as Q; [|done].
    assert (Y : w < y) by qlra. split_and!; try done; [qlra|]. by apply square_lt'.
Qed.

Lemma greater_code g (x s tol : Qc) : 0 <= x -> root_greater g (x * x) s tol = IsValueGreater g x s tol.
Proof.
  intros X. unfold root_greater, IsValueGreater, CompareValues. change (qmax (qabs tol) (MinTolerance g)) with (max_tolerance g tol).
  pose proof (max_tolerance_nonneg g tol) as M. set (m := max_tolerance g tol) in *. clearbody m.
  assert (Ex : qabs x = x) by (destruct (qabs_cases x) as [[L E]|[L E]]; rewrite E; qlra). rewrite Ex.
  assert (qle (x * x) (m * m) = qle x m) as ->. { apply bool_iff. rewrite !qle_iff. symmetry. by apply square_le. }
  assert (Sq : forall (u v : Qc), 0 <= v -> (qlt u 0 || qlt (u * u) (v * v)) = qlt u v).
  { intros u v V. apply bool_iff. rewrite orb_true_iff, !qlt_iff. split.
    - intros [L|L]; [qlra|]. destruct (Qclt_le_dec u 0) as [L'|L']; [qlra|]. by apply square_lt.
    - intros L. destruct (Qclt_le_dec u 0) as [L'|L']; [by left|right]. by apply square_lt'. }
  assert (Cmp : forall r, 0 <= r -> bool_decide ((if qle (qabs (s - x)) (m * r) then Coincident else if qlt (s - x) (- m * r) then SecondBeforeFirst else FirstBeforeSecond) = SecondBeforeFirst)
                = qlt (s + m * r) x).
  { intros r R. apply bool_iff. rewrite bool_decide_eq_true, qlt_iff. assert (0 <= m * r) by qnra.
    destruct (qle_spec (qabs (s - x)) (m * r)) as [L|L]; [|destruct (qlt_spec (s - x) (- m * r)) as [L'|L']]; split; intros G; try done; try qlra;
      destruct (qabs_cases (s - x)) as [[Z E]|[Z E]]; rewrite E in L; exfalso; qlra. }
  destruct (qle x m || qle (qabs s) m).
  - rewrite (Cmp 1) by qlra. replace (m * 1) with m by ring. destruct (qlt_spec 0 1) as [_|N]; [|destruct N; vm_compute; reflexivity].
    replace (x * x * (1 * 1)) with (x * x) by ring. by apply Sq.
  - rewrite (Cmp x) by done. destruct (qlt_spec 0 (1 - m)) as [L|L].
    + replace (x * x * ((1 - m) * (1 - m))) with (x * (1 - m) * (x * (1 - m))) by ring. rewrite Sq by qnra.
      apply bool_iff. rewrite !qlt_iff. split; intros G; qlra.
    + apply bool_iff. rewrite andb_true_iff, !qlt_iff.
      assert (V : 0 <= x * (m - 1)) by (assert (0 <= m - 1) by qlra; qnra).
      assert (E : x * x * ((1 - m) * (1 - m)) = x * (m - 1) * (x * (m - 1))) by ring. rewrite E. split.
      * intros [S0 Q]. assert (Q' : x * (m - 1) < - s) by (apply square_lt; [done|qlra|qlra]). qlra.
      * intros Q. assert (Q' : x * (m - 1) < - s) by qlra. split; [qlra|]. apply square_lt' in Q'; [qlra|done].
Qed.

Lemma one_code g (x tol : Qc) : 0 <= x -> root_is_one g (x * x) tol = AreValuesEqual g x 1 tol.
Proof.
  intros X. unfold root_is_one, AreValuesEqual, CompareValues. change (qmax (qabs tol) (MinTolerance g)) with (max_tolerance g tol).
  pose proof (max_tolerance_nonneg g tol) as M. set (m := max_tolerance g tol) in *. clearbody m.
  assert (Ex : qabs x = x) by (destruct (qabs_cases x) as [[L E]|[L E]]; rewrite E; qlra). rewrite Ex.
  assert (E1 : qabs 1 = 1) by (vm_compute; reflexivity). rewrite E1.
  assert (qle (x * x) (m * m) = qle x m) as ->. { apply bool_iff. rewrite !qle_iff. symmetry. by apply square_le. }
  assert (Cmp : forall r, bool_decide ((if qle (qabs (1 - x)) (m * r) then Coincident else if qlt (1 - x) (- m * r) then SecondBeforeFirst else FirstBeforeSecond) = Coincident)
                = qle (1 - m * r) x && qle x (1 + m * r)).
  { intros r. apply bool_iff. rewrite bool_decide_eq_true, andb_true_iff, !qle_iff.
    destruct (qle_spec (qabs (1 - x)) (m * r)) as [L|L]; [|destruct (qlt_spec (1 - x) (- m * r)) as [L'|L']]; split; intros G; try done;
      destruct (qabs_cases (1 - x)) as [[Z E]|[Z E]]; rewrite E in L; try (split; qlra); destruct G as [G1 G2]; exfalso; qlra. }
  destruct (qle_spec x m) as [L|L]; cbn [orb]; [|destruct (qle_spec 1 m) as [L'|L']]; rewrite Cmp; apply bool_iff; rewrite !andb_true_iff, ?orb_true_iff, !qle_iff.
  - replace (m * 1) with m by ring. rewrite <- (square_le x (1 + m)) by qlra.
    assert (H : 1 <= m \/ (1 - m) * (1 - m) <= x * x <-> 1 - m <= x); [|tauto]. destruct (Qclt_le_dec m 1) as [K|K].
    + rewrite <- (square_le (1 - m) x) by qlra. split; [intros [?|?]; [qlra|done]|by right].
    + split; [intros _; qlra|by left].
  - replace (m * 1) with m by ring. rewrite <- (square_le x (1 + m)) by qlra. split; intros [G1 G2]; split; try done; [qlra|]. by left.
  - assert (A : 1 <= x * (1 + m) <-> 1 <= x * x * ((1 + m) * (1 + m))).
    { rewrite (square_le 1 (x * (1 + m))) by (try qlra; assert (0 <= 1 + m) by qlra; qnra).
      replace (x * (1 + m) * (x * (1 + m))) with (x * x * ((1 + m) * (1 + m))) by ring. replace (1 * 1) with 1 by ring. done. }
    assert (B : x * (1 - m) <= 1 <-> x * x * ((1 - m) * (1 - m)) <= 1).
    { rewrite (square_le (x * (1 - m)) 1) by (try qlra; assert (0 <= 1 - m) by qlra; qnra).
      replace (x * (1 - m) * (x * (1 - m))) with (x * x * ((1 - m) * (1 - m))) by ring. replace (1 * 1) with 1 by ring. done. }
    rewrite <- A, <- B. split; intros [G1 G2]; split; qlra.
Qed.

Lemma parallel_code g (d : Qc) : - (1) <= d -> d <= 1 ->
  not_parallel g (d * d) =
  IsValuePositive g (qabs (qabs d - 1)) (Tolerance1DSquared g) &&
  IsValuePositive g ((1 - d) * (1 + d)) (Tolerance1DSquared g * Tolerance1DSquared g).
Proof.
  intros D0 D1. unfold not_parallel. cbv zeta. replace (1 - d * d) with ((1 - d) * (1 + d)) by ring. f_equal. apply bool_iff.
  rewrite andb_true_iff, !qlt_iff, positive_iff. pose proof (max_tolerance_nonneg g (Tolerance1DSquared g)) as M.
  set (m := max_tolerance g (Tolerance1DSquared g)) in *. clearbody m.
  assert (E : qabs (qabs d - 1) = 1 - qabs d).
  { assert (Ad : qabs d <= 1) by (destruct (qabs_cases d) as [[L E]|[L E]]; rewrite E; qlra).
    destruct (qabs_cases (qabs d - 1)) as [[L' E']|[L' E']]; rewrite E'; qlra. }
  rewrite E. assert (F : d * d = qabs d * qabs d) by (destruct (qabs_cases d) as [[L E']|[L E']]; rewrite E'; ring). rewrite F.
  assert (A : 0 <= qabs d) by (destruct (qabs_cases d) as [[L E']|[L E']]; rewrite E'; qlra). generalize dependent (qabs d). intros a _ _ A.
  split.
  - intros [L Q]. apply square_lt in Q; qlra.
  - intros L. split; [qlra|]. apply square_lt'; qlra.
Qed.
