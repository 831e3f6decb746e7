(** Comparisons with a tolerance. *)
From Verif Require Import GeoModel.
From Coq Require Import Lqa.
Local Open Scope Qc_scope.

(** The tolerance actually used. *)
Definition used_tolerance (g : geo_config) (tol : Qc) : Qc := qmax (qabs tol) (MinTolerance g).

Lemma used_tolerance_nonneg g tol : 0 <= used_tolerance g tol.
Proof. unfold used_tolerance. qcases; qlra. Qed.

Lemma compare_cases g a b tol :
  exists t, 0 <= t /\
    (CompareValues g a b tol = Coincident /\ a - t <= b <= a + t \/
     CompareValues g a b tol = FirstBeforeSecond /\ a + t < b \/
     CompareValues g a b tol = SecondBeforeFirst /\ b < a - t).
Proof.
  unfold CompareValues. fold (used_tolerance g tol). pose proof (used_tolerance_nonneg g tol) as Ht.
  set (T := used_tolerance g tol) in *. set (r := if qle (qabs a) T || qle (qabs b) T then 1 else qabs a).
  assert (Hr : 0 <= r). { unfold r. destruct (_ || _); [easy|]. qcases; qlra. }
  exists (T * r). assert (Hp : 0 <= T * r) by (clear -Ht Hr; qnra). split; [done|]. set (t := T * r) in *.
  assert (E : - T * r = - t) by (unfold t; ring). rewrite E.
  destruct (qle_spec (qabs (b - a)) t) as [H1|H1].
  - left. split; [done|]. clear -H1 Hp. qcases; split; qlra.
  - right. destruct (qlt_spec (b - a) (- t)) as [H2|H2]; [right|left]; (split; [done|]).
    + clear -H2. qlra.
    + clear -H1 H2. qcases; qlra.
Qed.

Lemma compare_refl g a tol : CompareValues g a a tol = Coincident.
Proof.
  destruct (compare_cases g a a tol) as (t & Ht & [[H _]|[[_ H]|[_ H]]]); [done|exfalso; qlra..].
Qed.

Lemma compare_strict g a b tol :
  (CompareValues g a b tol = FirstBeforeSecond -> a < b) /\ (CompareValues g a b tol = SecondBeforeFirst -> b < a).
Proof.
  destruct (compare_cases g a b tol) as (t & Ht & [[E H]|[[E H]|[E H]]]); rewrite E; (split; [|]); try done; intros _; qlra.
Qed.

(** When one of the two values is negligible the comparison is absolute, hence symmetric. *)
Lemma compare_absolute g a b tol :
  qabs a <= used_tolerance g tol \/ qabs b <= used_tolerance g tol ->
  CompareValues g a b tol =
    if qle (qabs (b - a)) (used_tolerance g tol) then Coincident else if qlt b a then SecondBeforeFirst else FirstBeforeSecond.
Proof.
  intros Hs. unfold CompareValues. fold (used_tolerance g tol). pose proof (used_tolerance_nonneg g tol) as Ht.
  set (T := used_tolerance g tol) in *.
  replace (qle (qabs a) T || qle (qabs b) T) with true.
  2:{ symmetry. apply orb_true_iff. destruct (qle_spec (qabs a) T), (qle_spec (qabs b) T); tauto. }
  rewrite Qcmult_1_r. destruct (qle_spec (qabs (b - a)) T) as [|H]; [done|].
  replace (- T * 1) with (- T) by ring.
  destruct (qlt_spec (b - a) (- T)) as [H1|H1], (qlt_spec b a) as [H2|H2]; try done; exfalso.
  - qlra.
  - qcases; qlra.
Qed.

Definition swap (c : compare_type) : compare_type :=
  match c with FirstBeforeSecond => SecondBeforeFirst | SecondBeforeFirst => FirstBeforeSecond | Coincident => Coincident end.

Lemma compare_swap_absolute g a b tol :
  qabs a <= used_tolerance g tol \/ qabs b <= used_tolerance g tol ->
  CompareValues g b a tol = swap (CompareValues g a b tol).
Proof.
  intros Hs. rewrite (compare_absolute g a b tol Hs), (compare_absolute g b a tol) by tauto.
  assert (E : qabs (a - b) = qabs (b - a)) by (clear; qcases; qlra). rewrite E. clear E Hs.
  pose proof (used_tolerance_nonneg g tol) as Ht.
  destruct (qle_spec (qabs (b - a)) (used_tolerance g tol)) as [|H]; [done|].
  destruct (qlt_spec a b), (qlt_spec b a); try done; exfalso; [qlra|qcases; qlra].
Qed.

(** Exchanging the arguments never contradicts the first answer. *)
Lemma compare_swap_weak g a b tol :
  CompareValues g b a tol = swap (CompareValues g a b tol) \/
  CompareValues g b a tol = Coincident \/ CompareValues g a b tol = Coincident.
Proof.
  destruct (compare_cases g a b tol) as (t & Ht & [[E H]|[[E H]|[E H]]]); rewrite E; [by right; right|..];
  (destruct (compare_cases g b a tol) as (s & Hs & [[E' H']|[[E' H']|[E' H']]]); rewrite E'; [by right; left|..]); cbn; try by left.
  - exfalso. qlra.
  - exfalso. qlra.
Qed.

Lemma positive_spec g v tol : IsValuePositive g v tol = true <-> used_tolerance g tol < v.
Proof.
  unfold IsValuePositive. rewrite bool_decide_eq_true. rewrite compare_absolute.
  2:{ left. pose proof (used_tolerance_nonneg g tol). qcases; qlra. }
  pose proof (used_tolerance_nonneg g tol) as Ht. set (T := used_tolerance g tol) in *.
  destruct (qle_spec (qabs (v - 0)) T) as [H|H]; [|destruct (qlt_spec v 0) as [H2|H2]].
  - split; [done|]. intros. exfalso. qcases; qlra.
  - split; [done|]. intros. exfalso. qlra.
  - split; [|done]. intros _. qcases; qlra.
Qed.

Lemma negative_spec g v tol : IsValueNegative g v tol = true <-> v < - used_tolerance g tol.
Proof.
  unfold IsValueNegative. rewrite bool_decide_eq_true. rewrite compare_absolute.
  2:{ left. pose proof (used_tolerance_nonneg g tol). qcases; qlra. }
  pose proof (used_tolerance_nonneg g tol) as Ht. set (T := used_tolerance g tol) in *.
  destruct (qle_spec (qabs (v - 0)) T) as [H|H]; [|destruct (qlt_spec v 0) as [H2|H2]].
  - split; [done|]. intros. exfalso. qcases; qlra.
  - split; [|done]. intros _. qcases; qlra.
  - split; [done|]. intros. exfalso. qlra.
Qed.

Lemma zero_spec g v tol : IsValueZero g v tol = true <-> qabs v <= used_tolerance g tol.
Proof.
  unfold IsValueZero. rewrite bool_decide_eq_true. rewrite compare_absolute.
  2:{ left. pose proof (used_tolerance_nonneg g tol). qcases; qlra. }
  replace (v - 0) with v by ring. destruct (qle_spec (qabs v) (used_tolerance g tol)) as [H|H]; [done|].
  split; [by destruct (qlt v 0)|done].
Qed.

