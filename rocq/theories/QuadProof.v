From Coq Require Import QArith Qcanon.
From Verif Require Import Base QcTac QuadModel QuadSpec.
Local Open Scope Z_scope.

(** ** Integers in [Qc] *)
Lemma this_ZQ z : (this (ZQ z) == inject_Z z)%Q.
Proof. apply Qred_correct. Qed.
Lemma ZQ_add a b : ZQ (a + b) = (ZQ a + ZQ b)%Qc.
Proof. apply this_eq. rewrite this_plus, !this_ZQ. by rewrite inject_Z_plus. Qed.
Lemma ZQ_mul a b : ZQ (a * b) = (ZQ a * ZQ b)%Qc.
Proof. apply this_eq. rewrite this_mult, !this_ZQ. by rewrite inject_Z_mult. Qed.
Lemma ZQ_opp a : ZQ (- a) = (- ZQ a)%Qc.
Proof. apply this_eq. rewrite this_opp, !this_ZQ. by rewrite inject_Z_opp. Qed.
Lemma ZQ_sub a b : ZQ (a - b) = (ZQ a - ZQ b)%Qc.
Proof. unfold Z.sub. rewrite ZQ_add, ZQ_opp. ring. Qed.
Lemma ZQ_le a b : a <= b <-> (ZQ a <= ZQ b)%Qc.
Proof. rewrite this_le, !this_ZQ. by rewrite Zle_Qle. Qed.
Lemma ZQ_lt a b : a < b <-> (ZQ a < ZQ b)%Qc.
Proof. rewrite this_lt, !this_ZQ. by rewrite Zlt_Qlt. Qed.
Lemma ZQ_0 : ZQ 0 = 0%Qc.
Proof. done. Qed.
Lemma ZQ_1 : ZQ 1 = 1%Qc.
Proof. done. Qed.
Lemma ZQ_pos a : 0 < a -> (0 < ZQ a)%Qc.
Proof. intros H. apply ZQ_lt in H. by rewrite ZQ_0 in H. Qed.
Lemma ZQ_abs a : ZQ (Z.abs a) = qabs (ZQ a).
Proof.
  destruct (Z.le_gt_cases 0 a) as [H|H].
  - rewrite Z.abs_eq by done. apply ZQ_le in H. rewrite ZQ_0 in H. destruct (qabs_cases (ZQ a)) as [[_ ->]|[H' _]]; [done|qlra].
  - rewrite Z.abs_neq by lia. apply ZQ_lt in H. rewrite ZQ_0 in H. rewrite ZQ_opp. destruct (qabs_cases (ZQ a)) as [[H' _]|[_ ->]]; [qlra|done].
Qed.
Lemma ZQ_neq a : a <> 0 -> ZQ a <> 0%Qc.
Proof.
  intros H E. destruct (Z.lt_total a 0) as [L|[L|L]]; [|done|].
  - apply ZQ_lt in L. rewrite E, ZQ_0 in L. by apply Qclt_not_eq in L.
  - apply ZQ_pos in L. rewrite E in L. by apply Qclt_not_eq in L.
Qed.

Lemma qabs_triangle a b : (qabs (a + b) <= qabs a + qabs b)%Qc.
Proof. destruct (qabs_cases a) as [[? ->]|[? ->]], (qabs_cases b) as [[? ->]|[? ->]], (qabs_cases (a + b)) as [[? ->]|[? ->]]; qlra. Qed.
Lemma qabs_mult a b : qabs (a * b)%Qc = (qabs a * qabs b)%Qc.
Proof.
  destruct (qabs_cases a) as [[? ->]|[? ->]], (qabs_cases b) as [[? ->]|[? ->]], (qabs_cases (a * b)%Qc) as [[? ->]|[? ->]]; try ring; qnra.
Qed.
Lemma qabs_nonneg a : (0 <= qabs a)%Qc.
Proof. destruct (qabs_cases a) as [[? ->]|[? ->]]; qlra. Qed.
Lemma qabs_pos a : (0 <= a)%Qc -> qabs a = a.
Proof. intros H. destruct (qabs_cases a) as [[? ->]|[? ->]]; [done|qlra]. Qed.

Lemma qinv_pos d : (0 < d)%Qc -> (0 < / d)%Qc.
Proof.
  intros P. assert (I : (d * / d = 1)%Qc) by (apply Qcmult_inv_r; intros E; rewrite E in P; by apply Qclt_not_eq in P).
  destruct (Qclt_le_dec 0 (/ d)) as [|H]; [done|]. exfalso. generalize dependent (/ d)%Qc. intros i I H.
  assert (d * i <= 0)%Qc by qnra. rewrite I in *. by apply Qcle_not_lt in H0.
Qed.

(** ** Fixed-point arithmetic with [2^P] units per one *)
Definition PREC : Z := 110.
Definition ulp : Qc := (/ ZQ (2 ^ PREC))%Qc.
(** Product by a dyadic number, rounded down. *)
Definition mulx (u : Z) (x : dyadic) : Z := Z.shiftr (u * x.1) x.2.
Definition small (x : dyadic) : Prop := 0 <= x.2 /\ Z.abs x.1 <= 2 ^ x.2.

Lemma ulp_pos : (0 < ulp)%Qc.
Proof. unfold ulp. by vm_compute. Qed.

Lemma dyq_small x : small x -> (qabs (dyq x) <= 1)%Qc.
Proof.
  intros [Hk H]. unfold dyq. assert (P : 0 < 2 ^ x.2) by (apply Z.pow_pos_nonneg; lia).
  apply ZQ_le in H. rewrite ZQ_abs in H. apply ZQ_pos in P. set (d := ZQ (2 ^ x.2)) in *. set (m := ZQ x.1) in *.
  assert (I : (d * / d = 1)%Qc) by (apply Qcmult_inv_r; intros E; rewrite E in P; by apply Qclt_not_eq in P).
  unfold Qcdiv. rewrite qabs_mult.
  assert (Pi : (0 < / d)%Qc) by (by apply qinv_pos).
  rewrite (qabs_pos (/ d)) by (apply Qclt_le_weak, Pi). rewrite <- I. apply Qcmult_le_compat_r; [done|]. by apply Qclt_le_weak.
Qed.

(** Rounding down loses less than one unit. *)
Lemma mulx_error u x : 0 <= x.2 -> (0 <= ZQ u * dyq x - ZQ (mulx u x) <= 1)%Qc.
Proof.
  intros Hk. unfold mulx, dyq. rewrite Z.shiftr_div_pow2 by done.
  assert (P : 0 < 2 ^ x.2) by (apply Z.pow_pos_nonneg; lia). set (D := 2 ^ x.2) in *.
  pose proof (Z.mul_div_le (u * x.1) D P) as H1. pose proof (Z.mul_succ_div_gt (u * x.1) D P) as H2.
  set (f := u * x.1 / D) in *. apply ZQ_le in H1. apply ZQ_lt in H2. unfold Z.succ in H2. rewrite !ZQ_mul in H1, H2. rewrite ZQ_add, ZQ_1 in H2.
  apply ZQ_pos in P.
  assert (I : (ZQ D * / ZQ D = 1)%Qc) by (apply Qcmult_inv_r; intros E; rewrite E in P; by apply Qclt_not_eq in P).
  assert (Pi : (0 < / ZQ D)%Qc) by (by apply qinv_pos).
  unfold Qcdiv. set (i := / ZQ D) in *. set (d := ZQ D) in *. set (a := ZQ u) in *. set (b := ZQ x.1) in *. set (q := ZQ f) in *.
  assert (E : (a * (b * i) - q = (a * b - d * q) * i)%Qc).
  { trans (a * b * i - q * (d * i))%Qc; [rewrite I; ring|ring]. }
  rewrite E. split.
  - assert (0 <= a * b - d * q)%Qc by qlra. qnra.
  - assert (a * b - d * q <= d)%Qc by qlra. rewrite <- I. apply Qcmult_le_compat_r; [done|]. by apply Qclt_le_weak.
Qed.

(** [u] units approximate [U] up to [e] units. *)
Definition near (e : Qc) (U : Qc) (u : Z) : Prop := (qabs (U - ZQ u * ulp) <= e * ulp)%Qc.
Lemma near_mul e U u x : small x -> (0 <= e)%Qc -> near e U u -> near (e + 1) (U * dyq x)%Qc (mulx u x).
Proof.
  intros Hx He H. unfold near in *. pose proof (dyq_small x Hx) as Hs. pose proof (mulx_error u x (proj1 Hx)) as [M1 M2].
  pose proof ulp_pos as Hu. set (X := dyq x) in *. set (k := ZQ (mulx u x)) in *. set (a := ZQ u) in *.
  assert (E : (U * X - k * ulp = (U - a * ulp) * X + (a * X - k) * ulp)%Qc) by ring. rewrite E.
  eapply Qcle_trans; [apply qabs_triangle|]. rewrite !qabs_mult. rewrite (qabs_pos (a * X - k)) by done. rewrite (qabs_pos ulp) by (by apply Qclt_le_weak).
  pose proof (qabs_nonneg X). pose proof (qabs_nonneg (U - a * ulp)).
  generalize dependent (qabs (U - a * ulp)%Qc). generalize dependent (qabs X). generalize dependent (a * X - k)%Qc. generalize dependent ulp.
  intros s Hs0 r _ R1 R2 y Y1 Y2 t T1 T2.
  assert (t * y <= t)%Qc by qnra. assert (r * s <= s)%Qc by qnra. qlra.
Qed.
