(** * The doubles denoted by decimal literals, and boolean checks of points and weights *)
From Coq Require Import QArith Qcanon.
From Verif Require Import Base QcTac QuadModel QuadSpec QuadProof QuadCheck.
Local Open Scope Z_scope.

Lemma round_half a d q : 0 < d -> q = (2 * a + d) / (2 * d) ->
  let q' := if ((2 * a + d) mod (2 * d) =? 0) && Z.odd q then q - 1 else q in
  2 * Z.abs (q' * d - a) <= d /\ (2 * Z.abs (q' * d - a) = d -> Z.Even q').
Proof.
  intros Hd Hq q'. pose proof (Z_div_mod_eq_full (2 * a + d) (2 * d)) as D. pose proof (Z.mod_pos_bound (2 * a + d) (2 * d) ltac:(lia)) as B.
  rewrite <- Hq in D. set (r := (2 * a + d) mod (2 * d)) in *. unfold q'. clear q'. destruct (Z.eqb_spec r 0) as [->|R]; cbn [andb].
  - destruct (Z.odd q) eqn:O.
    + split; [|intros _]; [nia|]. apply Z.odd_spec in O as [x ->]. exists x. lia.
    + split; [nia|]. intros _. rewrite <- Z.negb_even in O. apply negb_false_iff in O. by apply Z.even_spec.
  - split; [nia|]. intros H. exfalso. nia.
Qed.

Lemma double_of_nearest p e : p <> 0 -> 0 <= e -> 0 <= (double_of (Dec p e)).2 ->
  let '(m, k) := double_of (Dec p e) in
  2 ^ 52 <= Z.abs m <= 2 ^ 53 /\ 2 * Z.abs (m * 10 ^ e - p * 2 ^ k) <= 10 ^ e /\ (2 * Z.abs (m * 10 ^ e - p * 2 ^ k) = 10 ^ e -> Z.Even m).
Proof.
  intros Hp He. unfold double_of. destruct (Z.eqb_spec p 0) as [|_]; [done|]. cbv zeta.
  set (d := 10 ^ e). assert (Hd : 0 < d) by (apply Z.pow_pos_nonneg; lia).
  set (a := Z.abs p). assert (Ha : 0 < a) by lia.
  set (k0 := 53 + Z.log2 d - Z.log2 a). set (k := if a * 2 ^ k0 / d <? 2 ^ 53 then k0 else k0 - 1).
  set (q := (2 * (a * 2 ^ k) + d) / (2 * d)). set (q' := if _ && _ then q - 1 else q). cbn [snd]. intros Hk.
  assert (Hk0 : 0 <= k0) by (unfold k in Hk; destruct (_ <? _); lia).
  pose proof (Z.log2_spec a Ha) as [A1 A2]. pose proof (Z.log2_spec d Hd) as [D1 D2].
  pose proof (Z.log2_nonneg a) as La. pose proof (Z.log2_nonneg d) as Ld.
  assert (L : 2 ^ 52 * d <= a * 2 ^ k0).
  { assert (2 ^ Z.log2 a * 2 ^ k0 = 2 ^ 52 * 2 ^ Z.succ (Z.log2 d)).
    { rewrite <- !Z.pow_add_r by lia. f_equal. unfold k0. lia. }
    assert (2 ^ Z.log2 a * 2 ^ k0 <= a * 2 ^ k0) by (apply Z.mul_le_mono_nonneg_r; [apply Z.pow_nonneg; lia|done]). lia. }
  assert (U : a * 2 ^ k0 < 2 ^ 54 * d).
  { assert (2 ^ Z.succ (Z.log2 a) * 2 ^ k0 = 2 ^ 54 * 2 ^ Z.log2 d).
    { rewrite <- !Z.pow_add_r by lia. f_equal. unfold k0. lia. }
    assert (a * 2 ^ k0 < 2 ^ Z.succ (Z.log2 a) * 2 ^ k0) by (apply Z.mul_lt_mono_pos_r; [apply Z.pow_pos_nonneg; lia|done]). lia. }
  assert (R : 2 ^ 52 * d <= a * 2 ^ k < 2 ^ 53 * d).
  { unfold k in *. destruct (Z.ltb_spec (a * 2 ^ k0 / d) (2 ^ 53)) as [H|H].
    - split; [done|]. pose proof (Z.mul_succ_div_gt (a * 2 ^ k0) d Hd). nia.
    - assert (2 ^ 53 * d <= a * 2 ^ k0) by (pose proof (Z.mul_div_le (a * 2 ^ k0) d Hd); nia).
      assert (E2 : 2 ^ k0 = 2 * 2 ^ (k0 - 1)) by (rewrite <- Z.pow_succ_r by lia; f_equal; lia). rewrite E2 in H0, U. lia. }
  pose proof (round_half (a * 2 ^ k) d q Hd eq_refl) as [N1 N2]. fold q' in N1, N2.
  assert (Q : 2 ^ 52 <= q' <= 2 ^ 53).
  { set (x := a * 2 ^ k) in *. clearbody x q'. clear - R N1 Hd. split.
    - destruct (Z.le_gt_cases (2 ^ 52) q'); [done|]. exfalso. assert (q' * d <= (2 ^ 52 - 1) * d) by nia. lia.
    - destruct (Z.le_gt_cases q' (2 ^ 53)); [done|]. exfalso. assert ((2 ^ 53 + 1) * d <= q' * d) by nia. lia. }
  assert (S : Z.sgn p * q' * d - p * 2 ^ k = Z.sgn p * (q' * d - a * 2 ^ k)).
  { assert (Hs : p = a * Z.sgn p) by (symmetry; apply Z.abs_sgn). set (s := Z.sgn p) in *. rewrite Hs. ring. }
  rewrite S, !Z.abs_mul. assert (Hs : Z.abs (Z.sgn p) = 1) by (destruct p; done). rewrite Hs, !Z.mul_1_l. split; [lia|]. split; [done|].
  intros T. apply N2 in T as [y Hy]. exists (Z.sgn p * y). rewrite Hy. ring.
Qed.

(** ** Boolean checks *)
Definition check_determined (d : nat) (r : rule) : bool :=
  (zeroed r || bool_decide (d = 3%nat)) && forallb (fun c : list decimal * decimal => bool_decide (length c.1 = d)) (columns r).
Definition check_weights (r : rule) : bool := forallb (fun w : dyadic => (0 <? w.1) && (0 <=? w.2)) (weights r).
Definition check_unit (x : dyadic) : bool := (0 <=? x.1) && (0 <=? x.2) && (x.1 <=? 2 ^ x.2).
Definition check_inside_cube (r : rule) : bool := forallb (forallb check_unit) (rows r).
Definition check_sum (x : list dyadic) : bool :=
  let K := foldr Z.max 0 (snd <$> x) in foldr Z.add 0 ((fun t : dyadic => t.1 * 2 ^ (K - t.2)) <$> x) <=? 2 ^ K.
Definition check_inside_simplex (r : rule) : bool := check_inside_cube r && forallb check_sum (rows r).

Lemma check_determined_sound d r : (d <= 3)%nat -> check_determined d r = true -> determined d r.
Proof.
  intros Hd [H1 H2]%andb_prop c Hc. rewrite forallb_forall in H2. apply elem_of_list_In, H2, bool_decide_eq_true_1 in Hc as L. split; [done|].
  intros i Hi. unfold coordinate. destruct (c.1 !! i) as [l|] eqn:E.
  - exists (double_of l). split; [done|]. intros. apply lookup_lt_Some in E. lia.
  - apply lookup_ge_None in E. apply orb_prop in H1 as [-> | H1]; [exists (0, 0); done|]. apply bool_decide_eq_true_1 in H1. lia.
Qed.
Lemma dyq_pos x : 0 < x.1 -> 0 <= x.2 -> (0 < dyq x)%Qc.
Proof.
  intros H1 H2. unfold dyq, Qcdiv. assert (P : 0 < 2 ^ x.2) by (apply Z.pow_pos_nonneg; lia). apply ZQ_pos in H1, P. apply qinv_pos in P.
  generalize dependent (/ ZQ (2 ^ x.2))%Qc. generalize dependent (ZQ x.1). intros. qnra.
Qed.
Lemma check_weights_sound r : check_weights r = true -> positive_weights r.
Proof.
  unfold check_weights, positive_weights, nodes, weights. intros H x w Hx. rewrite forallb_forall in H. apply elem_of_list_fmap in Hx as (c & [= -> ->] & Hc).
  specialize (H (double_of c.2)). destruct (andb_prop _ _ (H ltac:(apply elem_of_list_In, elem_of_list_fmap; exists c; done))) as [H1%Z.ltb_lt H2%Z.leb_le].
  by apply dyq_pos.
Qed.
Lemma dyq_unit x : check_unit x = true -> (0 <= dyq x <= 1)%Qc.
Proof.
  intros [[H1%Z.leb_le H2%Z.leb_le]%andb_prop H3%Z.leb_le]%andb_prop. unfold dyq, Qcdiv.
  assert (P : 0 < 2 ^ x.2) by (apply Z.pow_pos_nonneg; lia). apply ZQ_le in H1, H3. apply ZQ_pos in P.
  assert (I : (ZQ (2 ^ x.2) * / ZQ (2 ^ x.2) = 1)%Qc) by (apply Qcmult_inv_r; intros Z; rewrite Z in P; by apply Qclt_not_eq in P).
  apply qinv_pos in P as P'. rewrite ZQ_0 in H1. generalize dependent (/ ZQ (2 ^ x.2))%Qc. generalize dependent (ZQ (2 ^ x.2)). generalize dependent (ZQ x.1).
  clear. intros m H1 d H3 P i I Pi. split; [qnra|]. rewrite <- I. apply Qcmult_le_compat_r; [done|by apply Qclt_le_weak].
Qed.
Lemma rows_nodes r x w : (x, w) ∈ nodes r -> exists row, row ∈ rows r /\ x = dyq <$> row.
Proof.
  unfold nodes, rows. intros (c & [= -> ->] & Hc)%elem_of_list_fmap. exists (double_of <$> c.1). split.
  - apply elem_of_list_fmap. by exists c.
  - by rewrite <- list_fmap_compose.
Qed.
Lemma check_inside_cube_sound r : check_inside_cube r = true -> inside_cube r.
Proof.
  unfold check_inside_cube, inside_cube. intros H x w Hx. apply rows_nodes in Hx as (row & Hr & ->). rewrite forallb_forall in H.
  apply elem_of_list_In, H in Hr. rewrite forallb_forall in Hr. apply Forall_fmap, Forall_forall. intros t Ht. cbn. apply dyq_unit, Hr. by apply elem_of_list_In.
Qed.
Lemma check_sum_sound x : Forall (fun t : dyadic => 0 <= t.2) x -> check_sum x = true -> (qsum (dyq <$> x) <= 1)%Qc.
Proof.
  unfold check_sum. set (K := foldr Z.max 0 (snd <$> x)). intros Hx H%Z.leb_le.
  assert (HK : Forall (fun t : dyadic => 0 <= t.2 <= K) x).
  { subst K. clear H. induction x as [|t x IH]; [constructor|]. apply Forall_cons in Hx as [Ht Hx]. constructor; [cbn; lia|].
    eapply Forall_impl; [by apply IH|]. cbn. intros. lia. }
  assert (K0 : 0 <= K) by (subst K; clear; induction x as [|t x IH]; cbn in *; lia). clearbody K.
  assert (P : 0 < 2 ^ K) by (apply Z.pow_pos_nonneg; lia). apply ZQ_pos in P as PQ.
  assert (I : (ZQ (2 ^ K) * / ZQ (2 ^ K) = 1)%Qc) by (apply Qcmult_inv_r; intros Z; rewrite Z in PQ; by apply Qclt_not_eq in PQ).
  assert (E : (qsum (dyq <$> x) = ZQ (foldr Z.add 0%Z ((fun t : dyadic => t.1 * 2 ^ (K - t.2))%Z <$> x)) * / ZQ (2 ^ K))%Qc).
  { clear H Hx. induction x as [|t x IH]; [cbn; rewrite ZQ_0; ring|]. apply Forall_cons in HK as [[T1 T2] HK]. cbn [fmap list_fmap foldr].
    rewrite qsum_cons, (IH HK), ZQ_add, ZQ_mul. replace (2 ^ K) with (2 ^ (K - t.2) * 2 ^ t.2) in I |- * by (rewrite <- Z.pow_add_r by lia; f_equal; lia).
    unfold dyq, Qcdiv. assert (A : 0 < 2 ^ (K - t.2)) by (apply Z.pow_pos_nonneg; lia). assert (B : 0 < 2 ^ t.2) by (apply Z.pow_pos_nonneg; lia).
    rewrite ZQ_mul. field. split; apply ZQ_neq; lia. }
  rewrite E. apply ZQ_le in H. rewrite <- I. apply Qcmult_le_compat_r; [done|]. by apply Qclt_le_weak, qinv_pos.
Qed.
Lemma check_inside_simplex_sound r : check_inside_simplex r = true -> inside_simplex r.
Proof.
  unfold check_inside_simplex, inside_simplex. intros [H1 H2]%andb_prop x w Hx.
  pose proof (check_inside_cube_sound r H1 x w Hx) as Hc. split.
  - eapply Forall_impl; [exact Hc|]. cbn. by intros t [? _].
  - apply rows_nodes in Hx as (row & Hr & ->). unfold check_inside_cube in H1. rewrite forallb_forall in H1, H2. apply elem_of_list_In in Hr.
    specialize (H1 _ Hr). specialize (H2 _ Hr). apply check_sum_sound; [|done]. rewrite forallb_forall in H1.
    apply Forall_forall. intros t Ht%elem_of_list_In%H1. unfold check_unit in Ht. apply andb_prop in Ht as [[_ Ht]%andb_prop _]. by apply Z.leb_le.
Qed.
