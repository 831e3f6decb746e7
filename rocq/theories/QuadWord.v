(** * The checker of QuadCheck.v on words of 63 bits, and its soundness *)
From Coq Require Import QArith Qcanon Uint63.
From Verif Require Import Base QcTac QuadModel QuadSpec QuadProof QuadCheck QuadDouble.
Local Open Scope Z_scope.

(** ** Reading literals quickly *)
Definition power5 (e : Z) : Z :=
  match e with
  | 16 => 152587890625 | 17 => 762939453125 | 18 => 3814697265625 | 19 => 19073486328125
  | 20 => 95367431640625 | 21 => 476837158203125 | _ => 5 ^ e
  end.
Lemma power5_ok e : power5 e = 5 ^ e.
Proof. unfold power5. repeat case_match; reflexivity. Qed.

(** An unverified guess, corrected and verified by [fast_double]. *)
Definition guess (a e k : Z) : Z :=
  let j := k - e + 2 in
  let p := of_Z (Z.shiftr a 2) in
  let '(q, _) := diveucl_21 (p >> of_Z (63 - j))%uint63 (p << of_Z j)%uint63 (of_Z (power5 e)) in to_Z q.
Definition fast_double (l : decimal) : dyadic :=
  let '(Dec p e) := l in
  if p =? 0 then (0, 0) else
  let a := Z.abs p in
  let k0 := 53 + e + Z.log2 (power5 e) - Z.log2 a in
  let m0 := guess a e k0 in
  let '(m0, k) := if m0 <? 2 ^ 53 then if m0 <? 2 ^ 52 then (guess a e (k0 + 1), k0 + 1) else (m0, k0) else (guess a e (k0 - 1), k0 - 1) in
  let d := power5 e in
  let r0 := m0 * d - Z.shiftl a (k - e) in
  let '(m, r) := if 2 * r0 <? - d then (m0 + 1, r0 + d) else if d <? 2 * r0 then (m0 - 1, r0 - d) else (m0, r0) in
  if (0 <=? e) && (e <=? k) && (2 ^ 52 <=? m) && (m <? 2 ^ 53) && (2 * Z.abs r <? d) && ((r <=? 0) || (2 ^ 52 <? m)) then (Z.sgn p * m, k) else double_of l.

Lemma double_of_unique p e m k : p <> 0 -> 0 <= e -> 0 <= k -> 2 ^ 52 <= m < 2 ^ 53 ->
  2 * Z.abs (m * 10 ^ e - Z.abs p * 2 ^ k) < 10 ^ e -> 2 ^ 52 * 10 ^ e <= Z.abs p * 2 ^ k ->
  double_of (Dec p e) = (Z.sgn p * m, k).
Proof.
  intros Hp He Hk Hm Hr Hl. unfold double_of. destruct (Z.eqb_spec p 0) as [|_]; [done|].
  set (d := 10 ^ e) in *. assert (Hd : 0 < d) by (apply Z.pow_pos_nonneg; lia).
  set (a := Z.abs p) in *. assert (Ha : 0 < a) by lia. cbv zeta.
  set (k0 := 53 + Z.log2 d - Z.log2 a).
  assert (Hu : a * 2 ^ k < 2 ^ 53 * d) by nia.
  pose proof (Z.log2_spec a Ha) as [A1 A2]. pose proof (Z.log2_spec d Hd) as [D1 D2].
  pose proof (Z.log2_nonneg a) as La. pose proof (Z.log2_nonneg d) as Ld.
  (* k is k0 or k0 - 1 *)
  assert (K1 : k <= k0).
  { destruct (Z.le_gt_cases k k0) as [|G]; [done|]. exfalso.
    assert (2 ^ (53 + Z.succ (Z.log2 d)) <= 2 ^ (Z.log2 a + k)) by (apply Z.pow_le_mono_r; unfold k0 in G; lia).
    rewrite !Z.pow_add_r in H by lia.
    assert (2 ^ Z.log2 a * 2 ^ k <= a * 2 ^ k) by (apply Z.mul_le_mono_nonneg_r; [apply Z.pow_nonneg; lia|done]).
    assert (2 ^ 53 * d < 2 ^ 53 * 2 ^ Z.succ (Z.log2 d)) by (apply Z.mul_lt_mono_pos_l; [done|done]). lia. }
  assert (K2 : k0 - 1 <= k).
  { destruct (Z.le_gt_cases (k0 - 1) k) as [|G]; [done|]. exfalso.
    assert (2 ^ (Z.succ (Z.log2 a) + k) <= 2 ^ (52 + Z.log2 d)) by (apply Z.pow_le_mono_r; unfold k0 in G; lia).
    rewrite !Z.pow_add_r in H by lia.
    assert (a * 2 ^ k < 2 ^ Z.succ (Z.log2 a) * 2 ^ k) by (apply Z.mul_lt_mono_pos_r; [apply Z.pow_pos_nonneg; lia|done]).
    assert (2 ^ 52 * 2 ^ Z.log2 d <= 2 ^ 52 * d) by (apply Z.mul_le_mono_nonneg_l; [done|done]). lia. }
  assert (K : (if a * 2 ^ k0 / d <? 2 ^ 53 then k0 else k0 - 1) = k).
  { destruct (Z.ltb_spec (a * 2 ^ k0 / d) (2 ^ 53)) as [L|L].
    - destruct (decide (k = k0)) as [->|N]; [done|]. exfalso. assert (E : k0 = Z.succ k) by lia. rewrite E, Z.pow_succ_r in L by done.
      assert (2 ^ 53 <= a * (2 * 2 ^ k) / d); [|lia]. apply Z.div_le_lower_bound; lia.
    - destruct (decide (k = k0 - 1)) as [->|N]; [done|]. exfalso. assert (E : k0 = k) by lia. rewrite E in L.
      assert (a * 2 ^ k / d < 2 ^ 53); [|lia]. apply Z.div_lt_upper_bound; lia. }
  rewrite K. set (x := a * 2 ^ k) in *. clearbody x. clear K K1 K2.
  assert (Q : (2 * x + d) / (2 * d) = m).
  { symmetry. apply (Z.div_unique_pos _ _ _ (2 * x + d - 2 * d * m)); lia. }
  rewrite Q. assert (M : (2 * x + d) mod (2 * d) = 2 * x + d - 2 * d * m).
  { symmetry. apply (Z.mod_unique_pos _ _ m); lia. }
  rewrite M. destruct (Z.eqb_spec (2 * x + d - 2 * d * m) 0) as [Z|Z]; [exfalso; nia|]. done.
Qed.

Lemma fast_double_ok l : fast_double l = double_of l.
Proof.
  destruct l as [p e]. unfold fast_double. destruct (Z.eqb_spec p 0) as [->|Hp]; [done|]. rewrite power5_ok.
  set (k0 := 53 + e + _ - _). destruct (if guess _ _ _ <? 2 ^ 53 then _ else _) as [m0 k].
  set (r0 := m0 * 5 ^ e - Z.shiftl (Z.abs p) (k - e)).
  destruct (if 2 * r0 <? - 5 ^ e then _ else _) as [m r] eqn:F.
  assert (R : r = m * 5 ^ e - Z.shiftl (Z.abs p) (k - e)).
  { destruct (_ <? _); [|destruct (_ <? _)]; injection F as <- <-; unfold r0; ring. }
  clear F. clearbody r0. clear k0 m0. destruct (_ && _) eqn:C; [|done]. symmetry.
  repeat (apply andb_prop in C as [C ?]).
  repeat match goal with
  | H : (_ <=? _) = true |- _ => apply Z.leb_le in H
  | H : (_ <? _) = true |- _ => apply Z.ltb_lt in H
  end.
  assert (Hs : Z.shiftl (Z.abs p) (k - e) = Z.abs p * 2 ^ (k - e)) by (apply Z.shiftl_mul_pow2; lia). rewrite Hs in R.
  assert (E10 : 10 ^ e = 2 ^ e * 5 ^ e) by (rewrite <- Z.pow_mul_l; done).
  assert (E2 : 2 ^ k = 2 ^ e * 2 ^ (k - e)) by (rewrite <- Z.pow_add_r by lia; f_equal; lia).
  assert (P2 : 0 < 2 ^ e) by (apply Z.pow_pos_nonneg; lia). assert (P5 : 0 < 5 ^ e) by (apply Z.pow_pos_nonneg; lia).
  assert (X : m * 10 ^ e - Z.abs p * 2 ^ k = 2 ^ e * r) by (rewrite R, E10, E2; ring).
  apply double_of_unique; [done|done|lia|lia| |].
  - rewrite X, Z.abs_mul, (Z.abs_eq (2 ^ e)) by lia. rewrite E10. nia.
  - assert (0 <= Z.abs p * 2 ^ k - 2 ^ 52 * 10 ^ e); [|lia].
    replace (Z.abs p * 2 ^ k - 2 ^ 52 * 10 ^ e) with (2 ^ e * ((m - 2 ^ 52) * 5 ^ e - r)) by (rewrite R, E10, E2; ring).
    apply Z.mul_nonneg_nonneg; [lia|].
    match goal with H : _ || _ = true |- _ => apply orb_prop in H as [L%Z.leb_le|L%Z.ltb_lt] end; nia.
Qed.

(** ** Pairs of words *)
Notation B := 9223372036854775808 (only parsing).
Inductive pair_word := PW (high low : int).
Definition value (u : pair_word) : Z := let '(PW h l) := u in to_Z h * B + to_Z l.
Lemma word_bound x : 0 <= to_Z x < B.
Proof. exact (to_Z_bounded x). Qed.
Lemma value_bound u : 0 <= value u < B * B.
Proof. destruct u as [h l]. cbn [value]. pose proof (word_bound h). pose proof (word_bound l). lia. Qed.

(** Adding a word. *)
Definition add_word (h l a : int) : pair_word := let s := (l + a)%uint63 in PW (if (s <? l)%uint63 then (h + 1)%uint63 else h) s.
Lemma add_word_ok h l a : to_Z h * B + to_Z l + to_Z a < B * B -> value (add_word h l a) = to_Z h * B + to_Z l + to_Z a.
Proof.
  intros H. unfold add_word. cbn [value]. pose proof (add_spec l a) as S. change wB with B in S.
  pose proof (word_bound h) as Hh. pose proof (word_bound l) as Hl. pose proof (word_bound a) as Hb.
  destruct (l + a <? l)%uint63 eqn:C.
  - apply ltb_spec in C. pose proof (add_spec h 1) as S1. change wB with B in S1. change (to_Z 1) with 1 in S1.
    destruct (Z.lt_ge_cases (to_Z l + to_Z a) B) as [L|L]; [rewrite Z.mod_small in S by lia; lia|].
    assert (E : (to_Z l + to_Z a) mod B = to_Z l + to_Z a - B) by (symmetry; apply (Z.mod_unique_pos _ _ 1); lia). rewrite E in S.
    rewrite Z.mod_small in S1 by lia. lia.
  - assert (N : ~ to_Z (l + a) < to_Z l) by (intros G; apply ltb_spec in G; congruence).
    destruct (Z.lt_ge_cases (to_Z l + to_Z a) B) as [L|L]; [rewrite Z.mod_small in S by lia; lia|].
    assert (E : (to_Z l + to_Z a) mod B = to_Z l + to_Z a - B) by (symmetry; apply (Z.mod_unique_pos _ _ 1); lia). rewrite E in S. lia.
Qed.

(** The upper half of a product, up to three units. *)
Definition mul_pair (u x : pair_word) : pair_word :=
  match u, x with
  | PW u1 u0, PW x1 x0 =>
    match mulc u1 x1, mulc u1 x0, mulc u0 x1 with
    | (h, l), (a, _), (b, _) => match add_word h l a with PW h l => add_word h l b end
    end
  end.
Lemma mul_pair_error u x : 0 <= value u * value x - value (mul_pair u x) * (B * B) <= 3 * (B * B).
Proof.
  destruct u as [u1 u0], x as [x1 x0]. unfold mul_pair.
  pose proof (mulc_spec u1 x1) as M1. pose proof (mulc_spec u1 x0) as M2. pose proof (mulc_spec u0 x1) as M3.
  destruct (mulc u1 x1) as [h l], (mulc u1 x0) as [a a0], (mulc u0 x1) as [b b0]. cbn [fst snd] in *. change wB with B in *.
  pose proof (word_bound u1). pose proof (word_bound u0). pose proof (word_bound x1). pose proof (word_bound x0).
  pose proof (word_bound a). pose proof (word_bound b). pose proof (word_bound a0). pose proof (word_bound b0). pose proof (word_bound h). pose proof (word_bound l).
  assert (P0 : 0 <= to_Z u0 * to_Z x0 < B * B) by nia.
  assert (P : value (PW u1 u0) * value (PW x1 x0) =
    (to_Z h * B + to_Z l + to_Z a + to_Z b) * (B * B) + (to_Z a0 + to_Z b0) * B + to_Z u0 * to_Z x0).
  { cbn [value]. trans ((to_Z u1 * to_Z x1) * (B * B) + (to_Z u1 * to_Z x0 + to_Z u0 * to_Z x1) * B + to_Z u0 * to_Z x0); [ring|].
    rewrite M1, M2, M3. ring. }
  pose proof (value_bound (PW u1 u0)) as V1. pose proof (value_bound (PW x1 x0)) as V2.
  assert (L : to_Z h * B + to_Z l + to_Z a + to_Z b < B * B).
  { set (U := value (PW u1 u0)) in *. set (X := value (PW x1 x0)) in *. clearbody U X.
    assert (UX : U * X < (B * B) * (B * B)).
    { destruct (decide (X = 0)) as [->|]; [rewrite Z.mul_0_r; done|]. apply Z.lt_le_trans with ((B * B) * X); [apply Z.mul_lt_mono_pos_r; lia|apply Z.mul_le_mono_nonneg_l; lia]. }
    set (S := to_Z h * B + to_Z l + to_Z a + to_Z b) in *. clearbody S. nia. }
  pose proof (add_word_ok h l a ltac:(lia)) as A1. destruct (add_word h l a) as [h' l']. cbn [value] in A1.
  pose proof (add_word_ok h' l' b ltac:(lia)) as A2. rewrite A2, P, A1. nia.
Qed.

Definition add_pair (u v : pair_word) : option pair_word :=
  match u, v with
  | PW u1 u0, PW v1 v0 => if (u1 <? 4611686018427387904)%uint63 && (v1 <? 4611686018427387904)%uint63 then Some (add_word (u1 + v1) u0 v0) else None
  end.
Lemma add_pair_ok u v w : add_pair u v = Some w -> value w = value u + value v.
Proof.
  destruct u as [u1 u0], v as [v1 v0]. unfold add_pair. destruct (_ && _) eqn:C; [|done]. apply andb_prop in C as [C1 C2]. intros [= <-].
  apply ltb_spec in C1, C2. change (to_Z 4611686018427387904) with 4611686018427387904 in *.
  pose proof (word_bound u1). pose proof (word_bound v1). pose proof (word_bound u0). pose proof (word_bound v0).
  pose proof (add_spec u1 v1) as S. change wB with B in S. rewrite Z.mod_small in S by lia.
  rewrite add_word_ok; rewrite S; cbn [value]; [ring|]. 
  assert (to_Z u1 + to_Z v1 <= B - 2) by lia. nia.
Qed.

(** Words with a sign. *)
Inductive signed := Sg (negative : bool) (u : pair_word).
Definition svalue (s : signed) : Z := match s with Sg true u => - value u | Sg false u => value u end.
Definition mul_signed (s : signed) (x : pair_word) : signed := let '(Sg b u) := s in Sg b (mul_pair u x).
Fixpoint sum_pairs (b : bool) (l : list signed) (acc : pair_word) : option pair_word :=
  match l with
  | [] => Some acc
  | Sg b' u :: l => if Bool.eqb b b' then match add_pair acc u with Some acc => sum_pairs b l acc | None => None end else sum_pairs b l acc
  end.
Lemma sum_pairs_ok l : forall p n p' n', sum_pairs false l p = Some p' -> sum_pairs true l n = Some n' ->
  value p' - value n' = value p - value n + foldr Z.add 0 (svalue <$> l).
Proof.
  induction l as [|[[] u] l IH]; intros p n p' n' Hp Hn; cbn [sum_pairs Bool.eqb] in *.
  - injection Hp as <-. injection Hn as <-. cbn. ring.
  - destruct (add_pair n u) as [n1|] eqn:E; [|done]. apply add_pair_ok in E. cbn [fmap list_fmap foldr svalue]. rewrite (IH _ _ _ _ Hp Hn), E. lia.
  - destruct (add_pair p u) as [p1|] eqn:E; [|done]. apply add_pair_ok in E. cbn [fmap list_fmap foldr svalue]. rewrite (IH _ _ _ _ Hp Hn), E. lia.
Qed.

Definition of_value (X : Z) : pair_word := PW (of_Z (Z.shiftr X 63)) (of_Z X).
Lemma of_value_ok X : 0 <= X < B * B -> value (of_value X) = X.
Proof.
  intros H. unfold of_value. cbn [value]. rewrite !of_Z_spec. change wB with B. rewrite Z.shiftr_div_pow2 by done. change (2 ^ 63) with B.
  rewrite (Z.mod_small (X / B)).
  - rewrite (Z.div_mod X B) at 3 by done. ring.
  - split; [apply Z.div_pos; lia|apply Z.div_lt_upper_bound; lia].
Qed.

(** ** Products *)
Definition word_of (x : dyadic) : option pair_word :=
  if (0 <=? x.1) && (0 <=? x.2) && (x.2 <=? 126) && (x.1 <? 2 ^ x.2) then Some (of_value (Z.shiftl x.1 (126 - x.2))) else None.
Lemma word_of_ok x p : word_of x = Some p -> (dyq x = ZQ (value p) / ZQ (B * B))%Qc /\ (0 <= dyq x <= 1)%Qc.
Proof.
  unfold word_of. destruct (_ && _) eqn:C; [|done]. intros [= <-]. apply andb_prop in C as [[[C1 C2]%andb_prop C3]%andb_prop C4].
  assert (U : check_unit x = true). { unfold check_unit. rewrite C1, C2. cbn [andb]. apply Z.leb_le. apply Z.ltb_lt in C4. lia. }
  split; [|by apply dyq_unit]. apply Z.leb_le in C1, C2, C3. apply Z.ltb_lt in C4. rewrite Z.shiftl_mul_pow2 by lia.
  assert (P1 : 0 < 2 ^ (126 - x.2)) by (apply Z.pow_pos_nonneg; lia). assert (P2 : 0 < 2 ^ x.2) by (apply Z.pow_pos_nonneg; lia).
  assert (E : B * B = 2 ^ (126 - x.2) * 2 ^ x.2) by (rewrite <- Z.pow_add_r by lia; replace (126 - x.2 + x.2) with 126 by lia; done).
  rewrite of_value_ok by (rewrite E; nia). rewrite E, !ZQ_mul. unfold dyq. field. split; apply ZQ_neq; lia.
Qed.
Lemma near_signed e U u x p : word_of x = Some p -> (0 <= e)%Qc -> near e U (svalue u) -> near (e + ZQ 3) (U * dyq x)%Qc (svalue (mul_signed u p)).
Proof.
  intros Hx He H. destruct (word_of_ok x p Hx) as [Ex [X0 X1]]. unfold near in *. pose proof ulp_pos as Hu.
  assert (M : (qabs (ZQ (svalue u) * dyq x - ZQ (svalue (mul_signed u p))) <= ZQ 3)%Qc).
  { destruct u as [b u]. pose proof (mul_pair_error u p) as [M1 M2]. rewrite Ex. set (D := B * B) in *. assert (HD : 0 < D) by done.
    assert (G : (qabs (ZQ (value u) * (ZQ (value p) / ZQ D) - ZQ (value (mul_pair u p))) <= ZQ 3)%Qc).
    { replace (ZQ (value u) * (ZQ (value p) / ZQ D) - ZQ (value (mul_pair u p)))%Qc with (ZQ (value u * value p - value (mul_pair u p) * D) * / ZQ D)%Qc
        by (rewrite ZQ_sub, !ZQ_mul; field; apply ZQ_neq; lia).
      replace (ZQ 3) with (ZQ (3 * D) * / ZQ D)%Qc by (rewrite ZQ_mul; field; apply ZQ_neq; lia).
      apply ZQ_pos in HD. apply qinv_pos in HD as HI. rewrite qabs_mult, (qabs_pos (/ ZQ D)) by (by apply Qclt_le_weak).
      rewrite <- ZQ_abs, Z.abs_eq by done. apply Qcmult_le_compat_r; [|by apply Qclt_le_weak]. by apply (proj1 (ZQ_le _ _)). }
    destruct b; cbn [svalue mul_signed]; [|exact G]. rewrite !ZQ_opp.
    replace (- ZQ (value u) * (ZQ (value p) / ZQ D) - - ZQ (value (mul_pair u p)))%Qc with (- (ZQ (value u) * (ZQ (value p) / ZQ D) - ZQ (value (mul_pair u p))))%Qc by ring.
    destruct (qabs_cases (ZQ (value u) * (ZQ (value p) / ZQ D) - ZQ (value (mul_pair u p)))) as [[? ?]|[? ?]], (qabs_cases (- (ZQ (value u) * (ZQ (value p) / ZQ D) - ZQ (value (mul_pair u p))))) as [[? ?]|[? ?]]; qlra. }
  set (X := dyq x) in *. set (k := ZQ (svalue (mul_signed u p))) in *. set (a := ZQ (svalue u)) in *.
  assert (E : (U * X - k * ulp = (U - a * ulp) * X + (a * X - k) * ulp)%Qc) by ring. rewrite E.
  eapply Qcle_trans; [apply qabs_triangle|]. rewrite !qabs_mult. rewrite (qabs_pos ulp) by (by apply Qclt_le_weak). rewrite (qabs_pos X) by done.
  pose proof (qabs_nonneg (U - a * ulp)). pose proof (qabs_nonneg (a * X - k)). clear E Ex Hx.
  generalize dependent (qabs (U - a * ulp)%Qc). generalize dependent (qabs (a * X - k)%Qc). generalize dependent X. generalize dependent ulp. generalize (ZQ 3).
  clear. intros z s Hs X X0 X1 r R1 R2 t T1 T2.
  assert (t * X <= t)%Qc by qnra. assert (r * s <= z * s)%Qc by (apply Qcmult_le_compat_r; [done|by apply Qclt_le_weak]). qlra.
Qed.

(** ** The checker *)
Lemma near_ratio e M T p q : 0 <= p <= q -> 0 < q -> near e M T -> near (e + 1) (M * (ZQ p / ZQ q))%Qc (p * T / q).
Proof.
  intros Hp Hq H. unfold near in *. pose proof ulp_pos as Hu.
  pose proof (Z.mul_div_le (p * T) q Hq) as H1. pose proof (Z.mul_succ_div_gt (p * T) q Hq) as H2. set (f := p * T / q) in *. clearbody f.
  assert (R : (0 <= ZQ p / ZQ q <= 1)%Qc).
  { apply ZQ_pos in Hq as Q. apply qinv_pos in Q as I. destruct Hp as [P1 P2]. apply ZQ_le in P1, P2. rewrite ZQ_0 in P1. unfold Qcdiv. split.
    - generalize dependent (/ ZQ q)%Qc. intros. qnra.
    - replace 1%Qc with (ZQ q * / ZQ q)%Qc by (field; apply ZQ_neq; lia). apply Qcmult_le_compat_r; [done|by apply Qclt_le_weak]. }
  assert (F : (0 <= ZQ T * (ZQ p / ZQ q) - ZQ f <= 1)%Qc).
  { replace (ZQ T * (ZQ p / ZQ q) - ZQ f)%Qc with (ZQ (p * T - q * f) * / ZQ q)%Qc by (rewrite ZQ_sub, !ZQ_mul; field; apply ZQ_neq; lia).
    apply ZQ_pos in Hq as Q. apply qinv_pos in Q as I. assert (G1 : 0 <= p * T - q * f) by lia. assert (G2 : p * T - q * f <= q) by lia.
    apply ZQ_le in G1, G2. rewrite ZQ_0 in G1. split.
    - generalize dependent (/ ZQ q)%Qc. intros. qnra.
    - replace 1%Qc with (ZQ q * / ZQ q)%Qc by (field; apply ZQ_neq; lia). apply Qcmult_le_compat_r; [done|by apply Qclt_le_weak]. }
  set (X := (ZQ p / ZQ q)%Qc) in *. set (k := ZQ f) in *. set (a := ZQ T) in *. clearbody X k a.
  replace (M * X - k * ulp)%Qc with ((M - a * ulp) * X + (a * X - k) * ulp)%Qc by ring.
  eapply Qcle_trans; [apply qabs_triangle|]. rewrite !qabs_mult. rewrite (qabs_pos ulp) by (by apply Qclt_le_weak).
  rewrite (qabs_pos X) by (by destruct R). rewrite (qabs_pos (a * X - k)) by (by destruct F). pose proof (qabs_nonneg (M - a * ulp)) as T1.
  generalize dependent (qabs (M - a * ulp)%Qc). generalize dependent (a * X - k)%Qc. generalize dependent X. generalize dependent ulp.
  clear. intros s Hs X [X0 X1] r [R1 R2] t T1 T2.
  assert (t * X <= t)%Qc by qnra. assert (r * s <= 1 * s)%Qc by (apply Qcmult_le_compat_r; [done|by apply Qclt_le_weak]). qlra.
Qed.

Section check.
(** [next a s]: the ratio of two consecutive moments, exponent [a] of the current variable, total degree [s]. *)
Context (next : nat -> nat -> Z * Z) (slack E : Z).

Definition word_moment (T : Z) (us : list signed) : bool :=
  match sum_pairs false us (PW 0 0), sum_pairs true us (PW 0 0) with
  | Some p, Some n => (Z.abs (value p - value n - T) + slack) * E <=? T - slack
  | _, _ => false
  end.
Definition step (a s : nat) (T : Z) : Z := let '(p, q) := next a s in p * T / q.
Fixpoint word_pow (rest : nat -> list signed -> Z -> nat -> bool) (xs : list pair_word) (n : nat) (us : list signed) (T : Z) (a s : nat) : bool :=
  rest n us T s && match n with O => true | S n' => word_pow rest xs n' (zip_with mul_signed us xs) (step a s T) (S a) (S s) end.
Fixpoint word_vars (vars : list (list pair_word)) (n : nat) (us : list signed) (T : Z) (s : nat) : bool :=
  match vars with
  | [] => word_moment T us
  | xs :: vars => word_pow (fun n us T s => word_vars vars n us T s) xs n us T 0 s
  end.

Fixpoint target (k : nat) (T : Z) (a s : nat) : Z := match k with O => T | S k => target k (step a s T) (S a) (S s) end.
Lemma word_pow_sound rest xs n us T a s : word_pow rest xs n us T a s = true ->
  forall k, (k <= n)%nat -> rest (n - k)%nat (Nat.iter k (fun us => zip_with mul_signed us xs) us) (target k T a s) (s + k)%nat = true.
Proof.
  revert us T a s. induction n as [|n IH]; intros us T a s H k Hk; cbn [word_pow] in H; apply andb_prop in H as [H1 H2].
  - replace k with 0%nat by lia. cbn. by rewrite Nat.add_0_r.
  - destruct k as [|k]; [cbn; by rewrite Nat.add_0_r|].
    specialize (IH _ _ _ _ H2 k ltac:(lia)). rewrite Nat.iter_succ_r. cbn [target]. replace (s + S k)%nat with (S s + k)%nat by lia. done.
Qed.

Lemma word_iter e Us us xs ps k : length xs = length Us -> (0 <= e)%Qc -> Forall2 (fun x p => word_of x = Some p) xs ps -> Forall2 (near e) Us (svalue <$> us) ->
  Forall2 (near (e + ZQ (3 * Z.of_nat k))%Qc) (times_pow Us xs k) (svalue <$> Nat.iter k (fun us => zip_with mul_signed us ps) us).
Proof.
  intros L He Hs H. induction k as [|k IH].
  - cbn [Nat.iter nat_rect]. unfold times_pow. change (3 * Z.of_nat 0) with 0. rewrite ZQ_0. replace (e + 0)%Qc with e by ring. clear Hs ps.
    revert us xs L H. induction Us as [|U Us IH]; intros us [|x xs] L H; try discriminate L; [done|]. cbn [zip_with].
    destruct us as [|u us]; [by inversion H|]. apply Forall2_cons_1 in H as [Hn H]. cbn [fmap list_fmap].
    constructor; [|apply IH; [by injection L|done]]. replace (U * dyq x ^ 0)%Qc with U by (cbn; ring). done.
  - rewrite Nat.iter_succ. set (us' := Nat.iter k _ us) in *. clearbody us'.
    replace (e + ZQ (3 * Z.of_nat (S k)))%Qc with (e + ZQ (3 * Z.of_nat k) + ZQ 3)%Qc
      by (replace (3 * Z.of_nat (S k)) with (3 * Z.of_nat k + 3) by lia; rewrite ZQ_add; ring).
    assert (He' : (0 <= e + ZQ (3 * Z.of_nat k))%Qc).
    { assert (0 <= ZQ (3 * Z.of_nat k))%Qc by (rewrite <- ZQ_0; apply (proj1 (ZQ_le _ _)); lia). qlra. }
    unfold times_pow in *. clear H. revert us' xs ps L Hs IH. induction Us as [|U Us IHU]; intros us' [|x xs] ps L Hs IH; try discriminate L.
    { cbn in *. destruct us'; [constructor|by inversion IH]. }
    cbn [zip_with] in *. destruct us' as [|u us']; [by inversion IH|]. cbn [fmap list_fmap] in IH. apply Forall2_cons_1 in IH as [Hn IH].
    destruct ps as [|p ps]; [by inversion Hs|]. apply Forall2_cons_1 in Hs as [Hx Hs]. cbn [zip_with fmap list_fmap].
    constructor; [|apply IHU; [by injection L|done|done]].
    replace (U * dyq x ^ S k)%Qc with (U * dyq x ^ k * dyq x)%Qc by (cbn; ring). by apply near_signed.
Qed.

Lemma word_moment_sound T us A M e eT : 0 < E -> (0 <= e)%Qc -> (0 <= eT)%Qc -> (e + eT <= ZQ slack)%Qc ->
  word_moment T us = true -> near e A (foldr Z.add 0 (svalue <$> us)) -> near eT M T -> (qabs (A - M) <= / ZQ E * M)%Qc.
Proof.
  intros HE He HeT Hs H HA HM. unfold word_moment in H. destruct (sum_pairs false us _) as [p|] eqn:P; [|done]. destruct (sum_pairs true us _) as [n|] eqn:N; [|done].
  rewrite (sum_pairs_ok _ _ _ _ _ P N) in H. change (value (PW 0 0)) with 0 in H. rewrite Z.sub_diag, Z.add_0_l in H. clear P N.
  set (S := foldr Z.add 0 (svalue <$> us)) in *. clearbody S. apply Z.leb_le in H. apply ZQ_le in H. rewrite ZQ_mul, ZQ_add, ZQ_abs, !ZQ_sub in H.
  apply ZQ_pos in HE as HE'. apply qinv_pos in HE' as HI. assert (I : (ZQ E * / ZQ E = 1)%Qc) by (apply Qcmult_inv_r, ZQ_neq; lia).
  pose proof ulp_pos as Hu. unfold near in *. set (i := (/ ZQ E)%Qc) in *. set (x := ZQ E) in *. set (s := ZQ S) in *. set (t := ZQ T) in *. set (l := ZQ slack) in *.
  clearbody i x s t l. generalize dependent ulp. intros z HA HM Hz.
  assert (T1 : (qabs (A - M) <= qabs (A - s * z) + qabs (s - t) * z + qabs (M - t * z))%Qc).
  { replace (A - M)%Qc with ((A - s * z) + ((s - t) * z + (- (M - t * z))))%Qc by ring. eapply Qcle_trans; [apply qabs_triangle|].
    rewrite <- Qcplus_assoc. apply Qcplus_le_compat; [apply Qcle_refl|]. eapply Qcle_trans; [apply qabs_triangle|]. apply Qcplus_le_compat.
    - rewrite qabs_mult, (qabs_pos z) by (by apply Qclt_le_weak). apply Qcle_refl.
    - destruct (qabs_cases (M - t * z)) as [[? ->]|[? ->]], (qabs_cases (- (M - t * z))) as [[? ->]|[? ->]]; qlra. }
  assert (T2 : (t * z - eT * z <= M)%Qc) by (destruct (qabs_cases (M - t * z)) as [[? E']|[? E']]; rewrite E' in HM; qlra).
  set (b := qabs (s - t)) in *. pose proof (qabs_nonneg (s - t)) as Hb. fold b in Hb. clearbody b.
  generalize dependent (qabs (A - s * z)). generalize dependent (qabs (M - t * z)). generalize dependent (qabs (A - M)). intros y c Hc w Hw Hy.
  assert (Y : (y <= (b + l) * z)%Qc).
  { assert ((e + eT) * z <= l * z)%Qc by (apply Qcmult_le_compat_r; [done|by apply Qclt_le_weak]). qlra. }
  assert (K : ((b + l) * z <= (t - l) * z * i)%Qc).
  { assert (K1 : ((b + l) * x * (z * i) <= (t - l) * (z * i))%Qc).
    { apply Qcmult_le_compat_r; [done|]. apply Qclt_le_weak. clear - Hz HI. qnra. }
    replace ((b + l) * x * (z * i))%Qc with ((b + l) * z * (x * i))%Qc in K1 by ring. rewrite I in K1. 
    replace ((b + l) * z)%Qc with ((b + l) * z * 1)%Qc by ring. replace ((t - l) * z * i)%Qc with ((t - l) * (z * i))%Qc by ring. done. }
  eapply Qcle_trans; [exact Y|]. eapply Qcle_trans; [exact K|]. rewrite (Qcmult_comm i). apply Qcmult_le_compat_r; [|by apply Qclt_le_weak].
  eapply Qcle_trans; [|exact T2]. replace (t * z - eT * z)%Qc with ((t - eT) * z)%Qc by ring. apply Qcmult_le_compat_r; [|by apply Qclt_le_weak].
  clear - He Hs. qlra.
Qed.
Context (moment : list nat -> Qc) (d : nat).
Hypothesis Hnext : forall pre a z, (length pre + S z)%nat = d -> exists p q, next a (sum_list pre + a) = (p, q) /\ 0 <= p <= q /\ 0 < q /\
  moment (pre ++ S a :: replicate z 0%nat) = (moment (pre ++ a :: replicate z 0%nat) * (ZQ p / ZQ q))%Qc.

Lemma target_near pre z k : (length pre + S z)%nat = d -> forall T a e, near e (moment (pre ++ a :: replicate z 0%nat)) T ->
  near (e + ZQ (Z.of_nat k)) (moment (pre ++ (a + k)%nat :: replicate z 0%nat)) (target k T a (sum_list pre + a)).
Proof.
  intros Hd. induction k as [|k IH]; intros T a e H.
  - cbn [target]. change (Z.of_nat 0) with 0. rewrite ZQ_0, Nat.add_0_r. by replace (e + 0)%Qc with e by ring.
  - cbn [target]. replace (e + ZQ (Z.of_nat (S k)))%Qc with (e + 1 + ZQ (Z.of_nat k))%Qc by (rewrite Nat2Z.inj_succ; unfold Z.succ; rewrite ZQ_add, ZQ_1; ring).
    replace (a + S k)%nat with (S a + k)%nat by lia. replace (S (sum_list pre + a)) with (sum_list pre + S a)%nat by lia. apply IH.
    unfold step. destruct (Hnext pre a z Hd) as (p & q & -> & Hp & Hq & ->). by apply near_ratio.
Qed.

Lemma word_vars_sound dvars vars : Forall2 (Forall2 (fun x p => word_of x = Some p)) dvars vars ->
  forall n us T pre Us e eT, word_vars vars n us T (sum_list pre) = true -> (0 <= e)%Qc ->
  Forall (fun xs => length xs = length Us) dvars -> Forall2 (near e) Us (svalue <$> us) ->
  (length pre + length dvars)%nat = d -> near eT (moment (pre ++ replicate (length dvars) 0%nat)) T ->
  forall a, length a = length dvars -> (sum_list a <= n)%nat ->
  exists us' T', word_moment T' us' = true /\ Forall2 (near (e + ZQ (3 * Z.of_nat (sum_list a)))%Qc) (times_mono Us dvars a) (svalue <$> us') /\
    near (eT + ZQ (Z.of_nat (sum_list a)))%Qc (moment (pre ++ a)) T'.
Proof.
  induction 1 as [|xs ps dvars vars Hx Hv IH]; intros n us T pre Us e eT H He Hl Hn Hd HT a La Ha.
  - destruct a; [|discriminate La]. exists us, T. split; [exact H|]. cbn [times_mono]. change (ZQ (3 * Z.of_nat (sum_list []))) with 0%Qc. change (ZQ (Z.of_nat (sum_list []))) with 0%Qc.
    replace (e + 0)%Qc with e by ring. replace (eT + 0)%Qc with eT by ring. split; [exact Hn|exact HT].
  - destruct a as [|k a]; [discriminate La|]. cbn [word_vars] in H. change (sum_list (k :: a)) with (k + sum_list a)%nat in *.
    pose proof (word_pow_sound _ _ _ _ _ _ _ H k ltac:(lia)) as H'. cbv beta in H'.
    apply Forall_cons in Hl as [Lx Hl]. pose proof (word_iter e Us us xs ps k Lx He Hx Hn) as Hn'.
    assert (He' : (0 <= e + ZQ (3 * Z.of_nat k))%Qc).
    { assert (0 <= ZQ (3 * Z.of_nat k))%Qc by (rewrite <- ZQ_0; apply (proj1 (ZQ_le _ _)); lia). qlra. }
    cbn [length replicate] in Hd, HT, La. pose proof (target_near pre (length dvars) k Hd T 0%nat eT HT) as HT'. rewrite Nat.add_0_r in HT'. cbn [Nat.add] in HT'.
    assert (Es : sum_list (pre ++ [k]) = (sum_list pre + k)%nat) by (rewrite sum_list_with_app; cbn; lia). rewrite <- Es in H'.
    replace (pre ++ k :: replicate (length dvars) 0%nat) with ((pre ++ [k]) ++ replicate (length dvars) 0%nat) in HT' by (by rewrite <- app_assoc).
    destruct (IH _ _ _ (pre ++ [k]) (times_pow Us xs k) _ (eT + ZQ (Z.of_nat k))%Qc H' He') with (a := a) as (us' & T' & C & N & NT).
    + eapply Forall_impl; [exact Hl|]. cbn. intros l ->. symmetry. by apply times_pow_length.
    + exact Hn'.
    + rewrite app_length. cbn. lia.
    + exact HT'.
    + lia.
    + lia.
    + exists us', T'. split; [exact C|]. rewrite <- app_assoc in NT. cbn [times_mono app] in *. split.
      * replace (e + ZQ (3 * Z.of_nat (k + sum_list a)))%Qc with (e + ZQ (3 * Z.of_nat k) + ZQ (3 * Z.of_nat (sum_list a)))%Qc; [done|].
        rewrite Nat2Z.inj_add, Z.mul_add_distr_l, ZQ_add. ring.
      * replace (eT + ZQ (Z.of_nat (k + sum_list a)))%Qc with (eT + ZQ (Z.of_nat k) + ZQ (Z.of_nat (sum_list a)))%Qc; [done|].
        rewrite Nat2Z.inj_add, ZQ_add. ring.
Qed.

End check.

(** ** Rules *)
Definition doubles (r : rule) : list (list dyadic * dyadic) := (fun c : list decimal * decimal => (fast_double <$> c.1, fast_double c.2)) <$> columns r.
Lemma doubles_ok r : rows r = fst <$> doubles r /\ weights r = snd <$> doubles r.
Proof.
  unfold doubles, rows, weights. induction (columns r) as [|c cs IH]; [done|]. cbn [fmap list_fmap fst snd]. destruct IH as [-> ->]. rewrite fast_double_ok.
  split; [|done]. f_equal. apply list_fmap_ext. intros i x _. symmetry. apply fast_double_ok.
Qed.

Definition start_word (w : dyadic) : option signed :=
  let X := Z.shiftr (Z.abs w.1 * 2 ^ PREC) w.2 in
  if (0 <=? w.2) && (X <? B * B) then Some (Sg (w.1 <? 0) (of_value X)) else None.
Lemma start_word_near w s : start_word w = Some s -> near 1 (dyq w) (svalue s).
Proof.
  unfold start_word. destruct (_ && _) eqn:C; [|done]. apply andb_prop in C as [C1%Z.leb_le C2%Z.ltb_lt]. intros [= <-].
  pose proof (mulx_error (2 ^ PREC) (Z.abs w.1, w.2) C1) as [M1 M2]. unfold mulx in M1, M2. cbn [fst snd] in M1, M2. rewrite (Z.mul_comm (2 ^ PREC)) in M1, M2.
  set (X := Z.shiftr (Z.abs w.1 * 2 ^ PREC) w.2) in *.
  assert (X0 : 0 <= X) by (apply Z.shiftr_nonneg; apply Z.mul_nonneg_nonneg; [lia|done]).
  assert (I : (ZQ (2 ^ PREC) * ulp = 1)%Qc) by (unfold ulp; apply Qcmult_inv_r; apply ZQ_neq; done). pose proof ulp_pos as Hu.
  assert (G : (qabs (dyq (Z.abs w.1, w.2) - ZQ X * ulp) <= 1 * ulp)%Qc).
  { replace (dyq (Z.abs w.1, w.2) - ZQ X * ulp)%Qc with ((ZQ (2 ^ PREC) * dyq (Z.abs w.1, w.2) - ZQ X) * ulp)%Qc.
    2:{ trans (dyq (Z.abs w.1, w.2) * (ZQ (2 ^ PREC) * ulp) - ZQ X * ulp)%Qc; [ring|rewrite I; ring]. }
    rewrite qabs_mult, (qabs_pos ulp) by (by apply Qclt_le_weak). rewrite qabs_pos by done. apply Qcmult_le_compat_r; [done|by apply Qclt_le_weak]. }
  unfold near. destruct (Z.ltb_spec w.1 0) as [N|N]; cbn [svalue]; rewrite of_value_ok by done.
  - replace (dyq w) with (- dyq (Z.abs w.1, w.2))%Qc.
    2:{ unfold dyq. cbn [fst snd]. rewrite Z.abs_neq by lia. rewrite ZQ_opp. unfold Qcdiv. ring. }
    rewrite ZQ_opp. set (y := dyq (Z.abs w.1, w.2)) in *. clearbody y.
    replace (- y - - ZQ X * ulp)%Qc with (- (y - ZQ X * ulp))%Qc by ring.
    destruct (qabs_cases (y - ZQ X * ulp)) as [[? E]|[? E]], (qabs_cases (- (y - ZQ X * ulp))) as [[? E']|[? E']]; rewrite E in G; rewrite E'; qlra.
  - replace (dyq w) with (dyq (Z.abs w.1, w.2)); [exact G|]. unfold dyq. cbn [fst snd]. by rewrite Z.abs_eq by lia.
Qed.

Definition word_slack (points n : nat) : Z := Z.of_nat points * (1 + 3 * Z.of_nat n) + (1 + Z.of_nat n).
Definition word_rule (next : nat -> nat -> Z * Z) (q0 : Z) (d n : nat) (E : Z) (l : list (list dyadic * dyadic)) : bool :=
  forallb (fun c : list dyadic * dyadic => bool_decide (length c.1 = d)) l &&
  match mapM (mapM word_of) (heads d (fst <$> l)), mapM start_word (snd <$> l) with
  | Some vars, Some us => word_vars next (word_slack (length l) n) E vars n us (2 ^ PREC / q0) 0
  | _, _ => false
  end.

Lemma heads_length d : forall rs, Forall (fun xs => length xs = length rs) (heads d rs) /\ length (heads d rs) = d.
Proof.
  induction d as [|d IH]; intros rs; [split; [constructor|done]|]. cbn [heads]. destruct (IH (tl <$> rs)) as [I1 I2]. rewrite fmap_length in I1.
  split; [|cbn; by rewrite I2]. constructor; [by rewrite fmap_length|done].
Qed.
Lemma word_rule_monomial next moment q0 d n E r l a : 0 < E -> 0 < q0 ->
  (forall pre a z, (length pre + S z)%nat = d -> exists p q, next a (sum_list pre + a)%nat = (p, q) /\ 0 <= p <= q /\ 0 < q /\
    moment (pre ++ S a :: replicate z 0%nat) = (moment (pre ++ a :: replicate z 0%nat) * (ZQ p / ZQ q))%Qc) ->
  moment (replicate d 0%nat) = (/ ZQ q0)%Qc ->
  doubles r = l -> word_rule next q0 d n E l = true -> length a = d -> (sum_list a <= n)%nat ->
  (qabs (approximate r (monomial_at a) - moment a) <= / ZQ E * moment a)%Qc.
Proof.
  intros HE Hq Hnext H0 Hl H La Ha. destruct (doubles_ok r) as [Er Ew]. rewrite Hl in Er, Ew. unfold word_rule in H. apply andb_prop in H as [H1 H].
  destruct (mapM (mapM word_of) _) as [vars|] eqn:Ev; [|done]. destruct (mapM start_word _) as [us|] eqn:Eu; [|done].
  rewrite <- Er in Ev. rewrite <- Ew in Eu.
  assert (Lr : length (rows r) = length l) by (by rewrite Er, fmap_length). assert (Lw : length (weights r) = length l) by (by rewrite Ew, fmap_length).
  assert (Hv : Forall2 (Forall2 (fun x p => word_of x = Some p)) (heads d (rows r)) vars).
  { apply mapM_Some_1 in Ev. eapply Forall2_impl; [exact Ev|]. intros x y Hxy. cbn in Hxy. by apply mapM_Some_1. }
  assert (Hu : Forall2 (near 1) (dyq <$> weights r) (svalue <$> us)).
  { apply mapM_Some_1 in Eu. apply Forall2_fmap. eapply Forall2_impl; [exact Eu|]. intros x y Hxy. by apply start_word_near. }
  assert (Hr : Forall (fun x => length x = d) (rows r)).
  { rewrite Er. apply Forall_fmap, Forall_forall. intros c Hc. rewrite forallb_forall in H1. apply elem_of_list_In, H1, bool_decide_eq_true_1 in Hc. done. }
  destruct (heads_length d (rows r)) as [Hh Lh].
  assert (HT : near 1 (moment (replicate d 0%nat)) (2 ^ PREC / q0)).
  { rewrite H0. replace (/ ZQ q0)%Qc with (1 * (ZQ 1 / ZQ q0))%Qc by (rewrite ZQ_1; field; apply ZQ_neq; lia).
    replace 1%Qc with (0 + 1)%Qc at 1 by ring. rewrite <- (Z.mul_1_l (2 ^ PREC)). apply near_ratio; [lia|done|]. unfold near.
    assert (I : (ZQ (2 ^ PREC) * ulp = 1)%Qc) by (unfold ulp; apply Qcmult_inv_r; apply ZQ_neq; done). rewrite I.
    replace (1 - 1)%Qc with 0%Qc by ring. replace (0 * ulp)%Qc with 0%Qc by ring. by vm_compute. }
  assert (E1 : (0 <= 1)%Qc) by (by vm_compute).
  destruct (word_vars_sound next (word_slack (length l) n) E moment d Hnext _ _ Hv n us (2 ^ PREC / q0) [] (dyq <$> weights r) 1%Qc 1%Qc) with (a := a) as (us' & T' & C & N & NT);
    [exact H|exact E1| |exact Hu|by rewrite Lh|cbn [app]; by rewrite Lh|by rewrite Lh|exact Ha|].
  { eapply Forall_impl; [exact Hh|]. cbn. intros x ->. rewrite fmap_length. congruence. }
  cbn [app] in NT. rewrite times_mono_rows in N by (done || rewrite fmap_length; congruence).
  assert (Hk3 : (0 <= 1 + ZQ (3 * Z.of_nat (sum_list a)))%Qc).
  { assert (0 <= ZQ (3 * Z.of_nat (sum_list a)))%Qc by (rewrite <- ZQ_0; apply (proj1 (ZQ_le _ _)); lia). qlra. }
  assert (Hk1 : (0 <= 1 + ZQ (Z.of_nat (sum_list a)))%Qc).
  { pose proof (ZQ_nat (sum_list a)). qlra. }
  pose proof (near_sum _ _ _ Hk3 N) as S. rewrite <- approximate_mono in S. rewrite zip_with_length, fmap_length, Lw, Lr, Nat.min_id in S.
  eapply word_moment_sound; [exact HE| |exact Hk1| |exact C|exact S|exact NT].
  - pose proof (ZQ_nat (length l)). clear - H2 Hk3. generalize dependent (ZQ (Z.of_nat (length l))). generalize dependent (1 + ZQ (3 * Z.of_nat (sum_list a)))%Qc. intros. qnra.
  - unfold word_slack. rewrite <- ZQ_1, <- !ZQ_add, <- ZQ_mul, <- ZQ_add. apply (proj1 (ZQ_le _ _)). nia.
Qed.

(** ** Cubes and simplices *)
Definition next_cube (a _ : nat) : Z * Z := (Z.of_nat (S a), Z.of_nat (S (S a))).
Definition next_simplex (d a s : nat) : Z * Z := (Z.of_nat (S a), Z.of_nat (s + d + 1)).
Lemma qprod_app l1 l2 : qprod (l1 ++ l2) = (qprod l1 * qprod l2)%Qc.
Proof. unfold qprod. induction l1 as [|x l1 IH]; [cbn; ring|]. cbn [app foldr]. rewrite IH. ring. Qed.
Lemma next_cube_ok pre a z : exists p q, next_cube a (sum_list pre + a) = (p, q) /\ 0 <= p <= q /\ 0 < q /\
  integral_cube (pre ++ S a :: replicate z 0%nat) = (integral_cube (pre ++ a :: replicate z 0%nat) * (ZQ p / ZQ q))%Qc.
Proof.
  exists (Z.of_nat (S a)), (Z.of_nat (S (S a))). split; [done|]. split; [lia|]. split; [lia|]. unfold integral_cube. rewrite !fmap_app, !qprod_app. cbn [fmap list_fmap].
  change (qprod (?x :: ?l)) with (x * qprod l)%Qc. field. split; apply ZQ_neq; lia.
Qed.
Lemma next_simplex_ok d pre a z : (length pre + S z)%nat = d -> exists p q, next_simplex d a (sum_list pre + a) = (p, q) /\ 0 <= p <= q /\ 0 < q /\
  integral_simplex (pre ++ S a :: replicate z 0%nat) = (integral_simplex (pre ++ a :: replicate z 0%nat) * (ZQ p / ZQ q))%Qc.
Proof.
  intros Hd. exists (Z.of_nat (S a)), (Z.of_nat (sum_list pre + a + d + 1)). split; [done|]. split; [lia|]. split; [lia|]. unfold integral_simplex.
  rewrite !fmap_app, !qprod_app, !app_length. cbn [fmap list_fmap length]. change (qprod (?x :: ?l)) with (x * qprod l)%Qc.
  assert (Es : forall b, sum_list (pre ++ b :: replicate z 0%nat) = (sum_list pre + b)%nat).
  { intros b. rewrite sum_list_with_app. cbn. assert (sum_list (replicate z 0%nat) = 0%nat) as ->; [|lia]. clear. induction z as [|z IH]; [done|exact IH]. }
  rewrite !Es, !replicate_length. replace (length pre + S z)%nat with d by lia.
  replace (d + (sum_list pre + S a))%nat with (S (d + (sum_list pre + a))) by lia. rewrite <- !zfact_fact.
  replace (zfact (S a)) with (Z.of_nat (S a) * zfact a) by done.
  replace (zfact (S (d + (sum_list pre + a)))) with (Z.of_nat (sum_list pre + a + d + 1) * zfact (d + (sum_list pre + a))) by (cbn [zfact]; f_equal; lia).
  rewrite !ZQ_mul. pose proof (zfact_pos (d + (sum_list pre + a))). field. split; apply ZQ_neq; lia.
Qed.
Lemma cube_zero d : integral_cube (replicate d 0%nat) = (/ ZQ 1)%Qc.
Proof. induction d as [|d IH]; [done|]. unfold integral_cube in *. cbn [replicate fmap list_fmap]. change (qprod (?x :: ?l)) with (x * qprod l)%Qc. rewrite IH. done. Qed.
Lemma simplex_zero d : integral_simplex (replicate d 0%nat) = (/ ZQ (zfact d))%Qc.
Proof.
  unfold integral_simplex. rewrite zfact_fact, replicate_length.
  assert (sum_list (replicate d 0%nat) = 0%nat) as -> by (induction d as [|d IH]; [done|exact IH]). rewrite Nat.add_0_r.
  assert (qprod ((fun k => ZQ (Z.of_nat (fact k))) <$> replicate d 0%nat) = 1%Qc) as ->.
  { induction d as [|d IH]; [done|]. cbn [replicate fmap list_fmap]. change (qprod (?x :: ?l)) with (x * qprod l)%Qc. rewrite IH. done. }
  unfold Qcdiv. ring.
Qed.

(** All the checks of one table. *)
Definition check_table (simplex positive : bool) (d n : nat) (E : Z) (r : rule) : bool :=
  let l := doubles r in
  check_determined d r && (forallb (fun c : list dyadic * dyadic => forallb check_unit c.1) l &&
  (negb simplex || forallb (fun c : list dyadic * dyadic => check_sum c.1) l) &&
  (negb positive || forallb (fun c : list dyadic * dyadic => (0 <? c.2.1) && (0 <=? c.2.2)) l) &&
  if simplex then word_rule (next_simplex d) (zfact d) d n E l else word_rule next_cube 1 d n E l).
Lemma forallb_fst {A B} (f : A -> bool) (l : list (A * B)) : forallb (fun c => f c.1) l = forallb f (fst <$> l).
Proof. induction l as [|x l IH]; [done|]. cbn. by rewrite IH. Qed.
Lemma forallb_snd {A B} (f : B -> bool) (l : list (A * B)) : forallb (fun c => f c.2) l = forallb f (snd <$> l).
Proof. induction l as [|x l IH]; [done|]. cbn. by rewrite IH. Qed.
Lemma check_table_sound simplex positive d n E r : (d <= 3)%nat -> 0 < E -> check_table simplex positive d n E r = true ->
  determined d r /\ (if simplex then inside_simplex r else inside_cube r) /\ (positive = true -> positive_weights r) /\
  forall k, (k <= n)%nat -> accurate (if simplex then integral_simplex else integral_cube) d k (/ ZQ E) r.
Proof.
  intros Hd HE H. unfold check_table in H. apply andb_prop in H as [H1 H]. set (l := doubles r) in *. assert (Hl : doubles r = l) by done. clearbody l.
  destruct (doubles_ok r) as [Er Ew]. rewrite Hl in Er, Ew. apply andb_prop in H as [[[H2 H3]%andb_prop H4]%andb_prop H5].
  split; [exact (check_determined_sound d r Hd H1)|]. rewrite (forallb_fst (forallb check_unit)), <- Er in H2. rewrite (forallb_fst check_sum), <- Er in H3.
  rewrite (forallb_snd (fun w : dyadic => (0 <? w.1) && (0 <=? w.2))), <- Ew in H4. split; [|split].
  - destruct simplex.
    + apply check_inside_simplex_sound. unfold check_inside_simplex, check_inside_cube. cbn [negb orb] in H3. by rewrite H2, H3.
    + by apply check_inside_cube_sound.
  - intros ->. by apply check_weights_sound.
  - intros k Hk. apply accurate_of_monomials. intros a La Ha. destruct simplex.
    + apply (word_rule_monomial (next_simplex d) integral_simplex (zfact d) d n E r l a); [done|apply zfact_pos| |apply simplex_zero|done|done|done|lia].
      intros pre b z Hz. by apply next_simplex_ok.
    + apply (word_rule_monomial next_cube integral_cube 1 d n E r l a); [done|done| |apply cube_zero|done|done|done|lia].
      intros pre b z _. apply next_cube_ok.
Qed.
