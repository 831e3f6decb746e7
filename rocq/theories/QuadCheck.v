(** * A checker for the accuracy of quadrature rules, and its soundness *)
From Coq Require Import QArith Qcanon.
From Verif Require Import Base QcTac QuadModel QuadSpec QuadProof.
Local Open Scope Z_scope.

Lemma ZQ_nat k : (0 <= ZQ (Z.of_nat k))%Qc.
Proof. rewrite <- ZQ_0. apply (proj1 (ZQ_le _ _)). lia. Qed.

Section check.
Context (moment_nd : list nat -> Z * Z) (slack : Z) (E : Z).

(** The moment [a] computed from the products [us] is within [1 / E] of the exact one, rounding included. *)
Definition check_moment (a : list nat) (us : list Z) : bool :=
  let '(num, den) := moment_nd a in
  (Z.abs (foldr Z.add 0 us * den - num * 2 ^ PREC) + slack * den) * E <=? num * 2 ^ PREC.
Fixpoint check_pow (rest : nat -> list Z -> nat -> bool) (xs : list dyadic) (n : nat) (us : list Z) (a : nat) : bool :=
  rest n us a && match n with O => true | S n' => check_pow rest xs n' (zip_with mulx us xs) (S a) end.
Fixpoint check_vars (vars : list (list dyadic)) (n : nat) (us : list Z) (pre : list nat) : bool :=
  match vars with
  | [] => check_moment (rev pre) us
  | xs :: vars => check_pow (fun n us a => check_vars vars n us (a :: pre)) xs n us 0
  end.

Lemma check_pow_sound rest xs n us a : check_pow rest xs n us a = true ->
  forall k, (k <= n)%nat -> rest (n - k)%nat (Nat.iter k (fun us => zip_with mulx us xs) us) (a + k)%nat = true.
Proof.
  revert us a. induction n as [|n IH]; intros us a H k Hk; cbn [check_pow] in H; apply andb_prop in H as [H1 H2].
  - replace k with 0%nat by lia. cbn. by rewrite Nat.add_0_r.
  - destruct k as [|k]; [cbn; by rewrite Nat.add_0_r|].
    specialize (IH _ _ H2 k ltac:(lia)). rewrite Nat.iter_succ_r. replace (a + S k)%nat with (S a + k)%nat by lia. done.
Qed.

Definition times_pow (Us : list Qc) (xs : list dyadic) (k : nat) : list Qc := zip_with (fun U x => U * dyq x ^ k)%Qc Us xs.
Lemma near_iter e Us us xs k : length xs = length Us -> (0 <= e)%Qc -> Forall small xs -> Forall2 (near e) Us us ->
  Forall2 (near (e + ZQ (Z.of_nat k))%Qc) (times_pow Us xs k) (Nat.iter k (fun us => zip_with mulx us xs) us).
Proof.
  intros L He Hs H. induction k as [|k IH].
  - cbn [Nat.iter nat_rect]. unfold times_pow. change (Z.of_nat 0) with 0. rewrite ZQ_0. replace (e + 0)%Qc with e by ring.
    revert xs L Hs. induction H as [|U u Us us Hn H IH]; intros [|x xs] L Hs; try discriminate L; [constructor|]. cbn.
    constructor; [|apply IH; [by injection L|by inversion Hs]]. replace (U * 1)%Qc with U by ring. done.
  - rewrite Nat.iter_succ. set (us' := Nat.iter k _ us) in *. clearbody us'.
    replace (e + ZQ (Z.of_nat (S k)))%Qc with (e + ZQ (Z.of_nat k) + 1)%Qc by (rewrite Nat2Z.inj_succ; unfold Z.succ; rewrite ZQ_add, ZQ_1; ring).
    assert (He' : (0 <= e + ZQ (Z.of_nat k))%Qc).
    { pose proof (ZQ_nat k). qlra. }
    unfold times_pow in *. clear H. revert us' xs L Hs IH. induction Us as [|U Us IHU]; intros us' [|x xs] L Hs IH; try discriminate L.
    { cbn in *. inversion IH. constructor. }
    cbn [zip_with] in *. destruct us' as [|u us']; [by inversion IH|]. apply Forall2_cons_1 in IH as [Hn IH]. cbn [zip_with]. apply Forall_cons in Hs as [Hx Hs].
    constructor; [|apply IHU; [by injection L|done|done]].
    replace (U * dyq x ^ S k)%Qc with (U * dyq x ^ k * dyq x)%Qc by (cbn; ring). by apply near_mul.
Qed.
Lemma times_pow_length Us xs k : length xs = length Us -> length (times_pow Us xs k) = length Us.
Proof. intros L. unfold times_pow. rewrite zip_with_length. lia. Qed.

Fixpoint times_mono (Us : list Qc) (vars : list (list dyadic)) (a : list nat) : list Qc :=
  match vars, a with
  | xs :: vars, k :: a => times_mono (times_pow Us xs k) vars a
  | _, _ => Us
  end.
Lemma check_vars_sound vars : forall n us pre Us e, check_vars vars n us pre = true -> (0 <= e)%Qc ->
  Forall (fun xs => length xs = length Us /\ Forall small xs) vars -> Forall2 (near e) Us us ->
  forall a, length a = length vars -> (sum_list a <= n)%nat ->
  exists us', check_moment (rev pre ++ a) us' = true /\ Forall2 (near (e + ZQ (Z.of_nat (sum_list a)))%Qc) (times_mono Us vars a) us'.
Proof.
  induction vars as [|xs vars IH]; intros n us pre Us e H He Hv Hn a La Ha.
  - destruct a; [|discriminate La]. exists us. rewrite app_nil_r. cbn. change (Z.of_nat 0) with 0. rewrite ZQ_0. replace (e + 0)%Qc with e by ring. done.
  - destruct a as [|k a]; [discriminate La|]. cbn [check_vars] in H. cbn in Ha.
    pose proof (check_pow_sound _ _ _ _ _ H k ltac:(lia)) as H'. cbv beta in H'. cbn [Nat.add] in H'.
    apply Forall_cons in Hv as [[Lx Sx] Hv]. pose proof (near_iter e Us us xs k Lx He Sx Hn) as Hn'.
    assert (He' : (0 <= e + ZQ (Z.of_nat k))%Qc).
    { pose proof (ZQ_nat k). qlra. }
    destruct (IH _ _ _ (times_pow Us xs k) _ H' He') with (a := a) as (us' & C & N).
    + rewrite times_pow_length by done. exact Hv.
    + exact Hn'.
    + by injection La.
    + lia.
    + exists us'. split.
      * cbn [rev] in C. rewrite <- app_assoc in C. exact C.
      * cbn [times_mono]. change (sum_list (k :: a)) with (k + sum_list a)%nat. replace (e + ZQ (Z.of_nat (k + sum_list a)))%Qc with (e + ZQ (Z.of_nat k) + ZQ (Z.of_nat (sum_list a)))%Qc; [done|].
        rewrite Nat2Z.inj_add, ZQ_add. ring.
Qed.

Lemma near_sum e Us us : (0 <= e)%Qc -> Forall2 (near e) Us us -> near (ZQ (Z.of_nat (length Us)) * e)%Qc (qsum Us) (foldr Z.add 0 us).
Proof.
  intros He H. induction H as [|U u Us us H1 H IH].
  - unfold near. cbn [qsum foldr length]. change (Z.of_nat 0) with 0. rewrite ZQ_0. replace (0 - 0 * ulp)%Qc with 0%Qc by ring.
    replace (0 * e * ulp)%Qc with 0%Qc by ring. vm_compute. done.
  - cbn [foldr length]. unfold near in *. rewrite Nat2Z.inj_succ. unfold Z.succ. rewrite !ZQ_add, ZQ_1. change (qsum (U :: Us)) with (U + qsum Us)%Qc.
    replace (U + qsum Us - (ZQ u + ZQ (foldr Z.add 0%Z us)) * ulp)%Qc with ((U - ZQ u * ulp) + (qsum Us - ZQ (foldr Z.add 0%Z us) * ulp))%Qc by ring.
    eapply Qcle_trans; [apply qabs_triangle|].
    replace ((ZQ (Z.of_nat (length Us)) + 1) * e * ulp)%Qc with (e * ulp + ZQ (Z.of_nat (length Us)) * e * ulp)%Qc by ring.
    by apply Qcplus_le_compat.
Qed.

(** What a successful check of one moment means. *)
Lemma check_moment_sound a us A e num den : moment_nd a = (num, den) -> 0 < den -> 0 < E -> (0 <= e <= ZQ slack)%Qc ->
  check_moment a us = true -> near e A (foldr Z.add 0 us) -> (qabs (A - ZQ num / ZQ den) <= / ZQ E * (ZQ num / ZQ den))%Qc.
Proof.
  intros Hm Hd HE [He0 He] H Hn. unfold check_moment in H. rewrite Hm in H. apply Z.leb_le in H. set (S := foldr Z.add 0 us) in *.
  apply ZQ_le in H. rewrite !ZQ_mul, ZQ_add, ZQ_abs, ZQ_sub, !ZQ_mul in H. unfold near in Hn.
  assert (P : 0 < 2 ^ PREC) by done. apply ZQ_pos in P. fold ulp in *. apply ZQ_pos in Hd. apply ZQ_pos in HE. unfold ulp in *.
  set (p := ZQ (2 ^ PREC)) in *. set (d := ZQ den) in *. set (n := ZQ num) in *. set (x := ZQ E) in *. set (s := ZQ S) in *. set (l := ZQ slack) in *.
  clearbody p d n x s l.
  assert (Ip : (p * / p = 1)%Qc) by (apply Qcmult_inv_r; intros Z; rewrite Z in P; by apply Qclt_not_eq in P).
  assert (Id : (d * / d = 1)%Qc) by (apply Qcmult_inv_r; intros Z; rewrite Z in Hd; by apply Qclt_not_eq in Hd).
  assert (Ix : (x * / x = 1)%Qc) by (apply Qcmult_inv_r; intros Z; rewrite Z in HE; by apply Qclt_not_eq in HE).
  pose proof (qinv_pos _ P) as P'. pose proof (qinv_pos _ Hd) as D'. pose proof (qinv_pos _ HE) as X'.
  unfold Qcdiv. set (ip := (/ p)%Qc) in *. set (id := (/ d)%Qc) in *. set (ix := (/ x)%Qc) in *. clearbody ip id ix.
  assert (T : (qabs (A - n * id) <= qabs (A - s * ip) + qabs (s * ip - n * id))%Qc).
  { replace (A - n * id)%Qc with ((A - s * ip) + (s * ip - n * id))%Qc by ring. apply qabs_triangle. }
  assert (Q : (qabs (s * ip - n * id) = qabs (s * d - n * p) * (ip * id))%Qc).
  { rewrite <- (qabs_pos (ip * id)) by (apply Qclt_le_weak; qnra). rewrite <- qabs_mult. f_equal.
    trans (s * ip * (d * id) - n * id * (p * ip))%Qc; [rewrite Ip, Id; ring|ring]. }
  rewrite Q in T. clear Q. set (B := qabs (s * d - n * p)) in *. pose proof (qabs_nonneg (s * d - n * p)) as B0. fold B in B0. clearbody B.
  eapply Qcle_trans; [exact T|]. eapply Qcle_trans; [apply Qcplus_le_compat; [exact Hn|apply Qcle_refl]|].
  (* e ip + B ip id <= ix n id, from (B + l d) x <= n p *)
  assert (C1 : (e * ip <= l * ip)%Qc) by (apply Qcmult_le_compat_r; [done|by apply Qclt_le_weak]).
  assert (C2 : ((B + l * d) * x * (ip * id * ix) <= n * p * (ip * id * ix))%Qc).
  { apply Qcmult_le_compat_r; [done|]. apply Qclt_le_weak. assert (0 < ip * id)%Qc by qnra. qnra. }
  assert (C3 : ((B + l * d) * x * (ip * id * ix) = B * (ip * id) + l * ip)%Qc).
  { trans ((B * (ip * id) + l * ip * (d * id)) * (x * ix))%Qc; [ring|rewrite Ix, Id; ring]. }
  assert (C4 : (n * p * (ip * id * ix) = ix * (n * id))%Qc).
  { trans (n * id * ix * (p * ip))%Qc; [ring|rewrite Ip; ring]. }
  rewrite C3, C4 in C2. eapply Qcle_trans; [|exact C2]. rewrite Qcplus_comm. by apply Qcplus_le_compat.
Qed.
End check.

(** ** Rules *)
Definition rows (r : rule) : list (list dyadic) := (fun c : list decimal * decimal => double_of <$> c.1) <$> columns r.
Definition start (r : rule) : list Z := (fun w => mulx (2 ^ PREC) w) <$> weights r.
Fixpoint heads (d : nat) (rs : list (list dyadic)) : list (list dyadic) :=
  match d with O => [] | S d => (hd (0, 0) <$> rs) :: heads d (tl <$> rs) end.
Definition smallb (x : dyadic) : bool := (0 <=? x.2) && (Z.abs x.1 <=? 2 ^ x.2).
Definition slack_of (r : rule) (n : nat) : Z := Z.of_nat (length (columns r)) * Z.of_nat (S n).
(** Weights are only required to have a power of two below. *)
Definition check_rule (moment_nd : list nat -> Z * Z) (d n : nat) (E : Z) (r : rule) : bool :=
  forallb (fun c : list decimal * decimal => bool_decide (length c.1 = d)) (columns r) &&
  forallb (forallb smallb) (rows r) && forallb (fun w => 0 <=? w.2) (weights r) &&
  check_vars moment_nd (slack_of r n) E (heads d (rows r)) n (start r) [].

Lemma smallb_spec x : smallb x = true -> small x.
Proof. unfold smallb, small. intros [H1 H2]%andb_prop. split; by apply Z.leb_le. Qed.

Lemma times_mono_rows d : forall rs Us a, Forall (fun r => length r = d) rs -> length rs = length Us -> length a = d ->
  times_mono Us (heads d rs) a = zip_with (fun U r => U * monomial_at a (dyq <$> r))%Qc Us rs.
Proof.
  induction d as [|d IH]; intros rs Us a Hr L La.
  - destruct a; [|discriminate La]. cbn. revert rs Hr L. induction Us as [|U Us IHU]; intros [|r rs] Hr L; try discriminate L; [done|].
    apply Forall_cons in Hr as [Hr Hrs]. cbn. rewrite <- (IHU rs Hrs); [|by injection L]. f_equal. unfold monomial_at. cbn. ring.
  - destruct a as [|k a]; [discriminate La|]. cbn [heads times_mono]. rewrite IH.
    + clear IH. unfold times_pow. revert rs Hr L. induction Us as [|U Us IHU]; intros [|r rs] Hr L; try discriminate L; [done|].
      apply Forall_cons in Hr as [Hr Hrs]. cbn [zip_with fmap list_fmap]. rewrite <- (IHU rs Hrs); [|by injection L]. f_equal.
      destruct r as [|x r]; [discriminate Hr|]. unfold monomial_at, qprod. cbn [hd tl fmap list_fmap zip_with foldr]. ring.
    + apply Forall_fmap. eapply Forall_impl; [exact Hr|]. intros r E. cbn. destruct r; [discriminate E|by injection E].
    + rewrite times_pow_length by (rewrite fmap_length; exact L). by rewrite fmap_length.
    + by injection La.
Qed.
Lemma heads_ok d : forall rs m, length rs = m -> Forall (fun r => length r = d) rs -> Forall (Forall small) rs ->
  Forall (fun xs => length xs = m /\ Forall small xs) (heads d rs) /\ length (heads d rs) = d.
Proof.
  induction d as [|d IH]; intros rs m L Hr Hs; [split; [constructor|done]|]. cbn [heads].
  assert (T1 : Forall (fun r => length r = d) (tl <$> rs)).
  { apply Forall_fmap. eapply Forall_impl; [exact Hr|]. intros r E. cbn. destruct r; [discriminate E|by injection E]. }
  assert (T2 : Forall (Forall small) (tl <$> rs)).
  { apply Forall_fmap. eapply Forall_impl; [exact Hs|]. intros r E. cbn. destruct E; [constructor|done]. }
  destruct (IH (tl <$> rs) m ltac:(by rewrite fmap_length) T1 T2) as [I1 I2]. split; [|cbn; by rewrite I2].
  constructor; [|done]. split; [by rewrite fmap_length|].
  apply Forall_fmap. clear - Hr Hs. induction rs as [|r rs IHr]; [constructor|]. apply Forall_cons in Hr as [Hr Hrs]. apply Forall_cons in Hs as [Hs Hss].
  constructor; [|by apply IHr]. cbn. destruct r; [discriminate Hr|]. by apply Forall_cons in Hs as [? _].
Qed.

Lemma start_near r : Forall (fun w : dyadic => 0 <= w.2) (weights r) -> Forall2 (near 1) (dyq <$> weights r) (start r).
Proof.
  unfold start. induction (weights r) as [|w ws IH]; intros H; [constructor|]. apply Forall_cons in H as [Hw H]. cbn. constructor; [|by apply IH].
  unfold near. pose proof (mulx_error (2 ^ PREC) w Hw) as [M1 M2]. pose proof ulp_pos as Hu.
  assert (I : (ZQ (2 ^ PREC) * ulp = 1)%Qc) by (unfold ulp; apply Qcmult_inv_r; apply ZQ_neq; done).
  replace (dyq w - ZQ (mulx (2 ^ PREC) w) * ulp)%Qc with ((ZQ (2 ^ PREC) * dyq w - ZQ (mulx (2 ^ PREC) w)) * ulp)%Qc.
  2:{ trans (dyq w * (ZQ (2 ^ PREC) * ulp) - ZQ (mulx (2 ^ PREC) w) * ulp)%Qc; [ring|rewrite I; ring]. }
  rewrite qabs_mult, (qabs_pos ulp) by (by apply Qclt_le_weak). rewrite qabs_pos by done. apply Qcmult_le_compat_r; [done|by apply Qclt_le_weak].
Qed.

Lemma approximate_mono r a : approximate r (monomial_at a) = qsum (zip_with (fun U r => U * monomial_at a (dyq <$> r))%Qc (dyq <$> weights r) (rows r)).
Proof.
  unfold approximate, nodes, weights, rows. induction (columns r) as [|c cs IH]; [done|]. cbn [fmap list_fmap zip_with fst snd].
  change (qsum (?x :: ?l)) with (x + qsum l)%Qc. rewrite IH. f_equal. f_equal. f_equal. rewrite <- list_fmap_compose. done.
Qed.

Lemma check_rule_monomial moment_nd d n E r a num den : check_rule moment_nd d n E r = true -> moment_nd a = (num, den) -> 0 < den -> 0 < E ->
  length a = d -> (sum_list a <= n)%nat ->
  (qabs (approximate r (monomial_at a) - ZQ num / ZQ den) <= / ZQ E * (ZQ num / ZQ den))%Qc.
Proof.
  intros H Hm Hd HE La Ha. unfold check_rule in H. apply andb_prop in H as [[[H1 H2]%andb_prop H3]%andb_prop H4].
  assert (Hr : Forall (fun r => length r = d) (rows r)).
  { unfold rows. apply Forall_fmap. apply Forall_forall. intros c Hc. cbn. rewrite fmap_length. rewrite forallb_forall in H1.
    apply elem_of_list_In in Hc. specialize (H1 c Hc). by apply bool_decide_eq_true_1 in H1. }
  assert (Hs : Forall (Forall small) (rows r)).
  { apply Forall_forall. intros l Hl. apply Forall_forall. intros x Hx. apply smallb_spec. rewrite forallb_forall in H2.
    apply elem_of_list_In in Hl. apply elem_of_list_In in Hx. specialize (H2 l Hl). rewrite forallb_forall in H2. by apply H2. }
  assert (Hw : Forall (fun w : dyadic => 0 <= w.2) (weights r)).
  { apply Forall_forall. intros w Hw. rewrite forallb_forall in H3. apply elem_of_list_In in Hw. apply Z.leb_le, H3, Hw. }
  assert (Lw : length (rows r) = length (dyq <$> weights r)) by (unfold rows, weights; by rewrite !fmap_length).
  destruct (heads_ok d (rows r) _ Lw Hr Hs) as [Hv Lh].
  destruct (check_vars_sound _ _ _ _ _ _ _ _ 1%Qc H4 ltac:(by vm_compute) Hv (start_near r Hw) a ltac:(by rewrite Lh) Ha) as (us' & C & N).
  cbn [rev app] in C. rewrite times_mono_rows in N by done.
  assert (Hk : (0 <= 1 + ZQ (Z.of_nat (sum_list a)))%Qc).
  { pose proof (ZQ_nat (sum_list a)). qlra. }
  pose proof (near_sum _ _ _ Hk N) as S. rewrite <- approximate_mono in S.
  rewrite zip_with_length, fmap_length in S. unfold rows in S. unfold weights in S. rewrite !fmap_length, Nat.min_id in S.
  eapply check_moment_sound; [exact Hm|exact Hd|exact HE| |exact C|exact S].
  pose proof (ZQ_nat (length (columns r))).
  unfold slack_of. rewrite ZQ_mul, Nat2Z.inj_succ. unfold Z.succ. rewrite ZQ_add, ZQ_1.
  assert (ZQ (Z.of_nat (sum_list a)) <= ZQ (Z.of_nat n))%Qc as Hle by (apply (proj1 (ZQ_le _ _)); lia). clear S C N.
  generalize dependent (ZQ (Z.of_nat (length (columns r)))). generalize dependent (ZQ (Z.of_nat (sum_list a))). generalize dependent (ZQ (Z.of_nat n)).
  clear. intros x y Hk Hxy z Hz. split; [qnra|].
  assert (0 <= z * (x - y))%Qc by qnra. qlra.
Qed.

Lemma qsum_cons x l : qsum (x :: l) = (x + qsum l)%Qc.
Proof. done. Qed.
Lemma approximate_lin r p : approximate r (polynomial_at p) = qsum ((fun t => t.2 * approximate r (monomial_at t.1))%Qc <$> p).
Proof.
  induction p as [|[a c] p IH].
  - unfold approximate. induction (nodes r) as [|x l IHl]; [done|]. cbn [fmap list_fmap] in *. rewrite qsum_cons, IHl. unfold polynomial_at. cbn. ring.
  - cbn [fmap list_fmap]. rewrite qsum_cons, <- IH. clear IH. unfold approximate. cbn [fst snd].
    induction (nodes r) as [|x l IHl]; [cbn; ring|]. cbn [fmap list_fmap]. rewrite !qsum_cons, IHl. unfold polynomial_at. cbn [fmap list_fmap fst snd].
    rewrite qsum_cons. ring.
Qed.

Lemma accurate_of_monomials moment d n eps r :
  (forall a, length a = d -> (sum_list a <= n)%nat -> (qabs (approximate r (monomial_at a) - moment a) <= eps * moment a)%Qc) ->
  accurate moment d n eps r.
Proof.
  intros H p Hp. rewrite approximate_lin. unfold integral, integral_abs. induction p as [|[a c] p IH].
  - cbn. replace (0 - 0)%Qc with 0%Qc by ring. replace (eps * 0)%Qc with 0%Qc by ring. vm_compute. done.
  - apply Forall_cons in Hp as [[L S] Hp]. specialize (IH Hp). cbn [fmap list_fmap]. change (qsum (?x :: ?l)) with (x + qsum l)%Qc. cbn [fst snd] in *.
    set (P := qsum ((fun t : list nat * Qc => (t.2 * approximate r (monomial_at t.1))%Qc) <$> p)) in *.
    set (I := qsum ((fun t : list nat * Qc => (t.2 * moment t.1)%Qc) <$> p)) in *.
    set (A := qsum ((fun t : list nat * Qc => (qabs t.2 * moment t.1)%Qc) <$> p)) in *.
    replace (c * approximate r (monomial_at a) + P - (c * moment a + I))%Qc with (c * (approximate r (monomial_at a) - moment a) + (P - I))%Qc by ring.
    eapply Qcle_trans; [apply qabs_triangle|]. rewrite qabs_mult. specialize (H a L S).
    replace (eps * (qabs c * moment a + A))%Qc with (qabs c * (eps * moment a) + eps * A)%Qc by ring. apply Qcplus_le_compat; [|done].
    rewrite !(Qcmult_comm (qabs c)). apply Qcmult_le_compat_r; [done|apply qabs_nonneg].
Qed.

(** ** Moments *)
Definition cube_nd (a : list nat) : Z * Z := (1, foldr Z.mul 1 ((fun k => Z.of_nat (S k)) <$> a)).
Fixpoint zfact (n : nat) : Z := match n with O => 1 | S n' => Z.of_nat (S n') * zfact n' end.
Definition simplex_nd (a : list nat) : Z * Z := (foldr Z.mul 1 (zfact <$> a), zfact (length a + sum_list a)).
Lemma zfact_fact n : zfact n = Z.of_nat (fact n).
Proof. induction n as [|n IH]; [done|]. change (fact (S n)) with (S n * fact n)%nat. rewrite Nat2Z.inj_mul, <- IH. done. Qed.
Lemma zfact_pos n : 0 < zfact n.
Proof. induction n as [|n IH]; [done|]. cbn [zfact]. lia. Qed.
Lemma cube_nd_pos a : 0 < (cube_nd a).2.
Proof. unfold cube_nd. cbn. induction a as [|k a IH]; [done|]. cbn [fmap list_fmap foldr]. lia. Qed.
Lemma cube_nd_ok a : (ZQ (cube_nd a).1 / ZQ (cube_nd a).2)%Qc = integral_cube a.
Proof.
  unfold cube_nd, integral_cube, qprod. cbn [fst snd]. induction a as [|k a IH]; [done|]. cbn [fmap list_fmap foldr]. rewrite <- IH, ZQ_mul.
  pose proof (cube_nd_pos a) as P. unfold cube_nd in P. cbn [snd] in P.
  rewrite ZQ_1. field. split; apply ZQ_neq; lia.
Qed.
Lemma simplex_nd_ok a : (ZQ (simplex_nd a).1 / ZQ (simplex_nd a).2)%Qc = integral_simplex a.
Proof.
  unfold simplex_nd, integral_simplex. cbn [fst snd]. rewrite zfact_fact. f_equal. unfold qprod. induction a as [|k a IH]; [done|].
  cbn [fmap list_fmap foldr]. rewrite ZQ_mul, IH, zfact_fact. done.
Qed.

Lemma check_cube d n E r : 0 < E -> check_rule cube_nd d n E r = true -> forall k, (k <= n)%nat -> accurate integral_cube d k (/ ZQ E) r.
Proof.
  intros HE H k Hk. apply accurate_of_monomials. intros a La Ha. rewrite <- cube_nd_ok.
  apply (check_rule_monomial cube_nd d n E r a); [done|by destruct (cube_nd a)|apply cube_nd_pos|done|done|lia].
Qed.
Lemma check_simplex d n E r : 0 < E -> check_rule simplex_nd d n E r = true -> forall k, (k <= n)%nat -> accurate integral_simplex d k (/ ZQ E) r.
Proof.
  intros HE H k Hk. apply accurate_of_monomials. intros a La Ha. rewrite <- simplex_nd_ok.
  apply (check_rule_monomial simplex_nd d n E r a); [done|by destruct (simplex_nd a)|apply zfact_pos|done|done|lia].
Qed.
