(** Regression lines. *)
From Verif Require Import BaseProof CommonModel CommonSpec.
From Coq Require Import Lqa.
Local Open Scope Qc_scope.

Definition ofn (n : nat) : Qc := Q2Qc (inject_Z (Z.of_nat n)).
Lemma ofn_S n : ofn (S n) = ofn n + 1.
Proof. unfold ofn. apply this_eq. rewrite this_plus, !this_Q2Qc. rewrite Nat2Z.inj_succ. unfold Z.succ. rewrite inject_Z_plus. reflexivity. Qed.

Fixpoint sum (l : list Qc) : Qc := match l with [] => 0 | x :: l => x + sum l end.
Fixpoint dot (l l' : list Qc) : Qc := match l, l' with x :: l, y :: l' => x * y + dot l l' | _, _ => 0 end.

Lemma accumulate_sum l : accumulate l = sum l.
Proof.
  unfold accumulate. assert (H : forall a, fold_left (fun s x => s + x) l a = a + sum l).
  { induction l as [|x l IH]; intros a; cbn; [ring|]. rewrite IH. ring. }
  rewrite H. ring.
Qed.
Lemma inner_dot l l' : inner_product l l' = dot l l'.
Proof.
  unfold inner_product. assert (H : forall a, fold_left (fun s p => s + p.1 * p.2) (zip l l') a = a + dot l l').
  { revert l'. induction l as [|x l IH]; intros [|y l'] a; cbn; try ring. rewrite IH. cbn. ring. }
  rewrite H. ring.
Qed.

Lemma error_expand a b x : forall y, length x = length y ->
  squared_error a b x y = dot y y - (1 + 1) * a * dot x y - (1 + 1) * b * sum y + a * a * dot x x + (1 + 1) * a * b * sum x + ofn (length x) * (b * b).
Proof.
  induction x as [|u x IH]; intros [|v y] H; try done; cbn [squared_error dot sum length].
  - replace (ofn 0) with 0 by (apply this_eq; reflexivity). ring.
  - injection H as H. rewrite (IH y H), ofn_S. ring.
Qed.

Lemma error_nonneg a b x : forall y, 0 <= squared_error a b x y.
Proof.
  induction x as [|u x IH]; intros [|v y]; cbn; try apply Qcle_refl. specialize (IH y). 
  set (e := v - (a * u + b)). assert (0 <= e * e) by qnra. qlra.
Qed.

Lemma error_zero a b x : forall y, squared_error a b x y = 0 -> Forall2 (fun u v => v = a * u + b) (take (length y) x) (take (length x) y).
Proof.
  induction x as [|u x IH]; intros [|v y] H; cbn; try constructor; cbn in H; pose proof (error_nonneg a b x y);
    set (e := v - (a * u + b)) in *; assert (0 <= e * e) by qnra.
  - assert (E : e * e = 0) by (clear IH; qlra). assert (e = 0). { apply Qcmult_integral in E. tauto. } unfold e in *. clear -H2. qlra.
  - apply IH. clear IH. qlra.
Qed.

Lemma ofn_pos n : (0 < n)%nat -> 0 < ofn n.
Proof.
  intros H. destruct n as [|n]; [lia|]. clear H. induction n as [|n IH]; [reflexivity|]. rewrite ofn_S. assert (0 < 1) by reflexivity. qlra.
Qed.

Lemma spread_nonneg x : 0 <= ofn (length x) * dot x x - sum x * sum x.
Proof.
  destruct x as [|u x]; [cbn; qlra|]. remember (u :: x) as l eqn:El. assert (Hp : 0 < ofn (length l)) by (apply ofn_pos; subst l; cbn; lia).
  set (b := sum l / ofn (length l)). pose proof (error_nonneg 0 b l l) as H. rewrite error_expand in H by done.
  assert (Hb : ofn (length l) * b = sum l) by (unfold b; field; intros E; rewrite E in Hp; by apply Qclt_irrefl in Hp || discriminate Hp).
  set (N := ofn (length l)) in *. set (S := sum l) in *. set (D := dot l l) in *. clearbody N S D. clearbody b.
  assert (H2 : 0 <= N * (D - (1 + 1) * b * S + N * (b * b))). { assert (0 <= D - (1 + 1) * b * S + N * (b * b)) by qlra. clear H. qnra. }
  assert (E : N * (D - (1 + 1) * b * S + N * (b * b)) = N * D - (1 + 1) * (N * b) * S + (N * b) * (N * b)) by ring.
  rewrite E, Hb in H2. clear E Hb H. qlra.
Qed.

Lemma spread_zero x : ofn (length x) * dot x x - sum x * sum x = 0 <-> exists c, Forall (fun u => u = c) x.
Proof.
  split.
  - intros E. destruct x as [|u x]; [by exists 0|]. remember (u :: x) as l eqn:El.
    assert (Hp : 0 < ofn (length l)) by (apply ofn_pos; subst l; cbn; lia). clear El u x.
    assert (Hn : ofn (length l) <> 0). { intros H. rewrite H in Hp. by vm_compute in Hp. }
    set (b := sum l / ofn (length l)). exists b.
    assert (H : squared_error 0 b l l = 0).
    { rewrite error_expand by done.
      assert (E2 : ofn (length l) * (dot l l - (1 + 1) * 0 * dot l l - (1 + 1) * b * sum l + 0 * 0 * dot l l + (1 + 1) * 0 * b * sum l + ofn (length l) * (b * b)) = 0).
      { transitivity (ofn (length l) * dot l l - sum l * sum l); [|done]. unfold b. field. done. }
      apply Qcmult_integral in E2 as [?|E2]; done. }
    apply error_zero in H. rewrite firstn_all in H. clear -H.
    apply Forall_lookup. intros i u Hu. destruct (Forall2_lookup_l _ _ _ _ _ H Hu) as (v & Hv & E). rewrite Hu in Hv. injection Hv as <-.
    rewrite E. ring.
  - intros [c Hc]. assert (A : sum x = ofn (length x) * c /\ dot x x = ofn (length x) * (c * c)).
    { induction Hc as [|u x -> _ [IH1 IH2]]; cbn [sum dot length].
      - replace (ofn 0) with 0 by (apply this_eq; reflexivity). split; ring.
      - rewrite ofn_S, IH1, IH2. split; ring. }
    destruct A as [-> ->]. ring.
Qed.

Lemma slope_ok x y : length x = length y ->
  (Slope x y = Throw <-> exists c, Forall (fun u => u = c) x) /\
  forall a, Slope x y = Ok a -> exists b, forall a' b', squared_error a b x y <= squared_error a' b' x y.
Proof.
  intros Hl. unfold Slope. rewrite !accumulate_sum, !inner_dot. fold (ofn (length x)).
  pose proof (spread_nonneg x) as Hd. pose proof (spread_zero x) as Hz. cbv zeta.
  destruct (qeq_spec (ofn (length x) * dot x x - sum x * sum x) 0) as [E|E].
  - split; [tauto|done].
  - split; [split; [done|tauto]|]. intros a [= <-]. 
    assert (Hp : 0 < ofn (length x)).
    { apply ofn_pos. destruct x; [|cbn; lia]. exfalso. apply E. cbn. ring. }
    assert (Hn : ofn (length x) <> 0). { intros H. rewrite H in Hp. by vm_compute in Hp. }
    set (q := ofn (length x) * dot x y - sum x * sum y). set (d := ofn (length x) * dot x x - sum x * sum x) in *.
    exists ((sum y - q / d * sum x) / ofn (length x)). intros a' b'.
    rewrite !error_expand by done. fold d in Hd.
    assert (Hdd : 0 < d). { apply Qcle_lt_or_eq in Hd as [?|Hd]; [done|]. by symmetry in Hd. }
    set (K := d * (ofn (length x) * dot y y - sum y * sum y) - q * q).
    assert (E1 : forall a b, ofn (length x) * d * (dot y y - (1 + 1) * a * dot x y - (1 + 1) * b * sum y + a * a * dot x x + (1 + 1) * a * b * sum x + ofn (length x) * (b * b)) =
              d * ((ofn (length x) * b + a * sum x - sum y) * (ofn (length x) * b + a * sum x - sum y)) + (d * a - q) * (d * a - q) + K).
    { intros a b. unfold K, q, d. ring. }
    set (F := fun a b : Qc => dot y y - (1 + 1) * a * dot x y - (1 + 1) * b * sum y + a * a * dot x x + (1 + 1) * a * b * sum x + ofn (length x) * (b * b)) in *.
    fold (F (q / d) ((sum y - q / d * sum x) / ofn (length x))). fold (F a' b').
    set (b0 := (sum y - q / d * sum x) / ofn (length x)).
    assert (Z1 : ofn (length x) * b0 + q / d * sum x - sum y = 0) by (unfold b0; field; done).
    assert (Z2 : d * (q / d) - q = 0) by (field; done).
    pose proof (E1 (q / d) b0) as H1. pose proof (E1 a' b') as H2. change (ofn (length x) * d * F (q / d) b0 = 
      d * ((ofn (length x) * b0 + q / d * sum x - sum y) * (ofn (length x) * b0 + q / d * sum x - sum y)) + (d * (q / d) - q) * (d * (q / d) - q) + K) in H1.
    change (ofn (length x) * d * F a' b' = d * ((ofn (length x) * b' + a' * sum x - sum y) * (ofn (length x) * b' + a' * sum x - sum y)) + (d * a' - q) * (d * a' - q) + K) in H2.
    rewrite Z1, Z2 in H1. set (u := ofn (length x) * b' + a' * sum x - sum y) in *. set (v := d * a' - q) in *.
    set (f1 := F (q / d) b0) in *. set (f2 := F a' b') in *. set (N := ofn (length x)) in *.
    clear E1 Z1 Z2 Hz E Hl. clearbody f1 f2 u v K d N. clear F q b0 y x a' b'.
    assert (Hm : 0 < N * d) by (clear -Hp Hdd; qnra). set (m := N * d) in *. clearbody m.
    assert (Hu : 0 <= u * u) by (clear; qnra). assert (Hv : 0 <= v * v) by (clear; qnra). set (uu := u * u) in *. set (vv := v * v) in *. clearbody uu vv.
    assert (Hduu : 0 <= d * uu) by (clear -Hdd Hu; qnra). set (w := d * uu) in *. clearbody w.
    assert (Hle : m * f1 <= m * f2) by (rewrite H1, H2; clear H1 H2; qlra).
    clear -Hle Hm. destruct (qle_spec f1 f2) as [|Hc]; [done|exfalso]. assert (0 < m * (f1 - f2)) by qnra. qlra.
Qed.
