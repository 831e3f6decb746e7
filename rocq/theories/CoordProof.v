(** * Equispaced and random coordinates. *)
From stdpp Require Import sorting.
From Coq Require Import QArith Qcanon Qround Lqa ZifyBool ZifyNat ZifyN.
From Verif Require Import Base BaseProof QcTac GeoModel CommonModel CommonProof CoordModel CoordSpec.
Local Open Scope nat_scope.

Lemma qn_0 : qn 0 = 0%Qc.
Proof. done. Qed.
Lemma qn_S n : qn (S n) = (qn n + 1)%Qc.
Proof. unfold qn. apply this_eq. rewrite this_plus, !this_Q2Qc, Nat2Z.inj_succ, <- Z.add_1_r, inject_Z_plus. reflexivity. Qed.
Lemma qn_le a b : a <= b -> (qn a <= qn b)%Qc.
Proof. intros L. unfold qn. rewrite this_le, !this_Q2Qc. rewrite <- Zle_Qle. lia. Qed.
Lemma qn_lt a b : a < b -> (qn a + 1 <= qn b)%Qc.
Proof. intros L. rewrite <- qn_S. by apply qn_le. Qed.
Lemma qn_pos n : 0 < n -> (0 < qn n)%Qc.
Proof. intros L. pose proof (qn_lt 0 n L) as H. rewrite qn_0 in H. qlra. Qed.
Lemma qc_pos_ne x : (0 < x)%Qc -> x <> 0%Qc.
Proof. intros L ->. qlra. Qed.

(** ** Equal steps *)
Lemma lin_lookup n lo hi k : 2 <= n -> k < n -> lin_spaced n lo hi !! k = Some (lo + qn k * ((hi - lo) / qn (n - 1)))%Qc.
Proof.
  intros N2 K. unfold lin_spaced. destruct (Nat.eqb_spec n 1); [lia|]. rewrite list_lookup_fmap, lookup_seq_lt by done. done.
Qed.
Lemma lin_length n lo hi : length (lin_spaced n lo hi) = n.
Proof. unfold lin_spaced. destruct (Nat.eqb_spec n 1) as [-> |]; [done|]. by rewrite fmap_length, seq_length. Qed.
Lemma lin_even n lo hi : 2 <= n -> even_line lo hi (lin_spaced n lo hi).
Proof.
  intros N2. split_and!.
  - rewrite lin_lookup by lia. rewrite qn_0. f_equal. ring.
  - rewrite last_lookup, lin_length. replace (Nat.pred n) with (n - 1) by lia. rewrite lin_lookup by lia. f_equal.
    pose proof (qc_pos_ne _ (qn_pos (n - 1) ltac:(lia))) as NZ. field. done.
  - exists ((hi - lo) / qn (n - 1))%Qc. intros k x y KX KY. pose proof (lookup_lt_Some _ _ _ KY) as L. rewrite lin_length in L.
    rewrite lin_lookup in KX, KY by lia. injection KX as <-. injection KY as <-. rewrite qn_S. ring.
Qed.

Lemma take_all {A} (g : list A) : omapM (fun c => vget g c) (seq 0 (length g)) = Ok g.
Proof.
  apply omapM_ok. apply Forall2_same_length_lookup_2; [by rewrite seq_length|]. intros i a b IA IB.
  apply lookup_seq in IA as [-> L]. unfold vget. cbn. by rewrite IB.
Qed.
Lemma take_inner {A} (x y : A) l : omapM (fun c => vget (x :: l ++ [y]) (c + 1)) (seq 0 (length l)) = Ok l.
Proof.
  apply omapM_ok. apply Forall2_same_length_lookup_2; [by rewrite seq_length|]. intros i a b IA IB.
  apply lookup_seq in IA as [-> L]. unfold vget. rewrite Nat.add_1_r. cbn. by rewrite (lookup_app_l_Some _ _ _ _ IB).
Qed.

(** The line with its ends. *)
Definition whole (extremes : bool) (a b : Qc) (l : list Qc) : list Qc := if extremes then l else a :: l ++ [b].

Lemma equispace_ok size a b (extremes : bool) : (if extremes then 2 <= size else 1 <= size) ->
  exists l, EquispaceCoordinates size a b extremes = Ok l /\ length l = size /\ even_line a b (if extremes then l else a :: l ++ [b]).
Proof.
  intros L. unfold EquispaceCoordinates. destruct (Nat.eqb_spec size 0) as [-> |NZ]; [destruct extremes; lia|]. destruct extremes.
  - destruct (Nat.eqb_spec size 1); [lia|]. cbn [andb]. rewrite take_all. eexists. split; [done|]. rewrite lin_length. split; [done|]. by apply lin_even.
  - rewrite andb_false_r. pose proof (lin_even (size + 2) a b ltac:(lia)) as EV. pose proof (lin_length (size + 2) a b) as LL.
    destruct (lin_spaced (size + 2) a b) as [|x l]; [cbn in LL; lia|]. destruct l as [|y l _] using rev_ind; [cbn in LL; lia|].
    cbn [length] in LL. rewrite app_length in LL. cbn [length] in LL.
    assert (length (x :: l ++ [y]) - 2 = length l) as -> by (cbn [length]; rewrite app_length; cbn [length]; lia).
    rewrite take_inner. exists l. split; [done|]. split; [lia|].
    destruct EV as (E0 & E1 & ED). injection E0 as ->. rewrite app_comm_cons, last_snoc in E1. injection E1 as ->. split_and!; [done| |done].
    by rewrite app_comm_cons, last_snoc.
Qed.
Lemma equispace_none a b extremes : EquispaceCoordinates 0 a b extremes = Ok [].
Proof. done. Qed.
Lemma equispace_one a b : EquispaceCoordinates 1 a b true = Throw.
Proof. done. Qed.

Lemma even_value (a : Qc) (l : list Qc) d : l !! 0 = Some a -> (forall k x y, l !! k = Some x -> l !! S k = Some y -> (y - x = d)%Qc) ->
  forall k x, l !! k = Some x -> x = (a + qn k * d)%Qc.
Proof.
  intros E0 ED. induction k as [|k IH]; intros x K.
  - rewrite E0 in K. injection K as <-. rewrite qn_0. ring.
  - destruct (lookup_lt_is_Some_2 l k) as [y Y]; [apply lookup_lt_Some in K; lia|]. pose proof (ED k y x Y K) as D. rewrite (IH y Y) in D. rewrite qn_S.
    assert (x = a + qn k * d + d)%Qc as -> by qlra. ring.
Qed.
Lemma even_increasing a b l : even_line a b l -> (a < b)%Qc -> exists d, (0 < d)%Qc /\ gaps d l.
Proof.
  intros (E0 & E1 & d & ED) AB. exists d. split.
  - rewrite last_lookup in E1. pose proof (even_value a l d E0 ED _ _ E1) as V. destruct (qlt_spec 0 d) as [|ND]; [done|]. exfalso.
    assert (0 <= qn (Nat.pred (length l)))%Qc as P by (rewrite <- qn_0; apply qn_le; lia). qnra.
  - intros k x y KX KY. specialize (ED k x y KX KY). qlra.
Qed.

(** ** Rounding *)
Lemma to_unsigned_ok x n : floor_of x n -> (N.of_nat n < 4294967296)%N -> to_unsigned x = Ok (N.of_nat n).
Proof.
  intros [L U] B. assert (Qfloor x = Z.of_nat n) as E.
  { rewrite this_le, this_Q2Qc in L. rewrite this_lt, this_Q2Qc in U. pose proof (Qfloor_le x) as F1. pose proof (Qlt_floor x) as F2.
    assert (inject_Z (Qfloor x) < inject_Z (Z.of_nat n + 1))%Q as A1 by (eapply Qle_lt_trans; done). rewrite <- Zlt_Qlt in A1.
    assert (inject_Z (Z.of_nat n) < inject_Z (Qfloor x + 1))%Q as A2 by (eapply Qle_lt_trans; done). rewrite <- Zlt_Qlt in A2. lia. }
  unfold to_unsigned. rewrite E. destruct (Z.leb_spec 0 (Z.of_nat n)); [|lia]. destruct (Z.ltb_spec (Z.of_nat n) 4294967296); [|lia]. cbn [andb]. f_equal. lia.
Qed.
Lemma floor_exists x : (0 <= x)%Qc -> exists n, floor_of x n.
Proof.
  intros P. exists (Z.to_nat (Qfloor x)).
  assert (0 <= Qfloor x)%Z as F. { change 0%Z with (Qfloor (inject_Z 0)). apply Qfloor_resp_le. done. }
  split; rewrite Z2Nat.id by done.
  - rewrite this_le, this_Q2Qc. apply Qfloor_le.
  - rewrite this_lt, this_Q2Qc. apply Qlt_floor.
Qed.
Lemma floor_qn x n : floor_of x n <-> (qn n <= x)%Qc /\ (x < qn n + 1)%Qc.
Proof.
  unfold floor_of. fold (qn n). rewrite <- qn_S. unfold qn at 3. replace (Z.of_nat (S n)) with (Z.of_nat n + 1)%Z by lia. done.
Qed.

Section accepted.
Context (g : geo_config) (GM : (0 <= MinTolerance g)%Qc).
Lemma positive_ok x : (Tolerance1D g < x)%Qc -> IsValuePositive g x (Tolerance1D g) = true /\ (0 < x)%Qc.
Proof.
  intros P. assert (0 <= Tolerance1D g /\ MinTolerance g <= Tolerance1D g)%Qc as [T0 T1] by (unfold Tolerance1D; qcases; split; qlra).
  split; [|qlra]. unfold IsValuePositive. apply bool_decide_eq_true. unfold CompareValues.
  assert (qmax (qabs (Tolerance1D g)) (MinTolerance g) = Tolerance1D g) as -> by (qcases; qlra).
  assert (qabs 0 = 0%Qc) as -> by (by vm_compute; apply Qc_is_canon). destruct (qle_spec 0 (Tolerance1D g)); [|done]. cbn [orb].
  rewrite !Qcmult_1_r. destruct (qle_spec (qabs (x - 0)) (Tolerance1D g)) as [H|_]; [exfalso; revert H; qcases; intros; qlra|].
  destruct (qlt_spec (x - 0) (- Tolerance1D g)) as [H|_]; [exfalso; qlra|done].
Qed.
Lemma not_more x : (0 < x)%Qc -> (x <= 1)%Qc -> CompareValues g x 1 (Tolerance1D g) <> SecondBeforeFirst.
Proof.
  intros P X. unfold CompareValues. set (t := qmax (qabs (Tolerance1D g)) (MinTolerance g)).
  assert (0 <= t)%Qc as T by (unfold t; qcases; qlra).
  cbv zeta. fold t. set (c := qle (qabs x) t || qle (qabs 1) t). set (r := if c then 1%Qc else qabs x).
  assert (0 <= r)%Qc as R by (unfold r; destruct c; [by vm_compute|qcases; qlra]).
  destruct (qle (qabs (1 - x)) (t * r)); [done|]. destruct (qlt_spec (1 - x) (- t * r)) as [H|_]; [|done]. exfalso.
  assert (0 <= t * r)%Qc as TR by (clear H; qnra). assert (- t * r = - (t * r))%Qc as E by ring. rewrite E in H. qlra.
Qed.

Lemma steps_ok step (extremes : bool) : (Tolerance1D g < step)%Qc -> (step <= 1)%Qc -> (1 / step < Q2Qc 4294967294)%Qc ->
  exists n l, 1 <= n /\ floor_of (1 / step + Q2Qc (1 # 2)) n /\ EquispaceSteps g step extremes = Ok l /\
    length (if extremes then l else 0%Qc :: l ++ [1%Qc]) = n + 1 /\ even_line 0 1 (if extremes then l else 0%Qc :: l ++ [1%Qc]).
Proof.
  intros ST S1 SB. destruct (positive_ok step ST) as [P1 P2]. pose proof (qc_pos_ne _ P2) as NZ.
  assert (1 <= 1 / step)%Qc as G1.
  { destruct (qle_spec 1 (1 / step)) as [|H]; [done|]. exfalso. assert (1 / step * step = 1)%Qc as E by (field; done). apply Qcnot_le_lt in H.
    pose proof (Qcmult_lt_compat_r _ _ step P2 H) as H'. rewrite E in H'. qlra. }
  destruct (floor_exists (1 / step + Q2Qc (1 # 2))) as [n F]; [qlra|]. exists n. pose proof F as F'. rewrite floor_qn in F'. destruct F' as [F1 F2].
  assert (1 <= n) as N1. { destruct n; [|lia]. exfalso. rewrite qn_0 in F2. qlra. }
  assert ((N.of_nat n < 4294967295)%N) as NB.
  { destruct (decide (N.of_nat n < 4294967295)%N) as [|H]; [done|]. exfalso.
    assert (Q2Qc 4294967295 <= qn n)%Qc as H'. { unfold qn. rewrite this_le, !this_Q2Qc. change 4294967295%Q with (inject_Z 4294967295). rewrite <- Zle_Qle. lia. }
    qlra. }
  unfold EquispaceSteps. rewrite P1, bool_decide_false by (by apply not_more). cbn [negb andb require mbind outcome_bind].
  rewrite (to_unsigned_ok _ n F) by lia. cbn [mbind outcome_bind].
  assert (N.to_nat ((if extremes then N.of_nat n + 1 else N.of_nat n + 4294967295) mod 4294967296) = if extremes then n + 1 else n - 1) as ->.
  { destruct extremes; [rewrite N.mod_small by lia; lia|]. replace (N.of_nat n + 4294967295)%N with (N.of_nat n - 1 + 1 * 4294967296)%N by lia.
    rewrite N.mod_add by lia. rewrite N.mod_small by lia. lia. }
  destruct extremes.
  - destruct (equispace_ok (n + 1) 0 1 true) as (l & E & LL & EV); [lia|]. exists l. split; [done|]. split; [done|]. split; [done|]. split; [lia|done].
  - destruct (decide (n = 1)) as [-> |N2].
    + exists []. split; [done|]. split; [done|]. split; [done|]. split; [done|]. split; [done|]. split; [done|]. exists 1%Qc. intros k x y KX KY. destruct k as [|[|k]]; [|done|done]. injection KX as <-. injection KY as <-. ring.
    + destruct (equispace_ok (n - 1) 0 1 false) as (l & E & LL & EV); [lia|]. exists l. split; [done|]. split; [done|]. split; [done|]. split; [|done].
      cbn [length]. rewrite app_length. cbn [length]. lia.
Qed.

Lemma steps_exact step (extremes : bool) k : (Tolerance1D g < step)%Qc -> (step <= 1)%Qc -> (1 / step < Q2Qc 4294967294)%Qc -> (qn k * step = 1)%Qc ->
  exists l, EquispaceSteps g step extremes = Ok l /\ forall j x y, (if extremes then l else 0%Qc :: l ++ [1%Qc]) !! j = Some x ->
    (if extremes then l else 0%Qc :: l ++ [1%Qc]) !! S j = Some y -> (y - x = step)%Qc.
Proof.
  intros ST S1 SB KS. destruct (steps_ok step extremes ST S1 SB) as (n & l & N1 & F & E & LL & E0 & E1 & d & ED). exists l. split; [done|].
  destruct (positive_ok step ST) as [_ P]. pose proof (qc_pos_ne _ P) as NZ.
  assert (1 / step = qn k)%Qc as IV by (rewrite <- KS; field; done). rewrite IV in F. apply floor_qn in F as [F1 F2].
  assert (n = k) as ->. { destruct (lt_eq_lt_dec n k) as [[H|H]|H]; [exfalso; apply qn_lt in H; qlra|done|exfalso; apply qn_lt in H; qlra]. }
  rewrite last_lookup, LL in E1. replace (Nat.pred (k + 1)) with k in E1 by lia.
  pose proof (even_value _ _ _ E0 ED _ _ E1) as V. assert (d = step) as <-.
  { assert (qn k * d = qn k * step)%Qc as Q by (rewrite KS; qlra). pose proof (qc_pos_ne _ (qn_pos k ltac:(lia))) as KZ.
    apply (f_equal (fun z => z / qn k)%Qc) in Q. replace (qn k * d / qn k)%Qc with d in Q by (field; done). rewrite Q. field. done. }
  done.
Qed.

(** ** Random coordinates *)
Lemma ss_strict l : StronglySorted le l -> NoDup l -> StronglySorted lt l.
Proof.
  induction 1 as [|x l S IH F]; intros ND; [constructor|]. apply NoDup_cons in ND as [NI ND]. constructor; [by apply IH|].
  rewrite Forall_forall in F |- *. intros y Y. specialize (F y Y). assert (x <> y) by (by intros ->). lia.
Qed.
Lemma ss_snoc l m : StronglySorted lt l -> Forall (fun x => x < m) l -> StronglySorted lt (l ++ [m]).
Proof.
  induction 1 as [|x l S IH F]; intros B; cbn; [repeat constructor|]. apply Forall_cons in B as [BX B]. constructor; [by apply IH|].
  apply Forall_app. split; [done|]. by constructor.
Qed.
Lemma ss_gap l : StronglySorted lt l -> forall k x y, l !! k = Some x -> l !! S k = Some y -> x < y.
Proof.
  induction 1 as [|a l S IH F]; intros k x y KX KY; [done|]. destruct k as [|k].
  - injection KX as ->. rewrite Forall_forall in F. apply F. by eapply elem_of_list_lookup_2.
  - by apply (IH k).
Qed.
Lemma gaps_weaken d d' l : (d' <= d)%Qc -> gaps d l -> gaps d' l.
Proof. intros L G k x y KX KY. specialize (G k x y KX KY). qlra. Qed.
Lemma gaps_cons d x y l : (x + d <= y)%Qc -> gaps d (y :: l) -> gaps d (x :: y :: l).
Proof. intros L G [|k] a b KA KB; [injection KA as <-; by injection KB as <-|]. by apply (G k). Qed.
Lemma part_gaps mx l : 0 < mx -> StronglySorted lt l -> gaps (1 / qn mx) ((fun p => qn p / qn mx)%Qc <$> l).
Proof.
  intros M SS k x y KX KY. rewrite list_lookup_fmap in KX, KY. destruct (l !! k) as [a|] eqn:A; [|done]. destruct (l !! S k) as [b|] eqn:B; [|done].
  injection KX as <-. injection KY as <-. pose proof (qn_lt _ _ (ss_gap _ SS k a b A B)) as L. pose proof (qn_pos mx M) as P. pose proof (qc_pos_ne _ P) as NZ.
  replace (qn a / qn mx + 1 / qn mx)%Qc with ((qn a + 1) / qn mx)%Qc by (field; done). unfold Qcdiv. apply Qcmult_le_compat_r; [done|].
  apply Qclt_le_weak. destruct (qlt_spec 0 (/ qn mx)) as [|H]; [done|]. exfalso. assert (/ qn mx * qn mx = 1)%Qc as E by (field; done). qnra.
Qed.
Lemma part_range mx p : 0 < mx -> p <= mx -> (0 <= qn p / qn mx)%Qc /\ (qn p / qn mx <= 1)%Qc.
Proof.
  intros M L. pose proof (qn_pos mx M) as P. pose proof (qc_pos_ne _ P) as NZ. pose proof (qn_le _ _ L) as L'.
  assert (0 <= qn p)%Qc as P0 by (rewrite <- qn_0; apply qn_le; lia).
  assert (qn p / qn mx * qn mx = qn p)%Qc as E by (field; done). set (q := (qn p / qn mx)%Qc) in *. split.
  - destruct (qle_spec 0 q); [done|]. exfalso. qnra.
  - destruct (qle_spec q 1); [done|]. exfalso. qnra.
Qed.
Lemma part_least mx d : 0 < mx -> (0 < d)%Qc -> floor_of (1 / d) mx -> (d <= 1 / qn mx)%Qc.
Proof.
  intros M D [F _]%floor_qn. pose proof (qn_pos mx M) as P. pose proof (qc_pos_ne _ P) as NZ. pose proof (qc_pos_ne _ D) as ND.
  assert (1 / qn mx * qn mx = 1)%Qc as E by (field; done). assert (1 / d * d = 1)%Qc as E' by (field; done).
  set (u := (1 / qn mx)%Qc) in *. set (w := (1 / d)%Qc) in *. destruct (qle_spec d u) as [|H]; [done|]. exfalso.
  assert (qn mx * d <= 1)%Qc as A by (rewrite <- E'; apply Qcmult_le_compat_r; [done|qlra]). qnra.
Qed.

Lemma random_coordinates shuffle size (extremes : bool) d mx : (forall l, shuffle l ≡ₚ l) -> (if extremes then 2 <= size else 1 <= size) ->
  (Tolerance1D g < d)%Qc -> floor_of (1 / d) mx -> (N.of_nat mx < 4294967296)%N -> size <= mx ->
  exists l, RandomCoordinates g shuffle size extremes d = Ok l /\ length l = size /\ gaps (Q2Qc (1 # 2) * d) l /\ (extremes = false -> gaps d l) /\
    Forall (fun x => (0 <= x)%Qc /\ (x <= 1)%Qc) l /\ (extremes = true -> l !! 0 = Some 0%Qc /\ last l = Some 1%Qc).
Proof.
  intros SH L DT F B SM. destruct (positive_ok d DT) as [P1 P2]. assert (0 < mx) as M by (destruct extremes; lia).
  pose proof (part_least mx d M P2 F) as PL. pose proof (qc_pos_ne _ (qn_pos mx M)) as NZ.
  unfold RandomCoordinates. destruct (Nat.eqb_spec size 0) as [-> |SZ]; [destruct extremes; lia|].
  assert ((size =? 1) && extremes = false) as ->. { destruct extremes; [|apply andb_false_r]. destruct (Nat.eqb_spec size 1); [lia|done]. }
  rewrite P1. cbn [require mbind outcome_bind]. rewrite (to_unsigned_ok _ mx F B). cbn [mbind outcome_bind]. rewrite Nat2N.id.
  rewrite (proj2 (Nat.leb_le size mx) SM). cbn [require mbind outcome_bind].
  set (n := if extremes then size - 2 else size).
  destruct (random_ok shuffle n mx SH) as (r & ER & LR & ND & RB); [unfold n; destruct extremes; lia|].
  assert ((if n =? 0 then Ok [] else RandomArrayNoRepetition shuffle n mx) = Ok r) as ->.
  { destruct (Nat.eqb_spec n 0) as [E|]; [|done]. unfold RandomArrayNoRepetition in ER. rewrite E in ER. cbn in ER. done. }
  cbn [mbind outcome_bind].
  set (s := merge_sort le r). assert (s ≡ₚ r) as PS by apply merge_sort_Permutation.
  assert (StronglySorted lt s) as SS. { apply ss_strict; [apply (StronglySorted_merge_sort le)|by rewrite PS]. }
  assert (length s = n) as LS by by rewrite PS.
  assert (Forall (fun x => x < mx) s) as SB by by rewrite PS.
  set (q := fun p : nat => (qn p / qn mx)%Qc).
  assert (forall l, Forall (fun x => x <= mx) l -> Forall (fun x => (0 <= x)%Qc /\ (x <= 1)%Qc) (q <$> l)) as RG.
  { intros l FL. apply Forall_fmap. eapply Forall_impl; [done|]. intros p PP. by apply part_range. }
  assert ((Q2Qc (1 # 2) * d <= 1 / qn mx)%Qc) as PL2 by qlra.
  destruct extremes.
  - assert (forall x l, StronglySorted lt (x :: l) -> Forall (fun y => 0 < y) l) as POS.
    { intros x l H. inversion H as [|? ? ? FX]; subst. eapply Forall_impl; [done|]. intros y. cbn. lia. }
    assert (forall t, Forall (fun y => 0 < y /\ y < mx) t -> filter (fun p => ~ (true = true /\ (p = 0 \/ p = mx))) t = t) as FI.
    { induction 1 as [|y t [Y1 Y2] FT IH]; [done|]. rewrite filter_cons_True by lia. by rewrite IH. }
    assert ([0%Qc] ++ (q <$> s) ++ [1%Qc] = q <$> 0 :: s ++ [mx]) as EQ.
    { rewrite fmap_cons, fmap_app. cbn [fmap list_fmap app]. unfold q at 2 4. rewrite qn_0. f_equal; [unfold Qcdiv; ring|]. f_equal. f_equal. field. done. }
    assert (forall t, StronglySorted lt t -> Forall (fun y => 0 < y /\ y < mx) t -> StronglySorted lt (0 :: t ++ [mx]) /\ Forall (fun x => x <= mx) (0 :: t ++ [mx])) as WH.
    { intros t ST FT. split.
      - constructor; [apply ss_snoc; [done|]; eapply Forall_impl; [done|]; cbn; lia|]. apply Forall_app. split; [eapply Forall_impl; [done|]; cbn; lia|]. by constructor.
      - constructor; [lia|]. apply Forall_app. split; [eapply Forall_impl; [done|]; cbn; lia|]. by constructor. }
    assert (forall t, [0%Qc] ++ (q <$> t) ++ [1%Qc] = q <$> 0 :: t ++ [mx]) as EQ'.
    { intros t. rewrite fmap_cons, fmap_app. cbn [fmap list_fmap app]. unfold q at 2 4. rewrite qn_0. f_equal; [unfold Qcdiv; ring|]. f_equal. f_equal. field. done. }
    assert (forall t, (q <$> 0 :: t ++ [mx]) !! 0 = Some 0%Qc /\ last (q <$> 0 :: t ++ [mx]) = Some 1%Qc) as ENDS.
    { intros t. rewrite <- EQ'. split; [done|]. rewrite app_assoc. apply last_snoc. }
    destruct s as [|x0 s0] eqn:ES; [|destruct (decide (x0 = 0)) as [-> |N0]].
    + (* nothing drawn *)
      cbn [filter list_filter]. rewrite EQ'. rewrite !(proj2 (Nat.ltb_ge _ _)) by (rewrite fmap_length; cbn; unfold n in LS; cbn in LS; lia). cbn [mbind outcome_bind].
      rewrite !(proj2 (Nat.ltb_ge _ _)) by (rewrite fmap_length; cbn; unfold n in LS; cbn in LS; lia).
      destruct (WH []) as [W1 W2]; [constructor|constructor|]. eexists. split; [done|]. split_and!; [rewrite fmap_length; cbn; unfold n in LS; cbn in LS; lia| |done|by apply RG|by intros _; apply ENDS].
      eapply gaps_weaken; [done|]. by apply part_gaps.
    + (* zero drawn: it is left out and a middle comes in *)
      assert (StronglySorted lt s0) as SS0 by by inversion SS. assert (Forall (fun y => 0 < y /\ y < mx) s0) as FT.
      { apply Forall_and. split; [by apply (POS 0)|]. by apply Forall_cons in SB as [_ SB]. }
      rewrite filter_cons_False by tauto. rewrite (FI s0 FT), EQ'. cbn [length] in LS. unfold n in LS.
      assert (length (q <$> 0 :: s0 ++ [mx]) = size - 1) as LQ by (rewrite fmap_length; cbn [length]; rewrite app_length; cbn [length]; lia).
      rewrite LQ. rewrite (proj2 (Nat.ltb_lt _ _)) by lia. destruct (WH s0 SS0 FT) as [W1 W2]. pose proof (part_gaps mx _ M W1) as G. fold q in G. pose proof (RG _ W2) as RR.
      destruct (ENDS s0) as [E0 E1]. destruct (q <$> 0 :: s0 ++ [mx]) as [|x [|y l]] eqn:EL; [done|exfalso; destruct s0; done|].
      cbn [fill_front mbind outcome_bind]. rewrite (proj2 (Nat.ltb_ge _ _)) by (cbn [length] in *; lia).
      pose proof (G 0 x y eq_refl eq_refl) as G0. eexists. split; [done|]. split_and!.
      * cbn [length] in *. lia.
      * apply gaps_cons; [qlra|]. apply gaps_cons; [qlra|]. eapply gaps_weaken; [done|]. intros k a b KA KB. by apply (G (S k)).
      * done.
      * apply Forall_cons in RR as [RX RR]. apply Forall_cons in RR as [RY RR]. constructor; [done|]. constructor; [|by constructor]. destruct RX, RY. split; qlra.
      * intros _. split; [done|]. by rewrite !last_cons_cons in *.
    + (* zero not drawn *)
      assert (Forall (fun y => 0 < y /\ y < mx) (x0 :: s0)) as FT.
      { apply Forall_and. split; [|done]. constructor; [lia|]. by apply (POS x0). }
      rewrite (FI _ FT), EQ'. destruct (WH _ SS FT) as [W1 W2].
      assert (length (q <$> 0 :: (x0 :: s0) ++ [mx]) = size) as LQ by (rewrite fmap_length; cbn [length]; rewrite app_length; cbn [length] in *; unfold n in LS; lia).
      rewrite LQ, Nat.ltb_irrefl. cbn [mbind outcome_bind]. rewrite LQ, Nat.ltb_irrefl. eexists. split; [done|]. split_and!; [done| |done|by apply RG|by intros _; apply ENDS].
      eapply gaps_weaken; [done|]. by apply part_gaps.
  - assert (filter (fun p => ~ (false = true /\ (p = 0 \/ p = mx))) s = s) as ->.
    { clear. induction s as [|y t IH]; [done|]. rewrite filter_cons_True by (by intros [? _]). by rewrite IH. }
    rewrite app_nil_r. cbn [app]. assert (length (q <$> s) = size) as LQ by (by rewrite fmap_length). rewrite LQ, Nat.ltb_irrefl. cbn [mbind outcome_bind]. rewrite LQ, Nat.ltb_irrefl.
    pose proof (part_gaps mx s M SS) as G. fold q in G. eexists. split; [done|]. split_and!; [done|by eapply gaps_weaken|intros _; by eapply gaps_weaken| |done].
    apply RG. eapply Forall_impl; [done|]. cbn. lia.
Qed.
End accepted.
