(** * Segments that form one closed line. *)
From Coq Require Import ZArith ZifyBool ZifyNat.
From Verif Require Import Base BaseProof ConcatModel ConcatSpec ConcatProof.
Local Open Scope nat_scope.

Lemma next_mod n k : k < n -> (k + 1) mod n = if decide (S k = n) then 0 else S k.
Proof.
  intros L. case_decide as E.
  - replace (k + 1) with n by lia. apply Nat.mod_same. lia.
  - rewrite Nat.mod_small by lia. lia.
Qed.
Lemma next_lt n k : k < n -> (k + 1) mod n < n.
Proof. intros. apply Nat.mod_upper_bound. lia. Qed.
Lemma next_inj n k j : k < n -> j < n -> (k + 1) mod n = (j + 1) mod n -> k = j.
Proof. intros K J. rewrite !next_mod by done. repeat case_decide; lia. Qed.
Lemma next_ne n k : 2 <= n -> k < n -> (k + 1) mod n <> k.
Proof. intros N2 K. rewrite next_mod by done. case_decide; lia. Qed.

Section ring.
Context (segments : list (Z * Z)) (ws : list Z) (pos : nat -> nat).
Notation n := (length ws).
Notation between := (between segments).
Notation touches := (touches segments).
Context (LS : length segments = n) (N2 : 2 <= n) (ND : NoDup ws).
Context (PB : forall i, i < n -> pos i < n) (PI : forall i j, i < n -> j < n -> pos i = pos j -> i = j) (PS : forall k, k < n -> exists i, i < n /\ pos i = k).
Context (BT : forall i, i < n -> exists u v, ws !! pos i = Some u /\ ws !! ((pos i + 1) mod n) = Some v /\ between i u v).

Lemma between_ends i u v x : between i u v -> touches i x -> x = u \/ x = v.
Proof. intros [A|A] (y & [B|B]); rewrite A in B; injection B as -> ->; tauto. Qed.
Lemma touch_pos i v : touches i v -> i < n /\ exists q, ws !! q = Some v /\ (pos i = q \/ (pos i + 1) mod n = q).
Proof.
  intros T. pose proof (touches_lt segments i v T) as L. rewrite LS in L. split; [done|]. destruct (BT i L) as (u & w & U & W & B).
  destruct (between_ends i u w v B T) as [-> | ->]; eauto.
Qed.
Lemma ring_curves : curves segments.
Proof.
  split.
  - intros i v B. assert (touches i v) as T by (by exists v). pose proof (touches_lt segments i v T) as L. rewrite LS in L.
    destruct (BT i L) as (u & w & U & W & B').
    assert (u = v /\ w = v) as [-> ->]. { destruct B as [B|B], B' as [B'|B']; rewrite B in B'; by injection B' as -> ->. }
    pose proof (NoDup_lookup _ _ _ _ ND U W) as E. by apply (next_ne n (pos i) N2 (PB i L)).
  - intros i j k v Ti Tj Tk. destruct (touch_pos i v Ti) as (Li & q & Q & Hi). destruct (touch_pos j v Tj) as (Lj & q' & Q' & Hj).
    destruct (touch_pos k v Tk) as (Lk & q'' & Q'' & Hk).
    pose proof (NoDup_lookup _ _ _ _ ND Q Q'). pose proof (NoDup_lookup _ _ _ _ ND Q Q''). subst q' q''.
    assert (forall x y, x < n -> y < n -> (pos x + 1) mod n = (pos y + 1) mod n -> x = y) as NI.
    { intros x y X Y E. apply PI; [done..|]. by apply (next_inj n) in E; [|apply PB..]. }
    destruct Hi as [Hi|Hi], Hj as [Hj|Hj], Hk as [Hk|Hk];
      first [left; apply PI; [done|done|congruence] | right; left; apply PI; [done|done|congruence] | right; right; apply PI; [done|done|congruence]
            | left; apply NI; [done|done|congruence] | right; left; apply NI; [done|done|congruence] | right; right; apply NI; [done|done|congruence]].
Qed.
Lemma touch_first i v : i < n -> ws !! pos i = Some v -> touches i v.
Proof. intros L E. destruct (BT i L) as (u & w & U & W & B). rewrite E in U. injection U as <-. by exists w. Qed.
Lemma touch_second i v : i < n -> ws !! ((pos i + 1) mod n) = Some v -> touches i v.
Proof. intros L E. destruct (BT i L) as (u & w & U & W & B). rewrite E in W. injection W as <-. exists u. by apply between_sym. Qed.
Lemma before q : q < n -> exists k, k < n /\ (k + 1) mod n = q.
Proof.
  intros Q. destruct q as [|q].
  - exists (n - 1). split; [lia|]. rewrite next_mod by lia. rewrite decide_True by lia. done.
  - exists q. split; [lia|]. rewrite next_mod by lia. rewrite decide_False by lia. done.
Qed.
Lemma ring_closed : closed_curves segments.
Proof.
  intros i v T. destruct (touch_pos i v T) as (L & q & Q & [H|H]); pose proof (lookup_lt_Some _ _ _ Q) as QL.
  - destruct (before q QL) as (k & K & E). destruct (PS k K) as (j & J & PJ). exists j. split.
    + intros ->. rewrite PJ in H. subst k. by apply (next_ne n q).
    + apply touch_second; [done|]. by rewrite PJ, E.
  - destruct (PS q QL) as (j & J & PJ). exists j. split.
    + intros ->. apply (next_ne n (pos i)); [done|by apply PB|congruence].
    + apply touch_first; [done|]. by rewrite PJ.
Qed.
Lemma ring_connected start q : ws !! q = Some start -> forall i, i < n -> connected segments start i.
Proof.
  intros Q. pose proof (lookup_lt_Some _ _ _ Q) as QL.
  assert (forall t i, i < n -> pos i = (q + t) mod n -> connected segments start i) as H.
  { induction t as [|t IH]; intros i L P.
    - rewrite Nat.add_0_r, Nat.mod_small in P by done. apply connected_here. apply touch_first; [done|]. by rewrite P.
    - destruct (PS ((q + t) mod n)) as (i' & L' & P'); [apply Nat.mod_upper_bound; lia|].
      assert ((pos i' + 1) mod n = pos i) as E. { rewrite P', P. rewrite Nat.add_mod_idemp_l by lia. f_equal. lia. }
      destruct (lookup_lt_is_Some_2 ws (pos i)) as [v V]; [by apply PB|].
      apply (connected_next segments start i' i v); [by apply IH| |by apply touch_first]. apply touch_second; [done|]. by rewrite E. }
  intros i L. apply (H (pos i + n - q) i L). replace (q + (pos i + n - q)) with (pos i + 1 * n) by lia.
  rewrite Nat.mod_add by lia. by rewrite Nat.mod_small by (by apply PB).
Qed.

Lemma leads_nth a l b : leads segments a l b -> forall k v i, l !! k = Some (v, i) -> exists w, between i v w /\
  match l !! S k with Some c => w = c.1 | None => w = b end.
Proof.
  revert a. induction l as [|[v0 i0] l IH]; intros a L k v i K; [done|]. destruct L as (-> & w & B & L). destruct k as [|k].
  - injection K as <- <-. exists w. split; [done|]. cbn. destruct l as [|[v1 i1] l]; [done|]. by destruct L as (-> & _).
  - apply (IH w L k v i K).
Qed.

Lemma ring_ok start q fuel : ws !! q = Some start -> S n * S n <= fuel ->
  exists l, MakeConcatenation fuel segments start = Ok l /\ length l = n /\ l.*1 ≡ₚ ws /\ l.*2 ≡ₚ seq 0 n /\
    (forall k v i, l !! k = Some (v, i) -> exists w j, l !! ((k + 1) mod n) = Some (w, j) /\ between i v w) /\
    ((forall v i, l !! 0 = Some (v, i) -> ws !! pos i = Some v) -> forall k v i, l !! k = Some (v, i) -> ws !! pos i = Some v) /\
    ((forall v i, l !! 0 = Some (v, i) -> ws !! pos i <> Some v) -> forall k v i w j, l !! k = Some (v, i) -> l !! ((k + 1) mod n) = Some (w, j) -> ws !! pos i = Some w).
Proof.
  intros Q FU. destruct (concatenation_ok segments start fuel) as (l & E & LG); [by rewrite LS|]. exists l. split; [done|].
  pose proof ring_curves as CV. pose proof ring_closed as CC.
  assert (forall i, i < n -> i ∈ l.*2) as ALL by (intros i L; apply (chain_all segments start CV l LG); [by right|by apply (ring_connected start q)]).
  destruct LG as (last & LD & DN & _).
  assert (forall k v i, l !! k = Some (v, i) -> i < n) as IB.
  { intros k v i K. destruct (leads_nth _ _ _ LD k v i K) as (w & B & _). rewrite <- LS. eapply touches_lt. by exists w. }
  assert (l.*2 ≡ₚ seq 0 n) as P2.
  { apply NoDup_Permutation; [done|apply NoDup_seq|]. intros i. rewrite elem_of_seq. split; [|intros; apply ALL; lia].
    intros ([v i'] & -> & I)%elem_of_list_fmap. apply elem_of_list_lookup in I as [k K]. specialize (IB k v i' K). cbn. lia. }
  assert (length l = n) as LN. { rewrite <- (fmap_length snd l), P2. apply seq_length. }
  assert (forall k v i j w, l !! k = Some (v, i) -> l !! j = Some (w, i) -> k = j) as IU.
  { intros k v i j w K J. apply (NoDup_lookup (l.*2) k j i DN); rewrite list_lookup_fmap; [by rewrite K|by rewrite J]. }
  assert (forall k v i, l !! k = Some (v, i) -> touches i v) as TF.
  { intros k v i K. destruct (leads_nth _ _ _ LD k v i K) as (w & B & _). by exists w. }
  assert (forall k v i w j, l !! k = Some (v, i) -> l !! S k = Some (w, j) -> between i v w) as BN.
  { intros k v i w j K K'. destruct (leads_nth _ _ _ LD k v i K) as (w' & B & M). rewrite K' in M. by subst w'. }
  assert (forall i v w, between i v w -> touches i w) as TS. { intros i v w B. exists v. by apply between_sym. }
  destruct CV as [NL C3].
  assert (exists i, l !! 0 = Some (start, i)) as [i0 H0].
  { destruct l as [|[v i] l]; [cbn in LN; lia|]. destruct LD as (-> & _). by exists i. }
  assert (NoDup (l.*1)) as D1.
  { apply NoDup_alt. assert (forall p q v, p < q -> (l.*1) !! p = Some v -> (l.*1) !! q = Some v -> False) as H.
    { intros p q' v PQ P' Q'. rewrite !list_lookup_fmap in P', Q'. destruct (l !! p) as [[vp ip]|] eqn:HP; [|done]. destruct (l !! q') as [[vq iq]|] eqn:HQ; [|done].
      cbn in P', Q'. injection P' as ->. injection Q' as ->. destruct q' as [|q']; [lia|].
      destruct (lookup_lt_is_Some_2 l q') as [[vr ir] HR]; [apply lookup_lt_Some in HQ; lia|].
      pose proof (BN _ _ _ _ _ HR HQ) as B. destruct (C3 ip iq ir v (TF _ _ _ HP) (TF _ _ _ HQ) (TS _ _ _ B)) as [X|[X|X]]; subst.
      - pose proof (IU _ _ _ _ _ HP HQ). lia.
      - pose proof (IU _ _ _ _ _ HQ HR). lia.
      - pose proof (IU _ _ _ _ _ HP HR) as ->. rewrite HP in HR. injection HR as <-. by apply (NL ir v). }
    intros p q' v P' Q'. destruct (lt_eq_lt_dec p q') as [[X|X]|X]; [exfalso; eauto|done|exfalso; eauto]. }
  destruct (lookup_lt_is_Some_2 l (n - 1)) as [[vz iz] HZ]; [lia|].
  assert (between iz vz last) as BZ.
  { destruct (leads_nth _ _ _ LD _ _ _ HZ) as (w & B & M). rewrite lookup_ge_None_2 in M by lia. by subst w. }
  assert (last = start) as LE.
  { destruct (CC iz last (TS _ _ _ BZ)) as (j & NJ & TJ).
    pose proof (touches_lt _ _ _ TJ) as JL. rewrite LS in JL. specialize (ALL j JL). apply elem_of_list_fmap in ALL as ([v j'] & -> & I). cbn in *.
    apply elem_of_list_lookup in I as [p HP]. assert (p < n - 1) as PL.
    { pose proof (lookup_lt_Some _ _ _ HP). assert (p <> n - 1); [|lia]. intros ->. rewrite HP in HZ. by injection HZ as <- <-. }
    destruct (lookup_lt_is_Some_2 l (S p)) as [[v1 j1] HP1]; [lia|]. pose proof (BN _ _ _ _ _ HP HP1) as B.
    destruct (between_ends _ _ _ _ B TJ) as [EV|EV].
    - destruct p as [|p]; [rewrite H0 in HP; by injection HP as -> _|]. exfalso.
      destruct (lookup_lt_is_Some_2 l p) as [[vr ir] HR]; [lia|]. pose proof (BN _ _ _ _ _ HR HP) as BR. rewrite <- EV in BR.
      destruct (C3 ir j' iz last (TS _ _ _ BR) TJ (TS _ _ _ BZ)) as [X|[X|X]]; subst.
      + pose proof (IU _ _ _ _ _ HR HP). lia.
      + done.
      + pose proof (IU _ _ _ _ _ HR HZ). lia.
    - exfalso. subst v1. destruct (decide (S p = n - 1)) as [EP|NP].
      + rewrite EP in HP1. rewrite HP1 in HZ. injection HZ as <- <-. by apply (NL j1 last).
      + destruct (C3 j' j1 iz last TJ (TF _ _ _ HP1) (TS _ _ _ BZ)) as [X|[X|X]]; subst.
        * pose proof (IU _ _ _ _ _ HP HP1). lia.
        * pose proof (IU _ _ _ _ _ HP1 HZ). lia.
        * done. }
  subst last.
  assert (forall k v i, l !! k = Some (v, i) -> exists w j, l !! ((k + 1) mod n) = Some (w, j) /\ between i v w) as NX.
  { intros k v i K. pose proof (lookup_lt_Some _ _ _ K) as KL. rewrite next_mod by lia. destruct (decide (S k = n)) as [EK|NK].
    - exists start, i0. split; [done|]. replace k with (n - 1) in K by lia. rewrite HZ in K. injection K as <- <-. done.
    - destruct (lookup_lt_is_Some_2 l (S k)) as [[w j] K']; [lia|]. exists w, j. split; [done|]. by apply (BN k v i w j). }
  split; [done|]. split.
  { apply submseteq_Permutation_length_eq; [by rewrite fmap_length|]. apply NoDup_submseteq; [done|].
    intros v ([v' i] & -> & I)%elem_of_list_fmap. apply elem_of_list_lookup in I as [k K]. destruct (touch_pos i v' (TF _ _ _ K)) as (_ & q' & Q' & _).
    by eapply elem_of_list_lookup_2. }
  split; [done|]. split; [done|].
  assert (forall k v i w j, l !! k = Some (v, i) -> l !! ((k + 1) mod n) = Some (w, j) ->
    (ws !! pos i = Some v /\ ws !! ((pos i + 1) mod n) = Some w) \/ (ws !! pos i = Some w /\ ws !! ((pos i + 1) mod n) = Some v)) as DIR.
  { intros k v i w j K K'. destruct (NX k v i K) as (w' & j' & K'' & B). rewrite K' in K''. injection K'' as <- <-.
    destruct (BT i (IB _ _ _ K)) as (u & u' & U & U' & B'). destruct B as [B|B], B' as [B'|B']; rewrite B in B'; injection B' as -> ->; tauto. }
  assert (forall k v i w j, l !! k = Some (v, i) -> l !! S k = Some (w, j) -> (ws !! pos i = Some v <-> ws !! pos j = Some w)) as STEP.
  { intros k v i w j K K'. pose proof (lookup_lt_Some _ _ _ K') as KL.
    assert (l !! ((k + 1) mod n) = Some (w, j)) as K2 by (rewrite next_mod by lia; by rewrite decide_False by lia).
    destruct (NX (S k) w j K') as (w2 & j2 & K3 & _).
    pose proof (DIR k v i w j K K2) as Di. pose proof (DIR (S k) w j w2 j2 K' K3) as Dj.
    assert (i <> j) as IJ by (intros ->; pose proof (IU _ _ _ _ _ K K'); lia).
    assert (v <> w) as VW. { intros ->. destruct (NX k w i K) as (w' & j' & K'' & B). rewrite K2 in K''. injection K'' as <- <-. by apply (NL i w). }
    assert (w <> w2) as WW. { intros <-. destruct (NX (S k) w j K') as (w' & j' & K'' & B). rewrite K3 in K''. injection K'' as <- <-. by apply (NL j w). }
    pose proof (IB _ _ _ K) as IL. pose proof (IB _ _ _ K') as JL. split; intros H.
    - destruct Dj as [[? _]|[Dj1 Dj2]]; [done|]. exfalso. destruct Di as [[_ Di2]|[Di1 _]]; [|congruence].
      apply IJ. apply PI; [done..|]. apply (next_inj n); [by apply PB..|]. by apply (NoDup_lookup ws _ _ w ND).
    - destruct Di as [[? _]|[Di1 Di2]]; [done|]. exfalso. apply IJ. apply PI; [done..|]. by apply (NoDup_lookup ws _ _ w ND). }
  assert (forall k v i, l !! k = Some (v, i) -> (ws !! pos i = Some v <-> ws !! pos i0 = Some start)) as SAME.
  { induction k as [|k IH]; intros v i K; [rewrite H0 in K; by injection K as <- <-|].
    destruct (lookup_lt_is_Some_2 l k) as [[vr ir] HR]; [apply lookup_lt_Some in K; lia|]. rewrite <- (STEP k vr ir v i HR K). by apply IH. }
  split.
  - intros H k v i K. apply (SAME k v i K). by apply H.
  - intros H k v i w j K K'. destruct (DIR k v i w j K K') as [[D _]|[D _]]; [|done]. exfalso. apply (H start i0 H0). by apply (SAME k v i K).
Qed.
End ring.
