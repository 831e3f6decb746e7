(** Chains of segments. *)
From Coq Require Import ZArith.
From Verif Require Import Base BaseProof ConcatModel ConcatSpec.
From Coq Require Import ZifyBool ZifyNat.

Section segments.
Context (segments : list (Z * Z)) (start : Z).
Notation n := (length segments).
Notation between := (between segments).
Notation touches := (touches segments).
Notation leads := (leads segments).

Lemma leads_app a l b k c : leads a l b -> leads b k c -> leads a (l ++ k) c.
Proof.
  revert a. induction l as [|[v i] l IH]; intros a; cbn; [by intros ->|]. intros (-> & w & B & L) K. split; [done|]. exists w. eauto.
Qed.
Lemma leads_split a l k c : leads a (l ++ k) c -> exists b, leads a l b /\ leads b k c.
Proof.
  revert a. induction l as [|[v i] l IH]; intros a; cbn; [intros H; by exists a|]. intros (-> & w & B & L).
  destruct (IH w L) as (b & ? & ?). exists b. eauto.
Qed.
Lemma touches_lt i v : touches i v -> i < n.
Proof. intros (w & [E|E]); by apply lookup_lt_Some in E. Qed.
Lemma between_sym i v w : between i v w -> between i w v.
Proof. intros [E|E]; [right|left]; done. Qed.

(** ** The loop *)
Record inv (s : chain_state) : Prop := {
  i_leads : leads start (cs_out s) (cs_next s);
  i_nodup : NoDup ((cs_out s).*2);
  i_len : length (cs_taken s) = n;
  i_flags : forall i, cs_taken s !! i = Some true <-> i ∈ (cs_out s).*2;
  i_visited : cs_visited s <= n;
  i_seen : exists base, cs_index s = (base + cs_visited s) mod n /\
    forall j, j < cs_visited s -> touches ((base + j) mod n) (cs_next s) -> (base + j) mod n ∈ (cs_out s).*2
}.

Definition measure (s : chain_state) : nat := (n - length (cs_out s)) * S n + (n - cs_visited s).

Lemma out_bound s : inv s -> length (cs_out s) <= n.
Proof.
  intros I. destruct I as [_ D L F _ _]. rewrite <- (fmap_length snd). rewrite <- (seq_length n 0).
  apply submseteq_length, NoDup_submseteq; [done|]. intros i Hi. apply F, lookup_lt_Some in Hi. apply elem_of_seq. lia.
Qed.

Lemma take_ok s (i : nat) w : n <> 0 -> inv s -> cs_index s = i -> length (cs_out s) < n -> cs_taken s !! i = Some false -> between i (cs_next s) w ->
  exists s', (k ← vset (cs_taken s) i true; Ok (ChainState (cs_out s ++ [(cs_next s, i)]) k w 1 ((i + 1) mod n))) = Ok s' /\
    inv s' /\ measure s' < measure s.
Proof.
  intros N0 I Hi Ho T B. pose proof (lookup_lt_Some _ _ _ T) as Lt. unfold vset. rewrite decide_True by done. cbn [mbind outcome_bind].
  eexists. split; [reflexivity|]. pose proof I as [L D Len F V _].
  assert (NI : i ∉ (cs_out s).*2) by (intros M; apply F in M; congruence). split.
  - split; cbn [cs_out cs_taken cs_next cs_visited cs_index].
    + eapply leads_app; [exact L|]. cbn. split; [done|]. by exists w.
    + rewrite fmap_app. apply NoDup_app. split; [done|]. split; [|cbn; apply NoDup_singleton]. cbn. intros x Hx Hy%elem_of_list_singleton. by subst.
    + by rewrite insert_length.
    + intros j. rewrite fmap_app, elem_of_app. cbn. rewrite elem_of_list_singleton. destruct (decide (j = i)) as [->|Hj].
      * rewrite list_lookup_insert by done. tauto.
      * rewrite list_lookup_insert_ne by done. rewrite F. tauto.
    + lia.
    + exists i. split; [done|]. intros j Hj _. assert (j = 0) as -> by lia. rewrite Nat.add_0_r, Nat.mod_small by lia.
      rewrite fmap_app, elem_of_app. right. cbn. by left.
  - unfold measure. cbn [cs_out cs_visited]. rewrite app_length. cbn [length]. nia.
Qed.

Lemma pass_ok s : n <> 0 -> inv s -> cs_visited s < n -> (touches (cs_index s) (cs_next s) -> cs_index s ∈ (cs_out s).*2) ->
  inv (ChainState (cs_out s) (cs_taken s) (cs_next s) (cs_visited s + 1) ((cs_index s + 1) mod n)) /\
  measure (ChainState (cs_out s) (cs_taken s) (cs_next s) (cs_visited s + 1) ((cs_index s + 1) mod n)) < measure s.
Proof.
  intros N0 [L D Len F V (base & Hb & Hs)] Hv Ht. split.
  - split; cbn [cs_out cs_taken cs_next cs_visited cs_index]; try done; [lia|]. exists base. split.
    + rewrite Hb, Nat.add_mod_idemp_l by done. f_equal. lia.
    + intros j Hj. destruct (decide (j = cs_visited s)) as [->|]; [by rewrite <- Hb|]. apply Hs. lia.
  - unfold measure. cbn [cs_out cs_visited]. lia.
Qed.

Lemma step_ok s : n <> 0 -> inv s -> cs_visited s < n -> length (cs_out s) < n ->
  exists s', chain_step segments s = Ok s' /\ inv s' /\ measure s' < measure s.
Proof.
  intros N0 I Hv Ho. pose proof I as [L D Len F V (base & Hb & Hs)].
  assert (Hi : cs_index s < n) by (rewrite Hb; by apply Nat.mod_upper_bound).
  destruct (lookup_lt_is_Some_2 (cs_taken s) (cs_index s) ltac:(lia)) as [t Ht].
  destruct (lookup_lt_is_Some_2 segments (cs_index s) Hi) as [[x y] Hg].
  unfold chain_step. rewrite (vget_Ok _ _ _ Ht). cbn [mbind outcome_bind]. destruct t.
  - eexists. split; [reflexivity|]. apply pass_ok; try done. intros _. by apply F.
  - rewrite (vget_Ok _ _ _ Hg). cbn [mbind outcome_bind fst snd].
    destruct (Z.eqb_spec x (cs_next s)) as [->|N1]; [apply (take_ok s _ y); try done; by left|].
    destruct (Z.eqb_spec y (cs_next s)) as [->|N2]; [apply (take_ok s _ x); try done; by right|].
    eexists. split; [reflexivity|]. apply pass_ok; try done. intros (w & [E|E]); rewrite Hg in E; congruence.
Qed.

Lemma loop_ok fuel s : n <> 0 -> inv s -> measure s < fuel ->
  exists s', chain_loop fuel segments s = Ok s' /\ inv s' /\ (cs_visited s' = n \/ length (cs_out s') = n).
Proof.
  intros N0. revert s. induction fuel as [|fuel IH]; intros s I M; [lia|]. cbn [chain_loop].
  pose proof (i_visited s I) as V. pose proof (out_bound s I) as O.
  destruct (Nat.ltb_spec (cs_visited s) n) as [Hv|Hv]; cbn [andb]; [|exists s; split; [done|]; split; [done|]; left; lia].
  destruct (Nat.ltb_spec (length (cs_out s)) n) as [Ho|Ho]; [|exists s; split; [done|]; split; [done|]; right; lia].
  destruct (step_ok s N0 I Hv Ho) as (s1 & E & I1 & M1). rewrite E. cbn [mbind outcome_bind]. apply IH; [done|lia].
Qed.

Lemma inv_start : n <> 0 -> inv (ChainState [] (replicate n false) start 0 0).
Proof.
  intros N0. split; cbn [cs_out cs_taken cs_next cs_visited cs_index]; try done.
  - constructor.
  - by rewrite replicate_length.
  - intros i. split; [|by intros ?%elem_of_nil]. intros [H _]%lookup_replicate. done.
  - lia.
  - exists 0. split; [by rewrite Nat.mod_small by lia|]. intros j Hj. lia.
Qed.

Lemma concatenation_ok fuel : S n * S n <= fuel -> exists l, MakeConcatenation fuel segments start = Ok l /\ longest segments start l.
Proof.
  intros Hf. destruct (decide (n = 0)) as [N0|N0].
  { destruct segments as [|? ?] eqn:E; [|done]. exists []. split; [done|]. exists start. split; [done|]. split; [constructor|].
    intros i (w & [H|H]); done. }
  destruct (loop_ok fuel _ N0 (inv_start N0)) as (s & E & I & Hend); [unfold measure; cbn; nia|].
  exists (cs_out s). split.
  { unfold MakeConcatenation. destruct segments; [done|]. by rewrite E. }
  exists (cs_next s). pose proof I as [L D Len F V (base & Hb & Hs)]. split; [done|]. split; [done|]. intros i Ht.
  pose proof (touches_lt _ _ Ht) as Hi. destruct Hend as [Hv|Ho].
  - set (j := (i + (n - base mod n)) mod n).
    assert (Hj : (base + j) mod n = i).
    { unfold j. rewrite Nat.add_mod_idemp_r by done. pose proof (Nat.div_mod base n N0) as Q. pose proof (Nat.mod_upper_bound base n N0) as U.
      replace (base + (i + (n - base mod n))) with (i + (base / n + 1) * n) by nia. rewrite Nat.mod_add by done. by apply Nat.mod_small. }
    rewrite <- Hj in Ht |- *. apply Hs; [|done]. rewrite Hv. unfold j. by apply Nat.mod_upper_bound.
  - assert (P : (cs_out s).*2 ≡ₚ seq 0 n).
    { apply submseteq_Permutation_length_eq; [by rewrite fmap_length, seq_length|]. apply NoDup_submseteq; [done|].
      intros k Hk. apply F, lookup_lt_Some in Hk. apply elem_of_seq. lia. }
    rewrite P. apply elem_of_seq. lia.
Qed.

(** ** Curves *)
Lemma in_chain l last i : leads start l last -> i ∈ l.*2 -> exists l1 v w l2,
  l = l1 ++ (v, i) :: l2 /\ leads start l1 v /\ between i v w /\ leads w l2 last.
Proof.
  intros L M. apply elem_of_list_fmap in M as ([v i'] & -> & M). cbn. apply elem_of_list_split in M as (l1 & l2 & ->).
  apply leads_split in L as (b & L1 & (<- & w & B & L2)). by exists l1, v, w, l2.
Qed.
Lemma chain_last a l b : leads a l b -> l <> [] -> exists k v i, l = k ++ [(v, i)] /\ between i v b.
Proof.
  intros L N. destruct (exists_last N) as (k & [v i] & ->). apply leads_split in L as (c & _ & (-> & w & B & ->)). by exists k, c, i.
Qed.

Hypothesis C : curves segments.

Lemma chain_closed l last i j x : leads start l last -> NoDup (l.*2) -> (forall i, touches i last -> i ∈ l.*2) ->
  (first_vertex segments start \/ closed_curves segments) -> i ∈ l.*2 -> touches i x -> touches j x -> j ∈ l.*2.
Proof.
  intros L D Mx S Hi Ti Tj. destruct C as [NL C3]. pose proof (in_chain l last i L Hi) as (l1 & v & w & l2 & El & L1 & B & L2).
  assert (Two : forall a b, a <> b -> a ∈ l.*2 -> b ∈ l.*2 -> touches a x -> touches b x -> j ∈ l.*2).
  { intros a b Hab Ha Hb Ta Tb. destruct (C3 a b j x Ta Tb Tj) as [?|[<-| <-]]; done. }
  assert (Hx : x = v \/ x = w).
  { destruct Ti as (y & [E|E]), B as [E'|E']; rewrite E in E'; injection E'; intros; subst; tauto. }
  pose proof D as D'. rewrite El, fmap_app in D. cbn in D. apply NoDup_app in D as (D1 & D2 & D3). apply NoDup_cons in D3 as [D3 D4].
  destruct Hx as [->| ->].
  - (* the vertex where the segment is entered *)
    destruct (decide (l1 = [])) as [->|N1].
    + cbn in L1. subst v. destruct S as [Sf|Sc]; [by rewrite (Sf j i Tj Ti)|].
      destruct (decide (last = start)) as [->|Ne]; [by apply Mx|]. exfalso.
      assert (Nl : l <> []) by (rewrite El; done). destruct (chain_last start l last L Nl) as (k & u & s & Ek & Bs).
      assert (Ts : touches s last) by (exists u; by apply between_sym). destruct (Sc s last Ts) as (j' & Hj' & Tj').
      pose proof (Mx j' Tj') as Mj. pose proof (in_chain l last j' L Mj) as (m1 & p & q & m2 & Em & K1 & Bp & K2).
      rewrite Em, fmap_app in D'. cbn in D'. apply NoDup_app in D' as (E1 & E2 & E3). apply NoDup_cons in E3 as [E3 E4].
      assert (Hm2 : m2 <> []).
      { intros ->. rewrite Em in Ek. apply app_inj_tail in Ek as [_ [= _ ->]]. done. }
      assert (Ms : s ∈ m2.*2).
      { destruct (exists_last Hm2) as (m3 & [u' s'] & ->). rewrite Em, app_comm_cons, app_assoc in Ek. apply app_inj_tail in Ek as [_ [= -> ->]].
        rewrite fmap_app. apply elem_of_app. right. by left. }
      assert (Hp : last = p \/ last = q).
      { destruct Tj' as (y & [E|E]), Bp as [E'|E']; rewrite E in E'; injection E'; intros; subst; tauto. }
      destruct Hp as [->|Hq].
      * destruct (decide (m1 = [])) as [->|Nm]; [cbn in K1; done|].
        destruct (chain_last start m1 p K1 Nm) as (k1 & u1 & s1 & -> & Bs1).
        assert (M1 : s1 ∈ (k1 ++ [(u1, s1)]).*2) by (rewrite fmap_app; apply elem_of_app; right; by left).
        assert (T1 : touches s1 p) by (exists u1; by apply between_sym).
        destruct (C3 s1 j' s p T1 Tj' Ts) as [->|[->| ->]]; [|done|].
        -- apply (E2 j' M1). by left.
        -- apply (E2 s M1). by right.
      * subst q. destruct m2 as [|[q1 s1] m2]; [done|]. cbn in K2. destruct K2 as (-> & z & Bz & K2).
        assert (T1 : touches s1 last) by (by exists z). cbn in E3, E4, Ms. apply NoDup_cons in E4 as [E4 _].
        destruct (C3 j' s1 s last Tj' T1 Ts) as [->|[->| ->]]; [apply E3; by left| |done].
        destruct m2 as [|[q2 s2] m2].
        -- cbn in K2. subst z. by apply (NL s last).
        -- assert (Hs : s ∈ ((q2, s2) :: m2).*2); [|done]. destruct (exists_last (l := (q2, s2) :: m2) ltac:(done)) as (m3 & [u' s'] & Em3).
           rewrite Em3 in Em |- *. rewrite Em in Ek. rewrite 2!app_comm_cons, app_assoc in Ek. apply app_inj_tail in Ek as [_ [= -> ->]].
           rewrite fmap_app. apply elem_of_app. right. by left.
    + destruct (chain_last start l1 v L1 N1) as (k & u & s & -> & Bs).
      assert (M1 : s ∈ (k ++ [(u, s)]).*2) by (rewrite fmap_app; apply elem_of_app; right; by left).
      apply (Two s i); [|rewrite El, fmap_app; apply elem_of_app; by left|done|exists u; by apply between_sym|done].
      intros ->. apply (D2 i M1). by left.
  - (* the vertex where it is left *)
    destruct l2 as [|[q s] l2]; [cbn in L2; subst w; by apply Mx|]. cbn in L2. destruct L2 as (-> & z & Bz & _).
    apply (Two i s); [|done| |done|by exists z].
    + intros ->. apply D3. by left.
    + rewrite El, fmap_app. apply elem_of_app. right. right. by left.
Qed.

Lemma chain_all l : longest segments start l -> (first_vertex segments start \/ closed_curves segments) ->
  forall i, connected segments start i -> i ∈ l.*2.
Proof.
  intros (last & L & D & Mx) S i H. induction H as [i T|i j v H IH Ti Tj].
  - destruct l as [|[v k] l]; [cbn in L; subst; by apply Mx|]. pose proof L as (-> & w & B & _).
    apply (chain_closed _ last k i start L D Mx S); [by left|by exists w|done].
  - by apply (chain_closed _ last i j v L D Mx S).
Qed.
End segments.
