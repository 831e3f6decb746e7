(** * First ancestors of polygons: proofs. *)
From Coq Require Import QArith Qcanon.
From Coq Require Import ZifyBool ZifyNat ZifyN.
From Verif Require Import Base BaseProof FillModel GeoModel MapModel PointModel PolyModel HullModel CsrModel
  MeshModel MeshSpec MeshRep MeshHist MeshProof MeshProof8 MeshProof9 MeshProofB MeshProg RefineModel MarkModel MarkSpec.
Local Open Scope nat_scope.

Section roots.
Context (m : mesh) (RM : reachable m).

Lemma made_lt c b : made_from m c b -> c < num D2 m /\ b < num D2 m.
Proof.
  intros [E L]. split; [|done]. unfold Original in E. destruct (c <? num D2 m) eqn:H; [lia|]. cbn in E. done.
Qed.
Lemma made_unique c b b' : made_from m c b -> made_from m c b' -> b = b'.
Proof. intros [E _] [E' _]. rewrite E in E'. injection E' as E'. lia. Qed.

Lemma has_original c : c < num D2 m ->
  (exists b, HasOriginal D2 c m = Ok true /\ Original D2 c m = Ok (N.of_nat b) /\ made_from m c b) \/
  (HasOriginal D2 c m = Ok false /\ forall b, ~ made_from m c b).
Proof.
  intros L. destruct (reachable_rep m RM) as [a R]. unfold made_from.
  rewrite (g_hasoriginal _ _ R) by done. rewrite (g_original _ _ R) by done. rewrite (g_num _ _ R) in *. unfold look.
  destruct (lookup_lt_is_Some_2 (am_cells a D2) c L) as [x X]. rewrite X.
  destruct (ac_orig x <? N.of_nat (anum D2 a))%N eqn:O.
  - left. exists (N.to_nat (ac_orig x)). split_and!; [done|f_equal; lia|f_equal; lia|lia].
  - right. split; [done|]. intros b ([= E] & Lb). lia.
Qed.

Lemma root_sound fuel c r : c < num D2 m -> root_of fuel c m = Ok r -> first_ancestor m c r.
Proof.
  revert c. induction fuel as [|fuel IH]; intros c L E; [done|]. cbn [root_of] in E.
  destruct (has_original c L) as [(b & H & O & M)|[H M]]; rewrite H in E; cbn [mbind outcome_bind] in E.
  - rewrite O in E. cbn [mbind outcome_bind] in E. rewrite Nat2N.id in E. apply IH in E; [|by apply (made_lt c)].
    destruct E as [E1 E2]. split; [|done]. by eapply rtc_l.
  - injection E as <-. split; [done|]. done.
Qed.

Lemma root_more fuel c : c < num D2 m -> (exists r, root_of fuel c m = Ok r) \/ (root_of fuel c m = OutOfFuel /\ exists b, nsteps (made_from m) fuel c b).
Proof.
  revert c. induction fuel as [|fuel IH]; intros c L; [right; split; [done|exists c; constructor]|]. cbn [root_of].
  destruct (has_original c L) as [(b & H & O & M)|[H M]]; rewrite H; cbn [mbind outcome_bind]; [|left; by exists c].
  rewrite O. cbn [mbind outcome_bind]. rewrite Nat2N.id. destruct (IH b) as [E|[E (d & D)]]; [by apply (made_lt c)|by left|].
  right. split; [done|]. exists d. by econstructor.
Qed.

(** A long enough walk meets a polygon twice. *)
Lemma walk_list n c b : nsteps (made_from m) n c b -> exists l, length l = S n /\ l !! 0 = Some c /\
  (forall i x y, l !! i = Some x -> l !! S i = Some y -> made_from m x y).
Proof.
  induction 1 as [c|n c d b M H IH].
  { exists [c]. split_and!; [done|done|]. intros [|i] x y X Y; done. }
  destruct IH as (l & L & H0 & HS). exists (c :: l). split_and!; [cbn; lia|done|].
  intros [|i] x y X Y; cbn in X, Y; [|by apply (HS i)]. injection X as <-. change (l !! 0 = Some y) in Y. rewrite H0 in Y. by injection Y as <-.
Qed.
Lemma walk_steps (l : list nat) : (forall i x y, l !! i = Some x -> l !! S i = Some y -> made_from m x y) ->
  forall k i x y, l !! i = Some x -> l !! (i + S k) = Some y -> tc (made_from m) x y.
Proof.
  intros HS. induction k as [|k IH]; intros i x y X Y.
  - apply tc_once. apply (HS i); [done|]. by replace (S i) with (i + 1) by lia.
  - destruct (lookup_lt_is_Some_2 l (S i)) as [z Z]. { apply lookup_lt_Some in Y. lia. }
    eapply tc_l; [by eapply HS|]. apply (IH (S i)); [done|]. by replace (S i + S k) with (i + S (S k)) by lia.
Qed.
Lemma walk_cycle n c b : num D2 m < n -> nsteps (made_from m) n c b -> own_ancestor m.
Proof.
  intros N (l & L & _ & HS)%walk_list.
  assert (~ NoDup l) as D.
  { intros ND. assert (Forall (fun x => x < num D2 m) (take n l)) as B.
    { apply Forall_lookup. intros i x X. apply lookup_take_Some in X as [X I].
      destruct (lookup_lt_is_Some_2 l (S i)) as [y Y]; [lia|]. by destruct (made_lt x y (HS _ _ _ X Y)). }
    assert (NoDup (take n l)) as NT. { rewrite <- (take_drop n l) in ND. by apply NoDup_app in ND as (? & _). }
    assert (length (take n l) <= length (seq 0 (num D2 m))) as C.
    { apply submseteq_length, NoDup_submseteq; [done|]. intros x X. rewrite Forall_forall in B. apply elem_of_seq. specialize (B x X). lia. }
    rewrite seq_length, take_length in C. lia. }
  assert (exists i j x, i < j /\ l !! i = Some x /\ l !! j = Some x) as (i & j & x & I & X & Y).
  { clear - D. induction l as [|x l IH]; [destruct D; constructor|].
    destruct (decide (x ∈ l)) as [E|E].
    - apply elem_of_list_lookup in E as [i E]. exists 0, (S i), x. split_and!; [lia|done|done].
    - destruct IH as (i & j & y & ? & ? & ?); [intros ND; apply D; by constructor|]. exists (S i), (S j), y. split_and!; [lia|done|done]. }
  exists x. apply (walk_steps l HS (j - i - 1) i); [done|]. by replace (i + S (j - i - 1)) with j by lia.
Qed.

Lemma roots_ok : ~ own_ancestor m -> exists rs, MeshCell2DRoots (num D2 m + 2) m = Ok rs /\
  length rs = num D2 m /\ forall c r, c < num D2 m -> rs !! c = Some r <-> first_ancestor m c r.
Proof.
  intros NC.
  assert (forall c, c < num D2 m -> exists r, root_of (num D2 m + 2) c m = Ok r /\ first_ancestor m c r) as H.
  { intros c L. destruct (root_more (num D2 m + 2) c L) as [[r E]|[_ (b & B)]].
    - exists r. split; [done|]. by eapply root_sound.
    - destruct NC. apply (walk_cycle (num D2 m + 2) c b); [lia|done]. }
  assert (forall c r r', first_ancestor m c r -> first_ancestor m c r' -> r = r') as U.
  { intros c r r' [S1 E1] [S2 E2]. revert S2. induction S1 as [c|c d r M S1 IH]; intros S2.
    - inversion S2 as [|? d ? M ?]; [done|]. exfalso. by apply (E1 d).
    - inversion S2 as [|? d' ? M' S2']; subst; [exfalso; by apply (E2 d)|]. rewrite (made_unique c d' d M' M) in S2'. by apply IH. }
  unfold MeshCell2DRoots.
  assert (exists rs, omapM (fun c => root_of (num D2 m + 2) c m) (seq 0 (num D2 m)) = Ok rs /\ Forall2 (fun c r => first_ancestor m c r) (seq 0 (num D2 m)) rs) as (rs & E & F).
  { assert (Forall (fun c => c < num D2 m) (seq 0 (num D2 m))) as B.
    { apply Forall_forall. intros c C%elem_of_seq. lia. }
    induction B as [|c l C B IH]; [by exists []|]. destruct (H c C) as (r & E & R). destruct IH as (rs & E' & F).
    exists (r :: rs). cbn [omapM]. rewrite E. cbn [mbind outcome_bind]. rewrite E'. cbn [mbind outcome_bind]. split; [done|by constructor]. }
  exists rs. split; [done|]. pose proof (Forall2_length _ _ _ F) as LL. rewrite seq_length in LL. split; [done|].
  intros c r L. destruct (lookup_lt_is_Some_2 rs c) as [s S]; [lia|]. rewrite S.
  assert (first_ancestor m c s) as FS. { eapply (Forall2_lookup_lr _ _ _ c); [exact F| |done]. by rewrite lookup_seq_lt. }
  split; [by intros [= ->]|]. intros FR. f_equal. by eapply U.
Qed.

Lemma cycle_never c fuel : tc (made_from m) c c -> root_of fuel c m = OutOfFuel.
Proof.
  intros T. assert (forall d, rtc (made_from m) c d -> tc (made_from m) d d) as ALL.
  { intros d D. clear -D T. induction D as [c|c e d M D IH]; [done|]. apply IH. clear IH D d.
    inversion T as [? ? M'|? e' ? M' T']; subst.
    - pose proof (made_unique _ _ _ M' M) as ->. by apply tc_once.
    - rewrite (made_unique _ _ _ M' M) in T'. eapply tc_rtc_l; [by apply tc_rtc|by apply tc_once]. }
  clear T. assert (rtc (made_from m) c c) as D by done. revert D. generalize c at 2 3. induction fuel as [|fuel IH]; intros d D; [done|].
  cbn [root_of]. pose proof (ALL d D) as T.
  assert (exists e, made_from m d e) as [e M] by (inversion T; subst; eauto).
  destruct (has_original d) as [(b & H & O & M')|[H NM]]; [by apply (made_lt d e)| |by destruct (NM e)].
  rewrite H. cbn [mbind outcome_bind]. rewrite O. cbn [mbind outcome_bind]. rewrite Nat2N.id. apply IH. by eapply rtc_r.
Qed.

Lemma roots_never fuel : own_ancestor m -> MeshCell2DRoots fuel m = OutOfFuel.
Proof.
  intros [c T]. unfold MeshCell2DRoots.
  assert (c < num D2 m) as L by (inversion T as [? ? M|? ? ? M ?]; subst; destruct (made_lt _ _ M); done).
  assert (c ∈ seq 0 (num D2 m)) as I by (apply elem_of_seq; lia).
  assert (Forall (fun c => c < num D2 m) (seq 0 (num D2 m))) as B. { apply Forall_forall. intros d D%elem_of_seq. lia. }
  induction B as [|d l D B IH]; [by apply elem_of_nil in I|]. cbn [omapM].
  destruct (decide (d = c)) as [-> | N]; [by rewrite (cycle_never c fuel T)|].
  destruct (root_more fuel d D) as [[r ->]|[-> _]]; [|done]. cbn [mbind outcome_bind].
  apply elem_of_cons in I as [-> | I]; [done|]. by rewrite (IH I).
Qed.

Lemma growing_roots : (forall c b, made_from m c b -> b < c) -> ~ own_ancestor m.
Proof.
  intros G [c T]. assert (forall x y, tc (made_from m) x y -> y < x) as K.
  { induction 1 as [x y M|x y z M T' IH]; [by apply G|]. apply G in M. lia. }
  apply K in T. lia.
Qed.
End roots.
