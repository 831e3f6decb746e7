(** Union of two meshes of a segment. *)
From Coq Require Import Sorted.
From Verif Require Import Base BaseProof GeoModel GeoProof UnionModel UnionSpec.
From Coq Require Import Lqa.
Local Open Scope nat_scope.

(** Keys in increasing order, more than [d] apart. *)
Definition apart (d : Qc) (m : upoints) : Prop := StronglySorted (fun p q => (p.1 + d < q.1)%Qc) m.

Section union.
Context (g : geo_config).
Notation T := (same_distance g).

Lemma T_nonneg : (0 <= T)%Qc.
Proof. apply (used_tolerance_nonneg g (Tolerance1D g)). Qed.

Lemma near_test x c : negb (IsValuePositive g (qabs (x - c)) (Tolerance1D g)) = true <-> near g x c.
Proof.
  rewrite negb_true_iff, <- not_true_iff_false, positive_spec. unfold near.
  change (used_tolerance g (Tolerance1D g)) with T. set (t := T). split; intros H; [|intros H']; qlra.
Qed.

Lemma apart_app d m1 m2 : apart d (m1 ++ m2) <->
  apart d m1 /\ apart d m2 /\ forall p q, p ∈ m1 -> q ∈ m2 -> (p.1 + d < q.1)%Qc.
Proof.
  unfold apart. induction m1 as [|p m1 IH]; cbn.
  - split; [|tauto]. intros H. split_and!; [constructor|done|]. intros p q Hp. by apply elem_of_nil in Hp.
  - split.
    + intros H. apply StronglySorted_inv in H as [H1 H2]. apply IH in H1 as (A & B & C). rewrite Forall_app in H2. destruct H2 as [H2 H3].
      split_and!; [by constructor|done|]. intros p' q [->|Hp]%elem_of_cons Hq; [|by apply C]. rewrite Forall_forall in H3. by apply H3.
    + intros (A & B & C). apply StronglySorted_inv in A as [A1 A2]. constructor.
      * apply IH. split_and!; try done. intros p' q Hp Hq. apply C; [by right|done].
      * rewrite Forall_app. split; [done|]. apply Forall_forall. intros q Hq. apply C; [left|done].
Qed.

Lemma apart_one d p : apart d [p].
Proof. repeat constructor. Qed.

Lemma apart_cons d p m : apart d (p :: m) <-> apart d m /\ forall q, q ∈ m -> (p.1 + d < q.1)%Qc.
Proof.
  unfold apart. split.
  - intros H. apply StronglySorted_inv in H as [H1 H2]. rewrite Forall_forall in H2. done.
  - intros [H1 H2]. constructor; [done|]. by apply Forall_forall.
Qed.

Lemma insert_split c x m : apart T m -> (forall p, p ∈ m -> ~ near g p.1 c) ->
  exists m1 m2, m = m1 ++ m2 /\ map_insert c x m = m1 ++ (c, x) :: m2 /\ apart T (m1 ++ (c, x) :: m2).
Proof.
  pose proof T_nonneg as HT. induction m as [|[k y] m IH]; intros Hs Hn; cbn [map_insert].
  - exists [], []. split_and!; try done. apply apart_one.
  - apply apart_cons in Hs as [Hs Hk]. pose proof (Hn (k, y) ltac:(left)) as Hky. cbn in Hky. unfold near in Hky.
    destruct (qlt_spec c k) as [H1|H1].
    + exists [], ((k, y) :: m). split_and!; try done. cbn. apply apart_cons. split; [by apply apart_cons|].
      assert (Hck : (c + T < k)%Qc) by (qcases; qlra).
      intros q [->|Hq]%elem_of_cons; cbn; [done|]. specialize (Hk q Hq). cbn in Hk. qlra.
    + destruct (qlt_spec k c) as [H2|H2].
      2:{ exfalso. qcases; qlra. }
      destruct IH as (m1 & m2 & -> & -> & Ha); [done|intros p Hp; apply Hn; by right|].
      exists ((k, y) :: m1), m2. split_and!; try done. cbn. apply apart_cons. split; [done|].
      assert (Hck : (k + T < c)%Qc) by (qcases; qlra).
      intros q [Hq|[->|Hq]%elem_of_cons]%elem_of_app; cbn; try done; apply Hk; apply elem_of_app; tauto.
Qed.

Lemma update_split k f m : apart T m -> k ∈ m.*1 ->
  exists m1 x m2, m = m1 ++ (k, x) :: m2 /\ map_update k f m = (x' ← f x; Ok (m1 ++ (k, x') :: m2)).
Proof.
  pose proof T_nonneg as HT. induction m as [|[k' y] m IH]; intros Hs Hk; [by apply elem_of_nil in Hk|].
  cbn [map_update]. destruct (qeq_spec k k') as [->|Hne].
  - by exists [], y, m.
  - apply apart_cons in Hs as [Hs _]. cbn in Hk. apply elem_of_cons in Hk as [Hk|Hk]; [done|].
    destruct (IH Hs Hk) as (m1 & x & m2 & -> & ->). exists ((k', y) :: m1), x, m2. split; [done|].
    by destruct (f x).
Qed.

(** Which key a point is attached to. *)
Lemma insert_new c m : minus_one ∉ m.*1 ->
  (exists k, InsertNewIntersection g c m = (m, k, true) /\ k ∈ m.*1 /\ near g k c) \/
  (InsertNewIntersection g c m = (map_insert c (UPoint UUnknown []) m, c, false) /\ forall p, p ∈ m -> ~ near g p.1 c).
Proof.
  intros Hm. unfold InsertNewIntersection. destruct (List.find _ m) as [p|] eqn:E.
  - apply find_some in E as [Hp%elem_of_list_In Hn]. apply near_test in Hn.
    assert (Hk : p.1 ∈ m.*1) by (apply elem_of_list_fmap; by exists p).
    destruct (qeq_spec p.1 minus_one) as [E|Hne]; [rewrite E in Hk; done|]. left. by exists p.1.
  - destruct (qeq_spec minus_one minus_one) as [_|?]; [|done]. right. split; [done|]. intros p Hp Hn.
    apply near_test in Hn. apply elem_of_list_In in Hp. pose proof (find_none _ _ E p Hp) as H. cbn in H. congruence.
Qed.

(** ** Keys, for any two lists of points *)

Definition shaped (m : upoints) : Prop := forall p, p ∈ m -> length (up_indices p.2) = 2.

Lemma step_keys (second : bool) m i c : minus_one ∉ m.*1 -> c <> minus_one -> apart T m -> shaped m ->
  exists m', (if second then add_second g else add_first g) m (i, c) = Ok m' /\ apart T m' /\ shaped m' /\
    (forall k, k ∈ m'.*1 -> k ∈ m.*1 \/ k = c) /\ (forall k, k ∈ m.*1 -> k ∈ m'.*1) /\ exists k, k ∈ m'.*1 /\ near g k c.
Proof.
  intros Hm Hc Ha Hs.
  set (F := fun (found : bool) x => if second then if found then v ← vset (up_indices x) 1 i; Ok (UPoint UBoth v)
                         else v ← vset (vresize (up_indices x) 2 0) 1 i; Ok (UPoint USecond v)
                      else v ← vset (vresize (up_indices x) 2 0) 0 i; Ok (UPoint UFirst v)).
  assert (E : (if second then add_second g else add_first g) m (i, c) =
    let '(m1, k, found) := InsertNewIntersection g c m in map_update k (F found) m1).
  { unfold F. destruct second; [unfold add_second|unfold add_first]; cbn [fst snd]; by destruct (InsertNewIntersection g c m) as [[? ?] ?]. }
  rewrite E. clear E.
  assert (HF : forall found x, (found = true -> length (up_indices x) = 2) -> length (up_indices x) = 2 \/ up_indices x = [] ->
            exists x', F found x = Ok x' /\ length (up_indices x') = 2).
  { intros found x H1 H2. assert (Hr : length (vresize (up_indices x) 2 0) = 2).
    { unfold vresize. rewrite app_length, take_length, replicate_length. destruct H2 as [->| ->]; [done|]. done. }
    unfold F. destruct second, found.
    - rewrite vset_Ok by (rewrite H1; [lia|done]). cbn. eexists. split; [done|]. cbn. rewrite insert_length. auto.
    - rewrite vset_Ok by lia. cbn [mbind outcome_bind]. eexists. split; [done|]. cbn [up_indices]. by rewrite insert_length.
    - rewrite vset_Ok by lia. cbn [mbind outcome_bind]. eexists. split; [done|]. cbn [up_indices]. by rewrite insert_length.
    - rewrite vset_Ok by lia. cbn [mbind outcome_bind]. eexists. split; [done|]. cbn [up_indices]. by rewrite insert_length. }
  assert (Hupd : forall m1 k x x' m2, apart T (m1 ++ (k, x) :: m2) -> apart T (m1 ++ (k, x') :: m2)).
  { intros m1 k x x' m2. rewrite !apart_app, !apart_cons. intros (A & [B B'] & C). split_and!; try done.
    intros p q Hp [->|Hq]%elem_of_cons; [apply (C p (k, x)); [done|left]|apply C; [done|by right]]. }
  destruct (insert_new c m Hm) as [(k & -> & Hk & Hn)|[-> Hn]].
  - destruct (update_split k (F true) m Ha Hk) as (m1 & x & m2 & -> & ->).
    destruct (HF true x) as (x' & -> & Hx'); [intros _; apply (Hs (k, x)); apply elem_of_app; right; left|
      left; apply (Hs (k, x)); apply elem_of_app; right; left|].
    cbn [mbind outcome_bind]. eexists. split; [done|]. rewrite !fmap_app, !fmap_cons. cbn [fst]. split_and!.
    + by eapply Hupd.
    + intros p [Hp|[->|Hp]%elem_of_cons]%elem_of_app; [apply Hs; apply elem_of_app; by left|done|].
      apply Hs. apply elem_of_app. right. by right.
    + tauto.
    + done.
    + exists k. split; [apply elem_of_app; right; left|done].
  - destruct (insert_split c (UPoint UUnknown []) m Ha Hn) as (m1 & m2 & -> & Ei & Ha').
    rewrite Ei.
    assert (Hne : c ∉ m1.*1).
    { intros (p & -> & Hp)%elem_of_list_fmap. apply (Hn p); [apply elem_of_app; by left|]. unfold near.
      pose proof T_nonneg. clear -H. qcases; qlra. }
    assert (Eu : map_update c (F false) (m1 ++ (c, UPoint UUnknown []) :: m2) =
      (x' ← F false (UPoint UUnknown []); Ok (m1 ++ (c, x') :: m2))).
    { clear -Hne. induction m1 as [|[k y] m1 IH]; cbn [app map_update].
      - destruct (qeq_spec c c); [done|done].
      - destruct (qeq_spec c k) as [->|_]; [exfalso; apply Hne; cbn; left|]. rewrite IH; [|intros ?; apply Hne; cbn; by right].
        by destruct (F false (UPoint UUnknown [])). }
    rewrite Eu. destruct (HF false (UPoint UUnknown [])) as (x' & -> & Hx'); [done|by right|]. cbn [mbind outcome_bind].
    eexists. split; [done|]. rewrite !fmap_app, !fmap_cons. cbn [fst]. split_and!.
    + by eapply Hupd.
    + intros p [Hp|[->|Hp]%elem_of_cons]%elem_of_app; [apply Hs; apply elem_of_app; by left|done|].
      apply Hs. apply elem_of_app. by right.
    + intros k. rewrite !elem_of_app, elem_of_cons. tauto.
    + intros k. rewrite !elem_of_app, elem_of_cons. tauto.
    + exists c. split; [apply elem_of_app; right; left|]. unfold near. pose proof T_nonneg. clear -H. qcases; qlra.
Qed.

Lemma steps_keys (second : bool) : forall l m, minus_one ∉ m.*1 -> (forall i c, (i, c) ∈ l -> c <> minus_one) -> apart T m -> shaped m ->
  exists m', ofold (if second then add_second g else add_first g) l m = Ok m' /\ apart T m' /\ shaped m' /\ minus_one ∉ m'.*1 /\
    (forall k, k ∈ m'.*1 -> k ∈ m.*1 \/ k ∈ l.*2) /\ (forall k, k ∈ m.*1 -> k ∈ m'.*1) /\
    (forall c, c ∈ l.*2 -> exists k, k ∈ m'.*1 /\ near g k c).
Proof.
  induction l as [|[i c] l IH]; intros m Hm Hl Ha Hs; cbn [ofold].
  - exists m. split_and!; try done; [tauto|]. intros c Hc. by apply elem_of_nil in Hc.
  - destruct (step_keys second m i c) as (m1 & E1 & A1 & S1 & B1 & C1 & D1); try done; [apply (Hl i); left|].
    rewrite E1. cbn [mbind outcome_bind].
    assert (Hm1 : minus_one ∉ m1.*1).
    { intros [Hin|Hin]%B1; [done|]. apply (Hl i c); [left|done]. }
    destruct (IH m1) as (m2 & E2 & A2 & S2 & M2 & B2 & C2 & D2); try done; [intros i' c' H; apply (Hl i'); by right|].
    exists m2. rewrite fmap_cons. cbn [snd]. split_and!; try done.
    + intros k [Hk|Hk]%B2; [|right; by right]. apply B1 in Hk as [Hk| ->]; [by left|]. right. left.
    + intros k Hk. by apply C2, C1.
    + intros c' [->|Hc']%elem_of_cons; [|by apply D2]. destruct D1 as (k & Hk & Hn). exists k. split; [by apply C2|done].
Qed.

Lemma enumerate_snd {A} (l : list A) : (enumerate l).*2 = l.
Proof.
  unfold enumerate. assert (H : forall f : nat -> nat, (imap (fun i x => (f i, x)) l).*2 = l); [|apply (H id)].
  induction l as [|x l IH]; intros f; cbn; [done|]. f_equal. apply (IH (fun i => f (S i))).
Qed.

Lemma enumerate_lookup {A} (l : list A) i j x : enumerate l !! i = Some (j, x) <-> i = j /\ l !! i = Some x.
Proof.
  unfold enumerate. rewrite list_lookup_imap. destruct (l !! i); cbn; naive_solver.
Qed.

Lemma points_ok one two : minus_one ∉ one -> minus_one ∉ two ->
  exists pts, CreateUnionPoints g one two [] = Ok pts /\
    apart T pts /\ (forall k, k ∈ pts.*1 -> k ∈ one \/ k ∈ two) /\
    (forall c, c ∈ one \/ c ∈ two -> exists k, k ∈ pts.*1 /\ near g k c).
Proof.
  intros H1 H2. unfold CreateUnionPoints.
  destruct (steps_keys false (enumerate one) []) as (m1 & E1 & A1 & S1 & M1 & B1 & C1 & D1).
  { by intros ?%elem_of_nil. }
  { intros i c Hin ->. apply H1. rewrite <- (enumerate_snd one). apply elem_of_list_fmap. by exists (i, minus_one). }
  { constructor. } { intros p Hp. by apply elem_of_nil in Hp. }
  change (ofold (add_first g) (enumerate one) [] = Ok m1) in E1. rewrite E1. cbn [mbind outcome_bind].
  destruct (steps_keys true (enumerate two) m1) as (m2 & E2 & A2 & S2 & M2 & B2 & C2 & D2); try done.
  { intros i c Hin ->. apply H2. rewrite <- (enumerate_snd two). apply elem_of_list_fmap. by exists (i, minus_one). }
  change (ofold (add_second g) (enumerate two) m1 = Ok m2) in E2. exists m2. rewrite enumerate_snd in *. split_and!; try done.
  - intros k [Hk|Hk]%B2; [|by right]. apply B1 in Hk as [Hk|Hk]; [by apply elem_of_nil in Hk|by left].
  - intros c [Hc|Hc]; [|by apply D2]. destruct (D1 c Hc) as (k & Hk & Hn). exists k. split; [by apply C2|done].
Qed.

End union.
