(** * Two polyhedra merged into one along a common face: proofs. *)
From Coq Require Import ZArith ZifyBool ZifyNat ZifyN.
From Verif Require Import Base BaseProof FacetModel FacetSpec FacetProof MergeModel MergeSpec.
Local Open Scope nat_scope.

(** ** The cells of one dimension. *)
Section Cells.
Context (info : merge_info) (n1 n2 : nat).
Context (H1 : length (mi_one info) = n1) (H2 : length (mi_two info) = n2).
Context (C1 : forall v k, mi_one info !! v = Some (MCommon k) <-> exists w, mi_common info !! k = Some (v, w)).
Context (C2 : forall w k, mi_two info !! w = Some (MCommon k) <-> exists v, mi_common info !! k = Some (v, w)).

Record linked (st : merging) : Prop := {
  lk_one : length (mg_one st) = n1;
  lk_two : length (mg_two st) = n2;
  lk_a : forall v i, mg_one st !! v = Some (Some i) <-> exists y, mg_old st !! i = Some (Some v, y);
  lk_b : forall w i, mg_two st !! w = Some (Some i) <-> exists x, mg_old st !! i = Some (x, Some w)
}.
Definition fresh_one (st : merging) (v : nat) : Prop := v < n1 /\ forall i y, mg_old st !! i <> Some (Some v, y).
Definition fresh_two (st : merging) (w : nat) : Prop := w < n2 /\ forall i x, mg_old st !! i <> Some (x, Some w).

Lemma snoc_lookup {A} (l : list A) x i y : (l ++ [x]) !! i = Some y <-> l !! i = Some y \/ (i = length l /\ y = x).
Proof.
  rewrite lookup_app_Some. split.
  - intros [?|[L E]]; [tauto|]. apply list_lookup_singleton_Some in E as [E <-]. right. split; [lia|done].
  - intros [?|[-> ->]]; [tauto|]. right. split; [lia|]. by rewrite Nat.sub_diag.
Qed.
Lemma set_some (l : list (option nat)) v n u i : v < length l ->
  <[v := Some n]> l !! u = Some (Some i) <-> (u = v /\ i = n) \/ (u <> v /\ l !! u = Some (Some i)).
Proof.
  intros L. destruct (decide (u = v)) as [-> |NE].
  - rewrite list_lookup_insert by done. split; [intros E; injection E as <-; tauto|]. intros [[_ ->]|[? _]]; done.
  - rewrite list_lookup_insert_ne by done. tauto.
Qed.
Lemma push_one st v : linked st -> fresh_one st v ->
  linked (Merging (<[v := Some (length (mg_old st))]> (mg_one st)) (mg_two st) (mg_old st ++ [(Some v, None)])).
Proof.
  intros [L1 L2 LA LB] [V F]. split; cbn.
  - by rewrite insert_length.
  - done.
  - intros u i. rewrite set_some by lia. rewrite LA. split.
    + intros [[-> ->]|[NE (y & Y)]]; [exists None|exists y]; rewrite snoc_lookup; tauto.
    + intros (y & Y). apply snoc_lookup in Y as [Y|[-> Y]]; [|injection Y as -> ->; tauto]. right. split; [|eauto]. intros ->. by apply F in Y.
  - intros w i. rewrite LB. split; intros (x & X); exists x; rewrite snoc_lookup in *; [tauto|]. destruct X as [X|[_ X]]; [done|discriminate].
Qed.
Lemma push_two st w : linked st -> fresh_two st w ->
  linked (Merging (mg_one st) (<[w := Some (length (mg_old st))]> (mg_two st)) (mg_old st ++ [(None, Some w)])).
Proof.
  intros [L1 L2 LA LB] [V F]. split; cbn.
  - done.
  - by rewrite insert_length.
  - intros v i. rewrite LA. split; intros (y & X); exists y; rewrite snoc_lookup in *; [tauto|]. destruct X as [X|[_ X]]; [done|discriminate].
  - intros u i. rewrite set_some by lia. rewrite LB. split.
    + intros [[-> ->]|[NE (y & Y)]]; [exists None|exists y]; rewrite snoc_lookup; tauto.
    + intros (y & Y). apply snoc_lookup in Y as [Y|[-> Y]]; [|injection Y as -> ->; tauto]. right. split; [|eauto]. intros ->. by apply F in Y.
Qed.
Lemma push_both st v w : linked st -> fresh_one st v -> fresh_two st w ->
  linked (Merging (<[v := Some (length (mg_old st))]> (mg_one st)) (<[w := Some (length (mg_old st))]> (mg_two st)) (mg_old st ++ [(Some v, Some w)])).
Proof.
  intros [L1 L2 LA LB] [V F] [W G]. split; cbn.
  - by rewrite insert_length.
  - by rewrite insert_length.
  - intros u i. rewrite set_some by lia. rewrite LA. split.
    + intros [[-> ->]|[NE (y & Y)]]; [exists (Some w)|exists y]; rewrite snoc_lookup; tauto.
    + intros (y & Y). apply snoc_lookup in Y as [Y|[-> Y]]; [|injection Y as -> ->; tauto]. right. split; [|eauto]. intros ->. by apply F in Y.
  - intros u i. rewrite set_some by lia. rewrite LB. split.
    + intros [[-> ->]|[NE (y & Y)]]; [exists (Some v)|exists y]; rewrite snoc_lookup; tauto.
    + intros (y & Y). apply snoc_lookup in Y as [Y|[-> Y]]; [|injection Y as -> ->; tauto]. right. split; [|eauto]. intros ->. by apply G in Y.
Qed.

(** After the cells below [j] of the first polyhedron. *)
Record first_done (j : nat) (st : merging) : Prop := {
  fd_linked : linked st;
  fd_only : forall i x y, mg_old st !! i = Some (x, y) -> exists v, x = Some v /\ v < j /\ mi_one info !! v <> Some MRemove /\
    match y with Some w => (v, w) ∈ mi_common info | None => mi_one info !! v = Some MNone end;
  fd_all : forall v, v < j -> mi_one info !! v = Some MNone -> (Some v, None) ∈ mg_old st;
  fd_same : forall v w, v < j -> (v, w) ∈ mi_common info -> (Some v, Some w) ∈ mg_old st
}.
Lemma type_one v : v < n1 -> exists t, mi_one info !! v = Some t /\ type_of (mi_one info) n1 v = Ok t.
Proof.
  intros L. rewrite <-H1 in L. destruct (lookup_lt_is_Some_2 _ _ L) as [t T]. exists t. split; [done|]. unfold type_of, vat.
  rewrite H1, Nat.eqb_refl. by rewrite T.
Qed.
Lemma type_two v : v < n2 -> exists t, mi_two info !! v = Some t /\ type_of (mi_two info) n2 v = Ok t.
Proof.
  intros L. rewrite <-H2 in L. destruct (lookup_lt_is_Some_2 _ _ L) as [t T]. exists t. split; [done|]. unfold type_of, vat.
  rewrite H2, Nat.eqb_refl. by rewrite T.
Qed.
Lemma first_step j st : j < n1 -> first_done j st -> exists st', merge_one info n1 st j = Ok st' /\ first_done (S j) st'.
Proof.
  intros J [L O A S]. destruct (type_one j J) as (t & T & TT). unfold merge_one. rewrite TT. cbn [mbind outcome_bind]. cbv zeta.
  assert (fresh_one st j) as FO.
  { split; [done|]. intros i y Y. destruct (O _ _ _ Y) as (v & E & V & _). injection E as <-. lia. }
  assert (forall v w, v < Datatypes.S j -> (v, w) ∈ mi_common info -> v = j \/ v < j) as _ by (intros; lia).
  assert (forall w, (j, w) ∈ mi_common info -> exists k, t = MCommon k /\ mi_common info !! k = Some (j, w)) as CJ.
  { intros w I. apply elem_of_list_lookup in I as [k K]. exists k. split; [|done]. assert (mi_one info !! j = Some (MCommon k)) by (apply C1; eauto). congruence. }
  destruct t as [|k|].
  - rewrite (vset_in (mg_one st)) by (rewrite (lk_one _ L); lia). cbn [mbind outcome_bind]. eexists. split; [done|]. split; cbn.
    + by apply push_one.
    + intros i x y Y. apply snoc_lookup in Y as [Y|[_ Y]].
      * destruct (O _ _ _ Y) as (v & ? & ? & ? & ?). exists v. split; [done|]. split; [lia|done].
      * injection Y as -> ->. exists j. split; [done|]. split; [lia|]. rewrite T. done.
    + intros v V N. apply elem_of_app. destruct (decide (v = j)) as [-> |NE]; [right; left|left]. apply A; [lia|done].
    + intros v w V I. apply elem_of_app. left. destruct (decide (v = j)) as [-> |NE]; [|apply S; [lia|done]]. destruct (CJ w I) as (k & ? & _). done.
  - destruct (proj1 (C1 j k) T) as [w W]. assert (vat (mi_common info) k = Ok (j, w)) as -> by (unfold vat; by rewrite W).
    cbn [mbind outcome_bind fst snd].
    assert (mi_two info !! w = Some (MCommon k)) as TW by (apply C2; eauto).
    assert (w < n2) as WL by (rewrite <-H2; by eapply lookup_lt_Some).
    assert (fresh_two st w) as FT.
    { split; [done|]. intros i x Y. destruct (O _ _ _ Y) as (v & -> & V & _ & I). apply elem_of_list_lookup in I as [k' K'].
      assert (mi_two info !! w = Some (MCommon k')) as TW' by (apply C2; eauto). assert (k' = k) as -> by congruence.
      assert (v = j) by congruence. lia. }
    rewrite (vset_in (mg_one st)) by (rewrite (lk_one _ L); lia). cbn [mbind outcome_bind]. rewrite (vset_in (mg_two st)) by (rewrite (lk_two _ L); lia). cbn [mbind outcome_bind].
    eexists. split; [done|]. split; cbn.
    + by apply push_both.
    + intros i x y Y. apply snoc_lookup in Y as [Y|[_ Y]].
      * destruct (O _ _ _ Y) as (v & ? & ? & ? & ?). exists v. split; [done|]. split; [lia|done].
      * injection Y as -> ->. exists j. split; [done|]. split; [lia|]. rewrite T. split; [done|]. by eapply elem_of_list_lookup_2.
    + intros v V N. apply elem_of_app. left. destruct (decide (v = j)) as [-> |NE]; [congruence|]. apply A; [lia|done].
    + intros v w' V I. apply elem_of_app. destruct (decide (v = j)) as [-> |NE]; [|left; apply S; [lia|done]].
      destruct (CJ w' I) as (k' & E & K'). injection E as <-. assert (w' = w) as -> by congruence. right. left.
  - exists st. split; [done|]. split; [done| | |].
    + intros i x y Y. destruct (O _ _ _ Y) as (v & ? & ? & ? & ?). exists v. split; [done|]. split; [lia|done].
    + intros v V N. destruct (decide (v = j)) as [-> |NE]; [congruence|]. apply A; [lia|done].
    + intros v w V I. destruct (decide (v = j)) as [-> |NE]; [|apply S; [lia|done]]. destruct (CJ w I) as (k & ? & _). done.
Qed.
Lemma first_loop c j st : j + c = n1 -> first_done j st -> exists st', ofold (merge_one info n1) (seq j c) st = Ok st' /\ first_done n1 st'.
Proof.
  revert j st. induction c as [|c IH]; intros j st E D.
  - exists st. split; [done|]. by replace n1 with j by lia.
  - cbn [seq ofold]. destruct (first_step j st ltac:(lia) D) as (st' & -> & D'). cbn [mbind outcome_bind]. apply IH; [lia|done].
Qed.

(** After the cells below [j] of the second polyhedron. *)
Record second_done (first : list (option nat * option nat)) (j : nat) (st : merging) : Prop := {
  sd_linked : linked st;
  sd_first : exists more, mg_old st = first ++ more /\ forall x, x ∈ more -> exists w, x = (None, Some w) /\ w < j /\ mi_two info !! w = Some MNone;
  sd_all : forall w, w < j -> mi_two info !! w = Some MNone -> (None, Some w) ∈ mg_old st
}.
Lemma second_step st1 j st : first_done n1 st1 -> j < n2 -> second_done (mg_old st1) j st ->
  exists st', merge_two info n2 st j = Ok st' /\ second_done (mg_old st1) (S j) st'.
Proof.
  intros D J [L (more & E & M) A]. destruct (type_two j J) as (t & T & TT). unfold merge_two. rewrite TT. cbn [mbind outcome_bind].
  assert (t <> MNone -> second_done (mg_old st1) (S j) st) as SK.
  { intros N. split; [done| |].
    - exists more. split; [done|]. intros x X. destruct (M x X) as (w & ? & ? & ?). exists w. split; [done|]. split; [lia|done].
    - intros w W N'. destruct (decide (w = j)) as [-> |NE]; [congruence|]. apply A; [lia|done]. }
  destruct t as [|k|]; [|exists st; split; [done|]; by apply SK|exists st; split; [done|]; by apply SK]. clear SK.
  rewrite (vset_in (mg_two st)) by (rewrite (lk_two _ L); lia). cbn [mbind outcome_bind]. eexists. split; [done|]. split; cbn.
  - apply push_two; [done|]. split; [done|]. intros i x X. rewrite E in X. apply lookup_app_Some in X as [X|[_ X]].
    + destruct (fd_only _ _ D _ _ _ X) as (v & _ & _ & _ & I). apply elem_of_list_lookup in I as [k K].
      assert (mi_two info !! j = Some (MCommon k)) by (apply C2; eauto). congruence.
    + apply elem_of_list_lookup_2 in X. destruct (M _ X) as (w & Q & W & _). injection Q as _ <-. lia.
  - exists (more ++ [(None, Some j)]). split; [by rewrite E, <-app_assoc|]. intros x X. apply elem_of_app in X as [X|X].
    + destruct (M x X) as (w & ? & ? & ?). exists w. split; [done|]. split; [lia|done].
    + apply elem_of_list_singleton in X as ->. exists j. split; [done|]. split; [lia|done].
  - intros w W N. apply elem_of_app. destruct (decide (w = j)) as [-> |NE]; [right; left|left]. apply A; [lia|done].
Qed.
Lemma second_loop st1 c j st : first_done n1 st1 -> j + c = n2 -> second_done (mg_old st1) j st ->
  exists st', ofold (merge_two info n2) (seq j c) st = Ok st' /\ second_done (mg_old st1) n2 st'.
Proof.
  intros F. revert j st. induction c as [|c IH]; intros j st E D.
  - exists st. split; [done|]. by replace n2 with j by lia.
  - cbn [seq ofold]. destruct (second_step st1 j st F ltac:(lia) D) as (st' & -> & D'). cbn [mbind outcome_bind]. apply IH; [lia|done].
Qed.

Lemma cells_ok : exists r, merge_cells info n1 n2 = Ok r /\
  put_together n1 n2 (fun v => mi_one info !! v <> Some MRemove) (fun w => mi_two info !! w <> Some MRemove) (fun v w => (v, w) ∈ mi_common info) r.
Proof.
  unfold merge_cells. destruct (first_loop n1 0 (Merging (replicate n1 None) (replicate n2 None) [])) as (st & E & D); [lia| |].
  { split; cbn; [|done|intros; lia|intros; lia]. split; cbn; [apply replicate_length|apply replicate_length| |].
    - intros v i. split; [|intros (y & Y); done]. intros X. apply lookup_replicate in X as [X _]. done.
    - intros v i. split; [|intros (y & Y); done]. intros X. apply lookup_replicate in X as [X _]. done. }
  rewrite E. cbn [mbind outcome_bind].
  destruct (second_loop st n2 0 st D) as (r & E' & D'); [lia| |].
  { split; [apply D| |intros; lia]. exists []. split; [by rewrite app_nil_r|]. intros x X. by apply elem_of_nil in X. }
  exists r. split; [done|]. destruct D' as [L (more & EM & M) A]. pose proof D as [_ O AL S].
  assert (forall x, x ∈ mg_old r <-> x ∈ mg_old st \/ x ∈ more) as EL by (intros x; rewrite EM; apply elem_of_app).
  assert (forall i x y, mg_old r !! i = Some (x, y) -> (x, y) ∈ mg_old st \/ (x, y) ∈ more) as LK.
  { intros i x y X. apply EL. by eapply elem_of_list_lookup_2. }
  split.
  - split; apply L.
  - apply L.
  - apply L.
  - intros v V. split.
    + intros (i & I). apply (lk_a _ L) in I as (y & Y). destruct (LK _ _ _ Y) as [X|X].
      * apply elem_of_list_lookup in X as [i' X]. destruct (O _ _ _ X) as (v' & Q & _ & N & _). injection Q as <-. done.
      * destruct (M _ X) as (w & Q & _). discriminate.
    + intros N. destruct (type_one v V) as (t & T & _). destruct t as [|k|]; [| |done].
      * pose proof (AL v V T) as I. assert ((Some v, None) ∈ mg_old r) as I' by (apply EL; tauto). apply elem_of_list_lookup in I' as [i I'].
        exists i. apply (lk_a _ L). eauto.
      * destruct (proj1 (C1 v k) T) as [w W]. assert ((Some v, Some w) ∈ mg_old r) as I' by (apply EL; left; apply S; [done|by eapply elem_of_list_lookup_2]).
        apply elem_of_list_lookup in I' as [i I']. exists i. apply (lk_a _ L). eauto.
  - intros w W. split.
    + intros (i & I). apply (lk_b _ L) in I as (x & X). destruct (LK _ _ _ X) as [Y|Y].
      * apply elem_of_list_lookup in Y as [i' Y]. destruct (O _ _ _ Y) as (v & _ & _ & _ & I). apply elem_of_list_lookup in I as [k K].
        assert (mi_two info !! w = Some (MCommon k)) as -> by (apply C2; eauto). done.
      * destruct (M _ Y) as (w' & Q & _ & T). injection Q as _ <-. rewrite T. done.
    + intros N. destruct (type_two w W) as (t & T & _). destruct t as [|k|]; [| |done].
      * pose proof (A w W T) as I'. apply elem_of_list_lookup in I' as [i I']. exists i. apply (lk_b _ L). eauto.
      * destruct (proj1 (C2 w k) T) as [v V]. assert (v < n1) as VL by (rewrite <-H1; eapply lookup_lt_Some; apply C1; eauto).
        assert ((Some v, Some w) ∈ mg_old r) as I' by (apply EL; left; apply S; [done|by eapply elem_of_list_lookup_2]).
        apply elem_of_list_lookup in I' as [i I']. exists i. apply (lk_b _ L). eauto.
  - intros v w. split.
    + intros (i & I). destruct (LK _ _ _ I) as [X|X].
      * apply elem_of_list_lookup in X as [i' X]. destruct (O _ _ _ X) as (v' & Q & _ & _ & N). injection Q as <-. done.
      * destruct (M _ X) as (w' & Q & _). discriminate.
    + intros I. assert (v < n1) as VL by (apply elem_of_list_lookup in I as [k K]; rewrite <-H1; eapply lookup_lt_Some; apply C1; eauto).
      assert ((Some v, Some w) ∈ mg_old r) as I' by (apply EL; left; by apply S). by apply elem_of_list_lookup in I'.
  - intros i x y X. destruct (LK _ _ _ X) as [Y|Y].
    + apply elem_of_list_lookup in Y as [i' Y]. destruct (O _ _ _ Y) as (v & -> & _). by left.
    + destruct (M _ Y) as (w & Q & _). injection Q as -> ->. by right.
Qed.
End Cells.

(** ** What is said of the cells of the common face. *)
Section Common.
Context (n1 n2 : nat) (vs ws : list nat) (LE : length vs = length ws) (NV : NoDup vs) (NW : NoDup ws).
Context (BV : Forall (fun v => v < n1) vs) (BW : Forall (fun w => w < n2) ws).

Record told (j : nat) (st : merge_info) : Prop := {
  td_length : length (mi_one st) = n1 /\ length (mi_two st) = n2 /\ length (mi_common st) = length vs;
  td_one : forall v k, mi_one st !! v = Some (MCommon k) <-> k < j /\ vs !! k = Some v;
  td_two : forall w k, mi_two st !! w = Some (MCommon k) <-> k < j /\ ws !! k = Some w;
  td_stay : (forall v, mi_one st !! v <> Some MRemove) /\ (forall w, mi_two st !! w <> Some MRemove);
  td_common : forall k v w, k < j -> vs !! k = Some v -> ws !! k = Some w -> mi_common st !! k = Some (v, w)
}.
Lemma mark (l : list merge_type) (us : list nat) j u x k : NoDup us -> u < length l -> us !! j = Some u ->
  (forall v k, l !! v = Some (MCommon k) <-> k < j /\ us !! k = Some v) ->
  <[u := MCommon j]> l !! x = Some (MCommon k) <-> k < S j /\ us !! k = Some x.
Proof.
  intros ND L U H. destruct (decide (x = u)) as [-> |NE].
  - rewrite list_lookup_insert by done. split.
    + intros E. injection E as <-. split; [lia|done].
    + intros [_ K]. do 2 f_equal. exact (NoDup_lookup _ _ _ _ ND U K).
  - rewrite list_lookup_insert_ne by done. rewrite H. split; [intros [? ?]; split; [lia|done]|]. intros [K E]. split; [|done].
    destruct (decide (k = j)) as [-> |]; [congruence|lia].
Qed.
Lemma mark_stay (l : list merge_type) u j : (forall v, l !! v <> Some MRemove) -> forall v, <[u := MCommon j]> l !! v <> Some MRemove.
Proof.
  intros H v E. destruct (decide (v = u)) as [-> |NE].
  - destruct (decide (u < length l)); [rewrite list_lookup_insert in E by done; discriminate|]. rewrite list_insert_ge in E by lia. by apply H in E.
  - rewrite list_lookup_insert_ne in E by done. by apply H in E.
Qed.
Lemma common_loop c j st : j + c = length vs -> told j st ->
  exists st', ofold common_step (drop j (zip (seq 0 (length vs)) (zip vs ws))) st = Ok st' /\ told (length vs) st'.
Proof.
  revert j st. induction c as [|c IH]; intros j st E T.
  - exists st. rewrite drop_ge by (rewrite !zip_with_length, seq_length; lia). split; [done|]. by replace (length vs) with j by lia.
  - destruct (lookup_lt_is_Some_2 vs j ltac:(lia)) as [v V]. destruct (lookup_lt_is_Some_2 ws j ltac:(lia)) as [w W].
    assert (zip (seq 0 (length vs)) (zip vs ws) !! j = Some (j, (v, w))) as Z.
    { apply lookup_zip_with_Some. exists j, (v, w). split; [done|]. split; [apply lookup_seq; lia|]. apply lookup_zip_with_Some. eauto. }
    rewrite (drop_S _ _ _ Z). cbn [ofold common_step]. destruct T as [(T1 & T2 & T3) O1 O2 [S1 S2] CM].
    assert (v < n1) as VL by (rewrite Forall_forall in BV; apply BV; by eapply elem_of_list_lookup_2).
    assert (w < n2) as WL by (rewrite Forall_forall in BW; apply BW; by eapply elem_of_list_lookup_2).
    rewrite (vset_in (mi_one st)) by lia. cbn [mbind outcome_bind]. rewrite (vset_in (mi_two st)) by lia. cbn [mbind outcome_bind].
    rewrite (vset_in (mi_common st)) by lia. cbn [mbind outcome_bind]. apply IH; [lia|]. split; cbn [mi_one mi_two mi_common].
    + by rewrite !insert_length.
    + intros x k. apply mark; [done|lia|done|done].
    + intros x k. apply mark; [done|lia|done|done].
    + split; by apply mark_stay.
    + intros k x y K X Y. destruct (decide (k = j)) as [-> |NE].
      * rewrite list_lookup_insert by lia. congruence.
      * rewrite list_lookup_insert_ne by done. apply CM; [lia|done|done].
Qed.
Lemma common_ok : exists info, common_cells n1 n2 vs ws = Ok info /\ length (mi_one info) = n1 /\ length (mi_two info) = n2 /\
  (forall v k, mi_one info !! v = Some (MCommon k) <-> exists w, mi_common info !! k = Some (v, w)) /\
  (forall w k, mi_two info !! w = Some (MCommon k) <-> exists v, mi_common info !! k = Some (v, w)) /\
  (forall v, mi_one info !! v <> Some MRemove) /\ (forall w, mi_two info !! w <> Some MRemove) /\
  (forall v w, (v, w) ∈ mi_common info <-> same_place vs ws v w).
Proof.
  unfold common_cells. rewrite <-(drop_0 (zip (seq 0 (length vs)) (zip vs ws))).
  destruct (common_loop (length vs) 0 (MergeInfo (replicate n1 MNone) (replicate n2 MNone) (replicate (length vs) (0, 0)))) as (info & E & T); [lia| |].
  { split; cbn [mi_one mi_two mi_common].
    - by rewrite !replicate_length.
    - intros v k. split; [|lia]. intros X. apply lookup_replicate in X as [X _]. discriminate.
    - intros v k. split; [|lia]. intros X. apply lookup_replicate in X as [X _]. discriminate.
    - split; intros v X; apply lookup_replicate in X as [X _]; discriminate.
    - intros; lia. }
  exists info. split; [done|]. destruct T as [(T1 & T2 & T3) O1 O2 [S1 S2] CM].
  assert (forall k v w, mi_common info !! k = Some (v, w) <-> vs !! k = Some v /\ ws !! k = Some w) as CK.
  { intros k v w. split.
    - intros X. pose proof (lookup_lt_Some _ _ _ X) as K. rewrite T3 in K.
      destruct (lookup_lt_is_Some_2 vs k K) as [v' V]. destruct (lookup_lt_is_Some_2 ws k ltac:(lia)) as [w' W].
      pose proof (CM k v' w' K V W). split; congruence.
    - intros [V W]. apply CM; [by eapply lookup_lt_Some|done|done]. }
  split; [done|]. split; [done|]. split; [|split; [|split; [done|split; [done|]]]].
  - intros v k. rewrite O1. split.
    + intros [K V]. destruct (lookup_lt_is_Some_2 ws k ltac:(lia)) as [w W]. exists w. by apply CK.
    + intros [w W]. apply CK in W as [V W]. split; [by eapply lookup_lt_Some|done].
  - intros w k. rewrite O2. split.
    + intros [K W]. destruct (lookup_lt_is_Some_2 vs k K) as [v V]. exists v. by apply CK.
    + intros [v V]. apply CK in V as [V W]. split; [by eapply lookup_lt_Some|done].
  - intros v w. rewrite elem_of_list_lookup. unfold same_place. split; intros [k K]; exists k; by apply CK.
Qed.
End Common.

Lemma put_weaken n1 n2 (s1 s1' s2 s2' : nat -> Prop) (m m' : nat -> nat -> Prop) r : put_together n1 n2 s1 s2 m r ->
  (forall v, v < n1 -> s1 v <-> s1' v) -> (forall v, v < n2 -> s2 v <-> s2' v) -> (forall v w, m v w <-> m' v w) -> put_together n1 n2 s1' s2' m' r.
Proof.
  intros [A B C D E F G] H1 H2 H3. split; [done|done|done| | | |done].
  - intros v V. rewrite <-H1 by done. by apply D.
  - intros v V. rewrite <-H2 by done. by apply E.
  - intros v w. rewrite <-H3. apply F.
Qed.

(** ** All together. *)
Section Merge.
Context {P : Type} (one two : polyhedron P) (PO : proper_polyhedron one) (PT : proper_polyhedron two).
Context (f1 f2 : nat) (face1 face2 : list (nat * nat)) (F1 : ph_faces one !! f1 = Some face1) (F2 : ph_faces two !! f2 = Some face2).
Context (LE : length face1 = length face2) (V1 : NoDup face1.*1) (V2 : NoDup face2.*1) (E1 : NoDup face1.*2) (E2 : NoDup face2.*2) (remove : bool).

Lemma face_bounds (p : polyhedron P) f face : proper_polyhedron p -> ph_faces p !! f = Some face ->
  Forall (fun v => v < length (ph_vertices p)) face.*1 /\ Forall (fun v => v < length (ph_edges p)) face.*2.
Proof.
  intros [_ H] F. rewrite Forall_forall in H. specialize (H face ltac:(by eapply elem_of_list_lookup_2)).
  split; apply Forall_fmap; eapply Forall_impl; try exact H; intros x X; apply X.
Qed.
Lemma faces_info : let t := if remove then MRemove else MCommon 0 in exists info, info = MergeInfo (<[f1 := t]> (replicate (length (ph_faces one)) MNone))
    (<[f2 := t]> (replicate (length (ph_faces two)) MNone)) (if remove then [] else [(f1, f2)]) /\
  exists r, merge_cells info (length (ph_faces one)) (length (ph_faces two)) = Ok r /\
    put_together (length (ph_faces one)) (length (ph_faces two)) (fun f => remove = true -> f <> f1) (fun f => remove = true -> f <> f2)
      (fun v w => remove = false /\ v = f1 /\ w = f2) r.
Proof.
  intros t. eexists. split; [reflexivity|].
  assert (forall n u x y, u < n -> <[u := x]> (replicate n MNone) !! y = if decide (y = u) then Some x else replicate n MNone !! y) as LK.
  { intros n u x y U. case_decide as D; [subst; by rewrite list_lookup_insert by (by rewrite replicate_length)|by rewrite list_lookup_insert_ne]. }
  pose proof (lookup_lt_Some _ _ _ F1) as B1. pose proof (lookup_lt_Some _ _ _ F2) as B2.
  assert (forall n y x, replicate n MNone !! y = Some x -> x = MNone) as RP by (intros n y x X; by apply lookup_replicate in X as [-> _]).
  destruct (cells_ok (MergeInfo (<[f1 := t]> (replicate (length (ph_faces one)) MNone)) (<[f2 := t]> (replicate (length (ph_faces two)) MNone))
    (if remove then [] else [(f1, f2)])) (length (ph_faces one)) (length (ph_faces two))) as (r & E & T).
  - cbn. by rewrite insert_length, replicate_length.
  - cbn. by rewrite insert_length, replicate_length.
  - intros v k. cbn. rewrite LK by done. unfold t. destruct remove.
    + split; [|intros (w & W); done]. case_decide; [discriminate|]. intros X. apply RP in X. discriminate.
    + split.
      * case_decide as D; [|intros X; apply RP in X; discriminate]. intros X. injection X as <-. exists f2. by rewrite D.
      * intros (w & W). apply list_lookup_singleton_Some in W as [-> W]. injection W as -> ->. by rewrite decide_True.
  - intros v k. cbn. rewrite LK by done. unfold t. destruct remove.
    + split; [|intros (w & W); done]. case_decide; [discriminate|]. intros X. apply RP in X. discriminate.
    + split.
      * case_decide as D; [|intros X; apply RP in X; discriminate]. intros X. injection X as <-. exists f1. by rewrite D.
      * intros (w & W). apply list_lookup_singleton_Some in W as [-> W]. injection W as -> ->. by rewrite decide_True.
  - exists r. split; [done|]. eapply put_weaken; [exact T| | |]; cbn.
    + intros v V. rewrite LK by done. unfold t. case_decide as D; destruct remove; (split; [|]); intros X; try congruence; try done.
      all: try (intros _; exact D). all: try (intros Y; apply RP in Y; discriminate). all: try (specialize (X eq_refl); congruence).
    + intros v V. rewrite LK by done. unfold t. case_decide as D; destruct remove; (split; [|]); intros X; try congruence; try done.
      all: try (intros _; exact D). all: try (intros Y; apply RP in Y; discriminate). all: try (specialize (X eq_refl); congruence).
    + intros v w. destruct remove.
      * split; [intros X; by apply elem_of_nil in X|]. intros [? _]. discriminate.
      * rewrite elem_of_list_singleton. split; [intros X; injection X as -> ->; done|]. intros (_ & -> & ->). done.
Qed.

Lemma vat_some {A} (l : list A) i x : l !! i = Some x -> vat l i = Ok x.
Proof. intros E. unfold vat. by rewrite E. Qed.
Lemma vget_some {A} (l : list A) i x : l !! i = Some x -> vget l i = Ok x.
Proof. intros E. unfold vget. by rewrite E. Qed.
Lemma from_old_all {A B} (l1 l2 : list A) (g1 g2 : nat -> outcome B) (R1 R2 : A -> B -> Prop) n1 n2 s1 s2 same r :
  length l1 = n1 -> length l2 = n2 -> put_together n1 n2 s1 s2 same r ->
  (forall v a, l1 !! v = Some a -> exists b, g1 v = Ok b /\ R1 a b) -> (forall w a, l2 !! w = Some a -> exists b, g2 w = Ok b /\ R2 a b) ->
  exists bs, omapM (from_old g1 g2) (mg_old r) = Ok bs /\ Forall2 (comes_from l1 l2 R1 R2) (mg_old r) bs.
Proof.
  intros L1 L2 PT' G1 G2.
  assert (Forall (fun x => exists b, from_old g1 g2 x = Ok b /\ comes_from l1 l2 R1 R2 x b) (mg_old r)) as H.
  { apply Forall_forall. intros [x y] X. apply elem_of_list_lookup in X as [i I]. destruct x as [v|]; [|destruct y as [w|]].
    - assert (mg_one r !! v = Some (Some i)) as M by (apply (pt_one _ _ _ _ _ _ PT'); eauto). apply lookup_lt_Some in M.
      rewrite (proj1 (pt_length _ _ _ _ _ _ PT')) in M. destruct (lookup_lt_is_Some_2 l1 v ltac:(lia)) as [a A']. destruct (G1 v a A') as (b & E & R).
      exists b. split; [done|]. exists a. done.
    - assert (mg_two r !! w = Some (Some i)) as M by (apply (pt_two _ _ _ _ _ _ PT'); eauto). apply lookup_lt_Some in M.
      rewrite (proj2 (pt_length _ _ _ _ _ _ PT')) in M. destruct (lookup_lt_is_Some_2 l2 w ltac:(lia)) as [a A']. destruct (G2 w a A') as (b & E & R).
      exists b. split; [done|]. exists a. done.
    - destruct (pt_some _ _ _ _ _ _ PT' _ _ _ I); done. }
  induction H as [|x l (b & E & C) H IH]; [by exists []|]. destruct IH as (bs & EB & FB). exists (b :: bs). split; [|by constructor].
  cbn [omapM]. rewrite E. cbn [mbind outcome_bind]. rewrite EB. done.
Qed.
Lemma columns_ok (a b : list (option nat)) na nb (face : list (nat * nat)) :
  (forall v, v < na -> exists i, a !! v = Some (Some i)) -> (forall v, v < nb -> exists i, b !! v = Some (Some i)) ->
  Forall (fun x => x.1 < na /\ x.2 < nb) face ->
  exists new, omapM (fun x => v ← vat a x.1; e ← vat b x.2; Ok (v, e)) face = Ok new /\ Forall2 (renumbered a b) face new.
Proof.
  intros HA HB. induction 1 as [|x face [X1 X2] H IH]; [by exists []|]. destruct IH as (new & E & F).
  destruct (HA _ X1) as [s S]. destruct (HB _ X2) as [t T]. exists ((Some s, Some t) :: new). split.
  - cbn [omapM]. rewrite (vat_some _ _ _ S). cbn [mbind outcome_bind]. rewrite (vat_some _ _ _ T). cbn [mbind outcome_bind]. rewrite E. done.
  - constructor; [|done]. exists s, t. done.
Qed.
Lemma ends_ok (p : polyhedron P) (a : list (option nat)) : proper_polyhedron p -> (forall v, v < length (ph_vertices p) -> exists i, a !! v = Some (Some i)) ->
  forall e x, ph_edges p !! e = Some x -> exists y, new_edge (ph_edges p) a e = Ok y /\ renumbered a a x y.
Proof.
  intros [H _] HA e x X. rewrite Forall_forall in H. destruct (H x) as [X1 X2]; [by eapply elem_of_list_lookup_2|].
  destruct (HA _ X1) as [s S]. destruct (HA _ X2) as [t T]. exists (Some s, Some t). split.
  - unfold new_edge. rewrite (vget_some _ _ _ X). cbn [mbind outcome_bind]. rewrite (vat_some _ _ _ S). cbn [mbind outcome_bind]. rewrite (vat_some _ _ _ T). done.
  - exists s, t. done.
Qed.
Lemma face_ok (p : polyhedron P) (a b : list (option nat)) : proper_polyhedron p -> (forall v, v < length (ph_vertices p) -> exists i, a !! v = Some (Some i)) ->
  (forall e, e < length (ph_edges p) -> exists i, b !! e = Some (Some i)) ->
  forall f x, ph_faces p !! f = Some x -> exists y, new_face (ph_faces p) a b f = Ok y /\ Forall2 (renumbered a b) x y.
Proof.
  intros [_ H] HA HB f x X. rewrite Forall_forall in H. specialize (H x ltac:(by eapply elem_of_list_lookup_2)).
  destruct (columns_ok a b _ _ x HA HB H) as (new & E & F). exists new. split; [|done]. unfold new_face. rewrite (vat_some _ _ _ X). done.
Qed.
Lemma merge_ok : exists info r, MergePolyhedronByFace one two f1 f2 remove = Ok info /\ MergePolyhedrons one two info = Ok r /\
  merged_by_face one two f1 f2 face1 face2 remove r.
Proof.
  destruct (face_bounds one f1 face1 PO F1) as [BV1 BE1]. destruct (face_bounds two f2 face2 PT F2) as [BV2 BE2].
  destruct (common_ok (length (ph_vertices one)) (length (ph_vertices two)) face1.*1 face2.*1) as (iv & IV & A1 & A2 & A3 & A4 & A5 & A6 & A7);
    [by rewrite !fmap_length|done|done|done|done|].
  destruct (common_ok (length (ph_edges one)) (length (ph_edges two)) face1.*2 face2.*2) as (ie & IE & B1 & B2 & B3 & B4 & B5 & B6 & B7);
    [by rewrite !fmap_length|done|done|done|done|].
  destruct faces_info as (fi & EF & rf & MF & PF).
  exists (iv, ie, fi).
  destruct (cells_ok iv _ _ A1 A2 A3 A4) as (rv & MV & PV'). destruct (cells_ok ie _ _ B1 B2 B3 B4) as (re & ME & PE').
  assert (put_together (length (ph_vertices one)) (length (ph_vertices two)) (fun _ => True) (fun _ => True) (same_place face1.*1 face2.*1) rv) as PV.
  { eapply put_weaken; [exact PV'| | |exact A7]; intros v _; split; intros _; [done|apply A5|done|apply A6]. }
  assert (put_together (length (ph_edges one)) (length (ph_edges two)) (fun _ => True) (fun _ => True) (same_place face1.*2 face2.*2) re) as PE.
  { eapply put_weaken; [exact PE'| | |exact B7]; intros v _; split; intros _; [done|apply B5|done|apply B6]. }
  clear PV' PE'.
  assert (forall v, v < length (ph_vertices one) -> exists i, mg_one rv !! v = Some (Some i)) as V1' by (intros v V; by apply (pt_stays1 _ _ _ _ _ _ PV)).
  assert (forall v, v < length (ph_vertices two) -> exists i, mg_two rv !! v = Some (Some i)) as V2' by (intros v V; by apply (pt_stays2 _ _ _ _ _ _ PV)).
  assert (forall v, v < length (ph_edges one) -> exists i, mg_one re !! v = Some (Some i)) as E1' by (intros v V; by apply (pt_stays1 _ _ _ _ _ _ PE)).
  assert (forall v, v < length (ph_edges two) -> exists i, mg_two re !! v = Some (Some i)) as E2' by (intros v V; by apply (pt_stays2 _ _ _ _ _ _ PE)).
  destruct (from_old_all (ph_vertices one) (ph_vertices two) (vget (ph_vertices one)) (vget (ph_vertices two)) eq eq _ _ _ _ _ rv eq_refl eq_refl PV)
    as (ps & EPS & FPS).
  { intros v a X. exists a. split; [by apply vget_some|done]. }
  { intros v a X. exists a. split; [by apply vget_some|done]. }
  destruct (from_old_all (ph_edges one) (ph_edges two) _ _ _ _ _ _ _ _ _ re eq_refl eq_refl PE (ends_ok one _ PO V1') (ends_ok two _ PT V2')) as (es & EES & FES).
  destruct (from_old_all (ph_faces one) (ph_faces two) _ _ _ _ _ _ _ _ _ rf eq_refl eq_refl PF (face_ok one _ _ PO V1' E1') (face_ok two _ _ PT V2' E2'))
    as (fs & EFS & FFS).
  exists (MergedPolyhedron ps es fs rv re rf). split; [|split].
  - unfold MergePolyhedronByFace. rewrite (vat_some _ _ _ F1). cbn [mbind outcome_bind]. rewrite (vat_some _ _ _ F2). cbn [mbind outcome_bind].
    rewrite LE, Nat.eqb_refl. cbn [require mbind outcome_bind]. rewrite IV. cbn [mbind outcome_bind]. rewrite IE. cbn [mbind outcome_bind]. cbv zeta.
    rewrite (vset_in (replicate (length (ph_faces one)) MNone)) by (rewrite replicate_length; by eapply lookup_lt_Some). cbn [mbind outcome_bind].
    rewrite (vset_in (replicate (length (ph_faces two)) MNone)) by (rewrite replicate_length; by eapply lookup_lt_Some). cbn [mbind outcome_bind].
    rewrite EF. done.
  - unfold MergePolyhedrons. cbn [fst snd]. rewrite MV. cbn [mbind outcome_bind]. rewrite EPS. cbn [mbind outcome_bind]. rewrite ME. cbn [mbind outcome_bind].
    rewrite EES. cbn [mbind outcome_bind]. rewrite MF. cbn [mbind outcome_bind]. rewrite EFS. done.
  - split; cbn [mp_v mp_e mp_f mp_vertices mp_edges mp_faces]; assumption.
Qed.
End Merge.

Section Sits.
Context {P : Type} (one two : polyhedron P) (f1 f2 : nat) (face1 face2 : list (nat * nat)).
Context (F1 : ph_faces one !! f1 = Some face1) (F2 : ph_faces two !! f2 = Some face2) (LE : length face1 = length face2).
Context (remove : bool) (r : merged_polyhedron P) (M : merged_by_face one two f1 f2 face1 face2 remove r).

Lemma same_number n1 n2 s1 s2 same m v w : put_together n1 n2 s1 s2 same m -> same v w ->
  exists i, mg_one m !! v = Some (Some i) /\ mg_two m !! w = Some (Some i).
Proof.
  intros H S. apply (pt_same _ _ _ _ _ _ H) in S as [i I]. exists i. split; [apply (pt_one _ _ _ _ _ _ H)|apply (pt_two _ _ _ _ _ _ H)]; eauto.
Qed.
Lemma sits_one : sits_in one (mg_one (mp_v r)) (mg_one (mp_e r)) (mg_one (mp_f r)) r.
Proof.
  destruct M as [MV ME MF MP MN MC]. split.
  - intros v i V. apply (pt_one _ _ _ _ _ _ MV) in V as [y Y]. destruct (Forall2_lookup_l _ _ _ _ _ MP Y) as (b & B & a & A & ->). by rewrite B, A.
  - intros e i x V X. apply (pt_one _ _ _ _ _ _ ME) in V as [y Y]. destruct (Forall2_lookup_l _ _ _ _ _ MN Y) as (b & B & a & A & R).
    assert (a = x) as -> by congruence. eauto.
  - intros f i x V X. apply (pt_one _ _ _ _ _ _ MF) in V as [y Y]. destruct (Forall2_lookup_l _ _ _ _ _ MC Y) as (b & B & a & A & R).
    assert (a = x) as -> by congruence. eauto.
Qed.
Lemma sits_two : (forall v w, same_place face1.*1 face2.*1 v w -> ph_vertices one !! v = ph_vertices two !! w) ->
  closed_face (ph_edges one) face1 -> closed_face (ph_edges two) face2 -> sits_in two (mg_two (mp_v r)) (mg_two (mp_e r)) (mg_two (mp_f r)) r.
Proof.
  intros SP K1 K2. pose proof M as [MV ME MF MP MN MC]. split.
  - intros w i V. apply (pt_two _ _ _ _ _ _ MV) in V as [[v|] Y]; destruct (Forall2_lookup_l _ _ _ _ _ MP Y) as (b & B & a & A & ->); rewrite B, <-A; [|done].
    apply SP. apply (pt_same _ _ _ _ _ _ MV). eauto.
  - intros e i x V X. apply (pt_two _ _ _ _ _ _ ME) in V as [[v|] Y]; destruct (Forall2_lookup_l _ _ _ _ _ MN Y) as (b & B & a & A & R).
    2: { assert (a = x) as -> by congruence. eauto. }
    assert (same_place face1.*2 face2.*2 v e) as (k & S1 & S2) by (apply (pt_same _ _ _ _ _ _ ME); eauto).
    rewrite list_lookup_fmap_Some in S1. rewrite list_lookup_fmap_Some in S2. destruct S1 as ([v1 e1] & S1 & ->). destruct S2 as ([v2 e2] & S2 & ->). cbn in *.
    assert (length face1 <> 0) as N by (apply lookup_lt_Some in S1; lia).
    destruct (lookup_lt_is_Some_2 face1 ((k + 1) mod length face1)) as [[w1 g1] T1]; [by apply Nat.mod_upper_bound|].
    destruct (lookup_lt_is_Some_2 face2 ((k + 1) mod length face1)) as [[w2 g2] T2]; [rewrite <-LE; by apply Nat.mod_upper_bound|].
    pose proof (K1 _ _ _ _ _ S1 T1) as J1. rewrite LE in T2. pose proof (K2 _ _ _ _ _ S2 T2) as J2. rewrite <-LE in T2.
    destruct (same_number _ _ _ _ _ _ v1 v2 MV) as (p & P1 & P2).
    { exists k. rewrite !list_lookup_fmap, S1, S2. done. }
    destruct (same_number _ _ _ _ _ _ w1 w2 MV) as (q & Q1 & Q2).
    { exists ((k + 1) mod length face1). rewrite !list_lookup_fmap, T1, T2. done. }
    exists b. split; [done|]. destruct R as (s & t & -> & R1 & R2). unfold renumbered.
    destruct J1 as [J1|J1]; rewrite J1 in A; apply (inj Some) in A; subst a; destruct J2 as [J2|J2]; rewrite J2 in X; apply (inj Some) in X; subst x; cbn in *;
      [left|right|right|left]; exists s, t; (split; [done|]); split; congruence.
  - intros f i x V X. apply (pt_two _ _ _ _ _ _ MF) in V as [[v|] Y]; destruct (Forall2_lookup_l _ _ _ _ _ MC Y) as (b & B & a & A & R).
    2: { assert (a = x) as -> by congruence. eauto. }
    assert (remove = false /\ v = f1 /\ f = f2) as (_ & -> & ->) by (apply (pt_same _ _ _ _ _ _ MF); eauto).
    assert (a = face1) as -> by congruence. assert (x = face2) as -> by congruence. exists b. split; [done|].
    apply Forall2_same_length_lookup_2; [by rewrite <-LE; eapply Forall2_length|]. intros k [w2 g2] y K L.
    destruct (Forall2_lookup_r _ _ _ _ _ R L) as ([w1 g1] & K' & s & t & -> & R1 & R2). cbn in *.
    destruct (same_number _ _ _ _ _ _ w1 w2 MV) as (p & P1 & P2).
    { exists k. rewrite !list_lookup_fmap, K, K'. done. }
    destruct (same_number _ _ _ _ _ _ g1 g2 ME) as (q & Q1 & Q2).
    { exists k. rewrite !list_lookup_fmap, K, K'. done. }
    exists s, t. cbn. split; [done|]. split; congruence.
Qed.
End Sits.

(** ** How many cells there are. *)
Section Count.
Context {O A : Type} (f : O -> option A).
Definition once (old : list O) : Prop := forall i j x o o', old !! i = Some o -> f o = Some x -> old !! j = Some o' -> f o' = Some x -> i = j.
Lemma once_nodup old : once old -> NoDup (omap f old).
Proof.
  induction old as [|o old IH]; intros H; cbn; [constructor|].
  assert (once old) as H'.
  { intros i j x y y' I FI J FJ. specialize (H (S i) (S j) x y y' I FI J FJ). lia. }
  destruct (f o) as [a|] eqn:E; [|by apply IH]. constructor; [|by apply IH]. intros X. apply elem_of_list_omap in X as (o' & X & FX).
  apply elem_of_list_lookup in X as [j J]. specialize (H 0 (S j) a o o' eq_refl E J FX). lia.
Qed.
Lemma omap_count old l : NoDup l -> once old -> (forall x, x ∈ l <-> exists i o, old !! i = Some o /\ f o = Some x) -> length (omap f old) = length l.
Proof.
  intros N H E. apply Permutation_length, NoDup_Permutation; [by apply once_nodup|done|]. intros x. rewrite E, elem_of_list_omap. split.
  - intros (o & X & F). apply elem_of_list_lookup in X as [i I]. eauto.
  - intros (i & o & I & F). exists o. split; [by eapply elem_of_list_lookup_2|done].
Qed.
End Count.
Definition both (o : option nat * option nat) : option (nat * nat) := match o with (Some v, Some w) => Some (v, w) | _ => None end.
Lemma count_all (old : list (option nat * option nat)) : (forall i x y, old !! i = Some (x, y) -> x <> None \/ y <> None) ->
  length old + length (omap both old) = length (omap fst old) + length (omap snd old).
Proof.
  induction old as [|[x y] old IH]; intros H; [done|]. specialize (IH (fun i => H (S i))). specialize (H 0 x y eq_refl).
  destruct x as [v|], y as [w|]; cbn in *; try lia. destruct H; done.
Qed.
Lemma count_cells n1 n2 (s1 s2 : nat -> Prop) same r (l1 l2 : list nat) (l : list (nat * nat)) : put_together n1 n2 s1 s2 same r ->
  NoDup l1 -> NoDup l2 -> NoDup l -> (forall v, v ∈ l1 <-> v < n1 /\ s1 v) -> (forall v, v ∈ l2 <-> v < n2 /\ s2 v) ->
  (forall v w, (v, w) ∈ l <-> same v w) -> length (mg_old r) + length l = length l1 + length l2.
Proof.
  intros H N1 N2 N E1 E2 E. destruct (pt_length _ _ _ _ _ _ H) as [L1 L2].
  rewrite <-(omap_count fst (mg_old r) l1), <-(omap_count snd (mg_old r) l2), <-(omap_count both (mg_old r) l).
  - apply count_all. exact (pt_some _ _ _ _ _ _ H).
  - done.
  - intros i j [v w] [x y] [x' y'] I FI J FJ. destruct x, y, x', y'; try done. cbn in *.
    assert (mg_one r !! v = Some (Some i)) by (apply (pt_one _ _ _ _ _ _ H); naive_solver).
    assert (mg_one r !! v = Some (Some j)) by (apply (pt_one _ _ _ _ _ _ H); naive_solver). congruence.
  - intros [v w]. rewrite E, <-(pt_same _ _ _ _ _ _ H). split.
    + intros [i I]. by exists i, (Some v, Some w).
    + intros (i & [x y] & I & FI). exists i. destruct x, y; try done. cbn in FI. congruence.
  - done.
  - intros i j w [x y] [x' y'] I FI J FJ. cbn in *. subst.
    assert (mg_two r !! w = Some (Some i)) by (apply (pt_two _ _ _ _ _ _ H); eauto).
    assert (mg_two r !! w = Some (Some j)) by (apply (pt_two _ _ _ _ _ _ H); eauto). congruence.
  - intros w. rewrite E2. split.
    + intros [W S]. apply (pt_stays2 _ _ _ _ _ _ H w W) in S as [i I]. apply (pt_two _ _ _ _ _ _ H) in I as [x I]. by exists i, (x, Some w).
    + intros (i & [x y] & I & FI). cbn in FI. subst y. assert (mg_two r !! w = Some (Some i)) as M by (apply (pt_two _ _ _ _ _ _ H); eauto).
      assert (w < n2) as W by (rewrite <-L2; by eapply lookup_lt_Some). split; [done|]. apply (pt_stays2 _ _ _ _ _ _ H w W). eauto.
  - done.
  - intros i j w [x y] [x' y'] I FI J FJ. cbn in *. subst.
    assert (mg_one r !! w = Some (Some i)) by (apply (pt_one _ _ _ _ _ _ H); eauto).
    assert (mg_one r !! w = Some (Some j)) by (apply (pt_one _ _ _ _ _ _ H); eauto). congruence.
  - intros w. rewrite E1. split.
    + intros [W S]. apply (pt_stays1 _ _ _ _ _ _ H w W) in S as [i I]. apply (pt_one _ _ _ _ _ _ H) in I as [x I]. by exists i, (Some w, x).
    + intros (i & [x y] & I & FI). cbn in FI. subst x. assert (mg_one r !! w = Some (Some i)) as M by (apply (pt_one _ _ _ _ _ _ H); eauto).
      assert (w < n1) as W by (rewrite <-L1; by eapply lookup_lt_Some). split; [done|]. apply (pt_stays1 _ _ _ _ _ _ H w W). eauto.
Qed.
Lemma seq_all n (v : nat) : v ∈ seq 0 n <-> v < n /\ True.
Proof. rewrite elem_of_seq. lia. Qed.
Lemma zip_places (vs ws : list nat) v w : (v, w) ∈ zip vs ws <-> same_place vs ws v w.
Proof.
  rewrite elem_of_list_lookup. split.
  - intros [k K]. apply lookup_zip_with_Some in K as (x & y & Q & X & Y). exists k. split; congruence.
  - intros (k & X & Y). exists k. apply lookup_zip_with_Some. eauto.
Qed.
Lemma zip_nodup (vs ws : list nat) : length vs = length ws -> NoDup vs -> NoDup (zip vs ws).
Proof. intros L N. apply (NoDup_fmap_1 fst). rewrite fst_zip; [done|lia]. Qed.
Lemma without_length n f : f < n -> length (filter (fun v => v <> f) (seq 0 n)) + 1 = n.
Proof.
  intros F. assert (f :: filter (fun v => v <> f) (seq 0 n) ≡ₚ seq 0 n) as H.
  { apply NoDup_Permutation; [constructor; [rewrite elem_of_list_filter; naive_solver|apply NoDup_filter, NoDup_seq]|apply NoDup_seq|].
    intros x. rewrite elem_of_cons, elem_of_list_filter, elem_of_seq. destruct (decide (x = f)); [subst; split; [lia|tauto]|tauto]. }
  apply Permutation_length in H. cbn in H. rewrite seq_length in H. lia.
Qed.
Lemma counts {P} (one two : polyhedron P) f1 f2 face1 face2 remove r : merged_by_face one two f1 f2 face1 face2 remove r ->
  ph_faces one !! f1 = Some face1 -> ph_faces two !! f2 = Some face2 -> length face1 = length face2 ->
  NoDup face1.*1 -> NoDup face1.*2 ->
  length (mp_vertices r) + length face1 = length (ph_vertices one) + length (ph_vertices two) /\
  length (mp_edges r) + length face1 = length (ph_edges one) + length (ph_edges two) /\
  length (mp_faces r) + (if remove then 2 else 1) = length (ph_faces one) + length (ph_faces two).
Proof.
  intros [MV ME MF MP MN MC] F1 F2 LE V1 E1. apply lookup_lt_Some in F1. apply lookup_lt_Some in F2.
  rewrite <-(Forall2_length _ _ _ MP), <-(Forall2_length _ _ _ MN), <-(Forall2_length _ _ _ MC). split; [|split].
  - pose proof (count_cells _ _ _ _ _ _ (seq 0 (length (ph_vertices one))) (seq 0 (length (ph_vertices two))) (zip face1.*1 face2.*1) MV) as H.
    rewrite !seq_length, zip_with_length, !fmap_length, <-LE, Nat.min_id in H. apply H; [apply NoDup_seq|apply NoDup_seq| |apply seq_all|apply seq_all|apply zip_places].
    apply zip_nodup; [by rewrite !fmap_length|done].
  - pose proof (count_cells _ _ _ _ _ _ (seq 0 (length (ph_edges one))) (seq 0 (length (ph_edges two))) (zip face1.*2 face2.*2) ME) as H.
    rewrite !seq_length, zip_with_length, !fmap_length, <-LE, Nat.min_id in H. apply H; [apply NoDup_seq|apply NoDup_seq| |apply seq_all|apply seq_all|apply zip_places].
    apply zip_nodup; [by rewrite !fmap_length|done].
  - destruct remove.
    + pose proof (count_cells _ _ _ _ _ _ (filter (fun v => v <> f1) (seq 0 (length (ph_faces one)))) (filter (fun v => v <> f2) (seq 0 (length (ph_faces two)))) [] MF) as H.
      pose proof (without_length _ _ F1). pose proof (without_length _ _ F2). cbn [length] in H. enough (length (mg_old (mp_f r)) + 0 = length (filter (fun v => v <> f1) (seq 0 (length (ph_faces one)))) + length (filter (fun v => v <> f2) (seq 0 (length (ph_faces two))))) by lia.
      apply H; [apply NoDup_filter, NoDup_seq|apply NoDup_filter, NoDup_seq|constructor| | |].
      * intros v. rewrite elem_of_list_filter, elem_of_seq. split; [intros [Q B]; split; [lia|done]|intros [B Q]; split; [by apply Q|lia]].
      * intros v. rewrite elem_of_list_filter, elem_of_seq. split; [intros [Q B]; split; [lia|done]|intros [B Q]; split; [by apply Q|lia]].
      * intros v w. split; [intros X; by apply elem_of_nil in X|intros [X _]; done].
    + pose proof (count_cells _ _ _ _ _ _ (seq 0 (length (ph_faces one))) (seq 0 (length (ph_faces two))) [(f1, f2)] MF) as H. rewrite !seq_length in H.
      apply H; [apply NoDup_seq|apply NoDup_seq|apply NoDup_singleton| | |].
      * intros v. rewrite elem_of_seq. split; [intros B; split; [lia|done]|lia].
      * intros v. rewrite elem_of_seq. split; [intros B; split; [lia|done]|lia].
      * intros v w. rewrite elem_of_list_singleton. split; [intros X; by simplify_eq|intros (_ & -> & ->); done].
Qed.
