(** Computation of neighbours. *)
From Verif Require Import Base BaseProof CsrModel CsrSpec CsrProof MeshModel MeshSpec MeshRep MeshHist
  MeshProof MeshProof2 MeshProof3 MeshProof4 MeshProof5 MeshProof6 MeshProof7 MeshProof8 MeshProof9 MeshProofA MeshProofB
  MeshProg MeshWit UtilModel UtilSpec UtilProofA UtilProofB UtilProofC.
From Coq Require Import ZifyBool ZifyNat ZifyN Sorted.

(** ** Collecting *)

Lemma occurrences_cons v w l : occurrences v (w :: l) = (if decide (w = v) then 1 else 0) + occurrences v l.
Proof. unfold occurrences. rewrite filter_cons. by case_decide. Qed.
Lemma occurrences_app v l k : occurrences v (l ++ k) = occurrences v l + occurrences v k.
Proof. unfold occurrences. by rewrite filter_app, app_length. Qed.
Lemma occurrences_replicate v n w : occurrences v (replicate n w) = if decide (w = v) then n else 0.
Proof.
  induction n as [|n IH]; cbn [replicate]; [unfold occurrences; cbn; by case_decide|].
  rewrite occurrences_cons, IH. by case_decide.
Qed.

Definition gather (R : nat -> list N) (n : nat) (v : nat) : list N :=
  concat ((fun c => replicate (occurrences (N.of_nat v) (R c)) (N.of_nat c)) <$> seq 0 n).

Lemma gather_S R n v :
  gather R (S n) v = gather R n v ++ replicate (occurrences (N.of_nat v) (R n)) (N.of_nat n).
Proof. unfold gather. rewrite seq_snoc, fmap_app, concat_app. cbn. by rewrite app_nil_r. Qed.

Lemma gather_below R n v w : w ∈ gather R n v -> (w < N.of_nat n)%N.
Proof.
  induction n as [|n IH]; [by intros ?%elem_of_nil|]. rewrite gather_S, elem_of_app, elem_of_replicate. intros [?|[-> _]]; [|lia].
  specialize (IH ltac:(done)). lia.
Qed.

Lemma sorted_snoc_rep l n c : StronglySorted N.le l -> (forall w, w ∈ l -> (w <= c)%N) ->
  StronglySorted N.le (l ++ replicate n c).
Proof.
  intros Hl Hc. induction Hl as [|x l Hl IH Hx]; cbn [app].
  - induction n; cbn [replicate]; constructor; [done|]. apply Forall_forall. intros w [-> _]%elem_of_replicate. lia.
  - constructor; [apply IH; intros; apply Hc; by right|]. apply Forall_app. split; [done|].
    apply Forall_forall. intros w [-> _]%elem_of_replicate. apply Hc. by left.
Qed.

Lemma gather_sorted R n v : StronglySorted N.le (gather R n v).
Proof.
  induction n as [|n IH]; [constructor|]. rewrite gather_S. apply sorted_snoc_rep; [done|].
  intros w Hw%gather_below. lia.
Qed.

Lemma gather_occ R n v c :
  occurrences (N.of_nat c) (gather R n v) = if decide (c < n) then occurrences (N.of_nat v) (R c) else 0.
Proof.
  induction n as [|n IH]; [done|]. rewrite gather_S, occurrences_app, IH, occurrences_replicate.
  destruct (decide (c < n)).
  - rewrite (decide_False (P := N.of_nat n = N.of_nat c)) by lia. rewrite decide_True by lia. lia.
  - destruct (decide (N.of_nat n = N.of_nat c)).
    + assert (n = c) as -> by lia. by rewrite decide_True by lia.
    + by rewrite decide_False by lia.
Qed.

Lemma push_all (g : nat -> list N) n c l :
  Forall (fun v => (v < N.of_nat n)%N) l ->
  ofold (fun nb v => push_neighbour v c nb) l (g <$> seq 0 n)
  = Ok ((fun v => g v ++ replicate (occurrences (N.of_nat v) l) (N.of_nat c)) <$> seq 0 n).
Proof.
  intros Hl. revert g. induction Hl as [|v l Hv Hl IH]; intros g; cbn [ofold].
  - f_equal. apply list_fmap_ext. intros i x _. unfold occurrences. cbn. by rewrite app_nil_r.
  - assert (Hp : push_neighbour v c (g <$> seq 0 n) = Ok (<[N.to_nat v := g (N.to_nat v) ++ [N.of_nat c]]> (g <$> seq 0 n))).
    { unfold push_neighbour. rewrite (vget_Ok _ _ (g (N.to_nat v))) by (rewrite list_lookup_fmap, lookup_seq_lt by lia; done).
      cbn [mbind outcome_bind]. unfold vset. by rewrite fmap_length, seq_length, decide_True by lia. }
    rewrite Hp. cbn [mbind outcome_bind].
    assert (E : <[N.to_nat v := g (N.to_nat v) ++ [N.of_nat c]]> (g <$> seq 0 n) =
                (fun w => if decide (N.of_nat w = v) then g w ++ [N.of_nat c] else g w) <$> seq 0 n).
    { apply list_eq. intros i. destruct (decide (i = N.to_nat v)) as [->|Ei].
      - rewrite list_lookup_insert by (rewrite fmap_length, seq_length; lia).
        rewrite list_lookup_fmap, lookup_seq_lt by lia. cbn [fmap option_fmap option_map Nat.add]. by rewrite decide_True by lia.
      - rewrite list_lookup_insert_ne by done. rewrite !list_lookup_fmap. destruct (seq 0 n !! i) as [j|] eqn:Ej; [|done].
        apply lookup_seq in Ej as [-> _]. cbn. by rewrite decide_False by lia. }
    rewrite E, IH. f_equal. apply list_fmap_ext. intros i x [-> _]%lookup_seq. rewrite occurrences_cons. cbn [Nat.add].
    destruct (decide (N.of_nat i = v)) as [Ev|Ev].
    + rewrite decide_True by done. rewrite <- app_assoc. cbn. done.
    + by rewrite decide_False by (intros ->; done).
Qed.

(** [R c]: the entries of cell [c] if it is active. *)
Lemma collect_ok m a d lower row R n :
  represents m a -> n <= anum d a ->
  (forall c, c < n -> aact a d c = true -> row c m = Ok (R c)) ->
  (forall c, c < n -> aact a d c = false -> R c = []) ->
  (forall c, c < n -> Forall (fun v => (v < N.of_nat lower)%N) (R c)) ->
  ofold (fun nb c =>
           b ← IsActive d c m;
           if b : bool then l ← row c m; ofold (fun nb v => push_neighbour v c nb) l nb else Ok nb)
        (seq 0 n) (replicate lower []) = Ok (gather R n <$> seq 0 lower).
Proof.
  intros H. induction n as [|n IH]; intros Hn H1 H2 H3.
  - cbn. f_equal. apply list_eq. intros i. rewrite list_lookup_fmap. destruct (decide (i < lower)).
    + rewrite lookup_seq_lt by done. by rewrite lookup_replicate_2.
    + rewrite !lookup_ge_None_2; [done|rewrite seq_length; lia|rewrite replicate_length; lia].
  - rewrite seq_snoc, ofold_app, IH; [|lia|intros; apply H1; lia || done|intros; apply H2; lia || done|intros; apply H3; lia].
    cbn [mbind outcome_bind ofold].
    assert (Ha : IsActive d n m = Ok (aact a d n)).
    { rewrite (g_active _ _ H). unfold look, aact. destruct (lookup_lt_is_Some_2 (am_cells a d) n ltac:(unfold anum in Hn; lia)) as [x ->]. done. }
    rewrite Ha. cbn [mbind outcome_bind].
    destruct (aact a d n) eqn:En.
    + rewrite H1 by (lia || done). cbn [mbind outcome_bind]. rewrite push_all by (apply H3; lia). cbn [mbind outcome_bind].
      f_equal. apply list_fmap_ext. intros i x _. by rewrite gather_S.
    + cbn [mbind outcome_bind]. f_equal. apply list_fmap_ext. intros i x _. rewrite gather_S, H2 by (lia || done).
      unfold occurrences. cbn. by rewrite app_nil_r.
Qed.

(** ** Storing *)

(** All the rows [r] replaced by [G]. *)
Definition set_rows (r : rel) (G : nat -> list N) : dim -> nat -> acell -> acell :=
  fun d i x => if decide (d = src r) then with_row r (G i) x else x.

Lemma deal_lens {A} cnt (l : list A) i n : sum_list cnt <= length l -> cnt !! i = Some n ->
  exists k, deal cnt l !! i = Some k /\ length k = n.
Proof.
  revert l i. induction cnt as [|c cnt IH]; intros l i Hl Hi; [done|]. cbn in Hl. destruct i as [|i]; cbn in *.
  - injection Hi as <-. eexists. split; [done|]. rewrite take_length. lia.
  - apply IH; [rewrite drop_length; lia|done].
Qed.

Lemma redeal_lens {A} (d : A) cnt rows i n : cnt !! i = Some n ->
  exists k, redeal d cnt rows !! i = Some k /\ length k = n.
Proof. intros Hi. unfold redeal. apply deal_lens; [|done]. by rewrite resize_length. Qed.

Lemma does_InitAll r cnt a :
  length cnt = anum (src r) a ->
  exists R, (forall i n, cnt !! i = Some n -> length (R i) = n) /\ does (RelInitAll r cnt) a (amap (set_rows r R) a).
Proof.
  intros Hc. set (rows := redeal (default_bulk r) cnt (row_of r <$> am_cells a (src r))).
  exists (fun i => default [] (rows !! i)). split.
  - intros i n Hi. destruct (redeal_lens (default_bulk r) cnt (row_of r <$> am_cells a (src r)) i n Hi) as (k & Hk & Hl).
    unfold rows. by rewrite Hk.
  - eapply does_aeq; [apply (does_step a (OInitAll r cnt)); [done|]; cbn [astep]; by rewrite decide_True|].
    fold rows. assert (Hrl : length rows = length (am_cells a (src r))) by (unfold rows; rewrite redeal_length; exact Hc).
    apply aeq_intro; [done..| |].
    + intros d. rewrite amap_num. unfold anum. cbn [with_cells am_cells]. unfold upd_fun. case_decide as E; [|done].
      subst. rewrite zip_with_length. lia.
    + intros d i x y. rewrite amap_lookup. cbn [with_cells am_cells]. unfold upd_fun, set_rows.
      case_decide as E.
      * subst d. rewrite lookup_zip_with. destruct (rows !! i) as [k|] eqn:Ek; [|done]. cbn [mbind option_bind].
        destruct (am_cells a (src r) !! i) as [z|]; [|done]. cbn. intros [= <-]. rewrite decide_True by done.
        intros [= <-]. apply ceq_refl.
      * intros ->. cbn [fmap option_fmap option_map]. rewrite decide_False by done. intros [= <-]. apply ceq_refl.
Qed.

Lemma does_aeq_l P a a' b : aeq a a' -> does P a' b -> does P a b.
Proof. intros He H m Hm. apply H. by eapply rr_aeq. Qed.

Lemma store_ok r nb a :
  length nb = anum (src r) a -> Forall (all_below (anum (tgt r) a)) nb ->
  does (store_neighbours r nb) a (amap (set_rows r (fun i => nb !!! i)) a).
Proof.
  intros Hl Hb. destruct (does_InitAll r (length <$> nb) a) as (R & HR & Hd); [by rewrite fmap_length|].
  unfold store_neighbours. eapply does_bind; [exact Hd|].
  set (g := fun k => amap (set_rows r (fun i => if decide (i < k) then nb !!! i else R i)) a).
  apply does_aeq with (g (length (imap pair nb))).
  - assert (E0 : aeq (amap (set_rows r R) a) (g 0)).
    { unfold g. apply amap_ext. intros d i x _. unfold set_rows. case_decide; [|apply ceq_refl]. by rewrite decide_False by lia. }
    apply (does_aeq_l _ _ _ _ E0). change (fun m : mesh => ofold ?f ?l m) with (ofold f l).
    apply does_loop. intros k cl Hk. apply list_lookup_imap_Some in Hk as (l & Hk & ->). cbn [fst snd].
    assert (Hkl : k < length nb) by (by eapply lookup_lt_Some).
    destruct (lookup_lt_is_Some_2 (am_cells a (src r)) k ltac:(unfold anum in Hl; lia)) as [x Hx].
    eapply does_aeq.
    + apply does_InsertList with x; [done| |].
      * unfold set_rows. rewrite decide_True by done. cbn [with_row ac_rel]. rewrite upd_fun_eq, decide_False by lia.
        rewrite (HR k (length l)); [done|]. by rewrite list_lookup_fmap, Hk.
      * rewrite Forall_forall in Hb. apply Hb. by eapply elem_of_list_lookup_2.
    + apply amap_ext. intros d i y Hy. unfold also, set_rows. destruct (decide (d = src r /\ i = k)) as [[-> ->]|E].
      * rewrite !decide_True by (done || lia). rewrite decide_False by lia. rewrite (list_lookup_total_correct _ _ _ Hk).
        rewrite (decide_True (P := src r = src r)) by done. rewrite decide_True by lia.
        unfold ceq. split_and!; [done..| |done]. intros r'. cbn [with_row ac_rel]. rewrite upd_fun_eq.
        assert (HL : length (R k) = length l) by (apply HR; by rewrite list_lookup_fmap, Hk).
        rewrite drop_ge by lia. rewrite app_nil_r. unfold upd_fun. by case_decide.
      * case_decide; [|apply ceq_refl]. destruct (decide (i < k)); [rewrite decide_True by lia; apply ceq_refl|].
        rewrite decide_False; [apply ceq_refl|]. intros Hik. assert (i = k) as -> by lia. naive_solver.
  - apply amap_ext. intros d i x Hx. unfold set_rows. case_decide; [|apply ceq_refl]. subst.
    rewrite decide_True; [apply ceq_refl|]. rewrite imap_length. apply lookup_lt_Some in Hx. unfold anum in Hl. lia.
Qed.

(** Only the rows [r] differ. *)
Lemma look_amap {B} F a d i (f : acell -> B) :
  (forall x, f (F d i x) = f x) -> look (amap F a) d i f = look a d i f.
Proof. intros H. unfold look. rewrite amap_lookup. destruct (am_cells a d !! i); cbn; [by rewrite H|done]. Qed.

Lemma set_rows_frame m m' a r G :
  represents m a -> represents m' (amap (set_rows r G) a) ->
  (forall r' j, r' <> r -> RelRow r' j m' = RelRow r' j m) /\ same_values m m' /\ same_props m m'.
Proof.
  intros H H'.
  assert (HF : forall d i x, ac_geo (set_rows r G d i x) = ac_geo x /\ ac_mark (set_rows r G d i x) = ac_mark x /\
            ac_act (set_rows r G d i x) = ac_act x /\ ac_orig (set_rows r G d i x) = ac_orig x /\
            ac_upd (set_rows r G d i x) = ac_upd x /\ ac_prop (set_rows r G d i x) = ac_prop x /\
            (forall r', r' <> r -> ac_rel (set_rows r G d i x) r' = ac_rel x r')).
  { intros d i x. unfold set_rows. case_decide; [|done]. repeat split. intros r' Hr. cbn. by rewrite upd_fun_ne. }
  split; [|split].
  - intros r' j Hr. rewrite (g_row _ _ H), (g_row _ _ H'). apply look_amap. intros x. unfold row_of. by apply HF.
  - unfold same_values. split_and!.
    + intros d. by rewrite (g_num _ _ H), (g_num _ _ H'), amap_num.
    + intros i. rewrite (g_coord _ _ H), (g_coord _ _ H'). apply look_amap. intros x. unfold geo_triple.
      by destruct (HF D0 i x) as [-> _].
    + intros e. rewrite (g_origin _ _ H), (g_origin _ _ H'), (g_end _ _ H), (g_end _ _ H').
      split; apply look_amap; intros x; unfold geo_pair; by destruct (HF D1 e x) as [-> _].
    + intros d i. rewrite (g_marker _ _ H), (g_marker _ _ H'), (g_active _ _ H), (g_active _ _ H').
      split; apply look_amap; intros x; apply HF.
    + intros d i. rewrite (g_hasupdateds _ _ H), (g_hasupdateds _ _ H'). apply look_amap. intros x.
      by destruct (HF d i x) as (_&_&_&_&->&_).
    + intros d i Hd. rewrite (g_original _ _ H), (g_original _ _ H') by done. apply look_amap. intros x. apply HF.
  - intros d i p. split.
    + rewrite (g_propsize _ _ H), (g_propsize _ _ H'), amap_lookup, amap_names.
      destruct (am_cells a d !! i) as [x|]; [|done]. cbn. unfold prop_of. by destruct (HF d i x) as (_&_&_&_&_&->&_).
    + intros k. rewrite (g_propvalue _ _ H), (g_propvalue _ _ H'), amap_lookup, amap_names.
      destruct (am_cells a d !! i) as [x|]; [|done]. cbn. unfold prop_of. by destruct (HF d i x) as (_&_&_&_&_&->&_).
Qed.

(** ** All together *)

Lemma computed r row m :
  reachable m -> valid_incidence r row m ->
  exists m', (nb ← collect_neighbours (tgt r) (num (src r) m) row m; store_neighbours r nb m) = Ok m' /\
    reachable m' /\ neighbours_computed r row m m'.
Proof.
  intros Hm Hv. destruct (rr_of m Hm) as [a Ha]. pose proof (proj2 Ha) as H.
  set (R := fun c => if active (tgt r) m c then match row c m with Ok k => k | _ => [] end else []).
  assert (Hrow : forall c, aact a (tgt r) c = true -> row c m = Ok (R c) /\ Forall (fun v => (v < N.of_nat (anum (src r) a))%N) (R c)).
  { intros c Hc. rewrite <- (active_aact m a _ _ H) in Hc. destruct (Hv c Hc) as (l & Hl & Hb). unfold R. rewrite Hc, Hl.
    split; [done|]. by rewrite <- (g_num _ _ H). }
  assert (Hnone : forall c, aact a (tgt r) c = false -> R c = []).
  { intros c Hc. rewrite <- (active_aact m a _ _ H) in Hc. unfold R. by rewrite Hc. }
  unfold collect_neighbours. rewrite !(g_num _ _ H).
  rewrite (collect_ok m a (tgt r) (anum (src r) a) row R (anum (tgt r) a)); [|done|lia|intros; by apply Hrow|intros; by apply Hnone|].
  2: { intros c _. destruct (aact a (tgt r) c) eqn:Ec; [by apply Hrow|]. by rewrite Hnone. }
  cbn [mbind outcome_bind].
  destruct (store_ok r (gather R (anum (tgt r) a) <$> seq 0 (anum (src r) a)) a) with (m := m) as (m' & E & Hm').
  { by rewrite fmap_length, seq_length. }
  { apply Forall_forall. intros l (v & -> & _)%elem_of_list_fmap. apply Forall_forall. intros w. apply gather_below. }
  { done. }
  exists m'. split; [done|]. split; [apply Hm'|].
  destruct (set_rows_frame m m' a r _ H (proj2 Hm')) as (F1 & F2 & F3). split; [|done].
  intros v Hvn. rewrite (g_num _ _ H) in Hvn. exists (gather R (anum (tgt r) a) v). split_and!.
  - rewrite (g_row _ _ (proj2 Hm')). unfold look. rewrite amap_lookup.
    destruct (lookup_lt_is_Some_2 (am_cells a (src r)) v Hvn) as [x Hx]. rewrite Hx. cbn [fmap option_fmap option_map]. f_equal.
    unfold set_rows. rewrite decide_True by done. unfold row_of. cbn [with_row ac_rel]. rewrite upd_fun_eq.
    apply list_lookup_total_correct. by rewrite list_lookup_fmap, lookup_seq_lt.
  - apply gather_sorted.
  - intros c. rewrite gather_occ. unfold R. destruct (decide (c < anum (tgt r) a)) as [Hc|Hc].
    + destruct (active (tgt r) m c); [|done]. destruct (row c m); done.
    + rewrite (active_aact m a _ _ H). unfold aact. rewrite lookup_ge_None_2; [done|]. unfold anum in Hc. lia.
Qed.

Lemma read_row_ok r c m : reachable m -> c < num (src r) m -> read_row r c m = RelRow r c m.
Proof.
  intros Hm Hc. destruct (rr_of m Hm) as [a [_ H]]. rewrite (g_num _ _ H) in Hc.
  destruct (lookup_lt_is_Some_2 (am_cells a (src r)) c Hc) as [x Hx].
  unfold read_row. rewrite (g_count _ _ H). unfold look. rewrite Hx. cbn [mbind outcome_bind].
  rewrite (g_row _ _ H). unfold look. rewrite Hx. rewrite Nat2N.id. apply omapM_seq_get.
  intros k v Hk. rewrite (g_get _ _ H), Hx. unfold row_of in Hk. by rewrite Hk.
Qed.

Lemma active_lt d m c : reachable m -> active d m c = true -> c < num d m.
Proof.
  intros Hm. destruct (rr_of m Hm) as [a [_ H]]. rewrite (active_aact m a _ _ H), (g_num _ _ H). unfold aact.
  destruct (am_cells a d !! c) eqn:E; [|done]. intros _. by eapply lookup_lt_Some.
Qed.

Lemma computed_row r k m :
  tgt r = src k -> reachable m -> valid_incidence r (RelRow k) m ->
  exists m', (nb ← collect_neighbours (tgt r) (num (src r) m) (read_row k) m; store_neighbours r nb m) = Ok m' /\
    reachable m' /\ neighbours_computed r (RelRow k) m m'.
Proof.
  intros Hk Hm Hv.
  assert (E : forall c, active (tgt r) m c = true -> read_row k c m = RelRow k c m).
  { intros c Hc. apply read_row_ok; [done|]. rewrite <- Hk. by apply active_lt. }
  destruct (computed r (read_row k) m Hm) as (m' & E1 & Hm' & (H1 & H2)).
  { intros c Hc. rewrite (E c Hc). by apply Hv. }
  exists m'. split_and!; [done..|]. split; [|done]. intros v Hvn. destruct (H1 v Hvn) as (l & Hl & Hs & Ho).
  exists l. split_and!; [done..|]. intros c. rewrite Ho. destruct (active (tgt r) m c) eqn:Ec; [|done].
  by rewrite (E c Ec).
Qed.

Lemma neighbours_01 m : reachable m -> valid_incidence R01 Cell1DExtremes m ->
  exists m', ComputeCell0DCell1DNeighbours m = Ok m' /\ reachable m' /\ neighbours_computed R01 Cell1DExtremes m m'.
Proof. apply (computed R01). Qed.
Lemma neighbours_02 m : reachable m -> valid_incidence R02 (RelRow V2) m ->
  exists m', ComputeCell0DCell2DNeighbours m = Ok m' /\ reachable m' /\ neighbours_computed R02 (RelRow V2) m m'.
Proof. by apply (computed_row R02). Qed.
Lemma neighbours_03 m : reachable m -> valid_incidence R03 (RelRow V3) m ->
  exists m', ComputeCell0DCell3DNeighbours m = Ok m' /\ reachable m' /\ neighbours_computed R03 (RelRow V3) m m'.
Proof. by apply (computed_row R03). Qed.
Lemma neighbours_13 m : reachable m -> valid_incidence R13 (RelRow E3) m ->
  exists m', ComputeCell1DCell3DNeighbours m = Ok m' /\ reachable m' /\ neighbours_computed R13 (RelRow E3) m m'.
Proof. by apply (computed_row R13). Qed.
Lemma neighbours_23 m : reachable m -> valid_incidence R23 (RelRow F3) m ->
  exists m', ComputeCell2DCell3DNeighbours m = Ok m' /\ reachable m' /\ neighbours_computed R23 (RelRow F3) m m'.
Proof. by apply (computed_row R23). Qed.
Lemma neighbours_12_space m : reachable m -> mdim m = 3 -> valid_incidence R12 (RelRow E2) m ->
  exists m', ComputeCell1DCell2DNeighbours m = Ok m' /\ reachable m' /\ neighbours_computed R12 (RelRow E2) m m'.
Proof. intros Hm Hd. unfold ComputeCell1DCell2DNeighbours. rewrite Hd. by apply (computed_row R12). Qed.
