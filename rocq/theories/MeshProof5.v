From Verif Require Import Base BaseProof CsrModel CsrSpec CsrProof MeshModel MeshSpec MeshRep
  MeshProof MeshProof2 MeshProof3 MeshProof4.
From Coq Require Import ZifyBool ZifyNat ZifyN.

(** ** Double properties *)

Definition with_names (d : dim) (names : list string) (a : amesh) : amesh :=
  AMesh (am_dim a) (am_cells a) (upd_fun (am_names a) d names).

Lemma represents_set_props m a d p names cs' :
  represents m a ->
  ac_mark <$> cs' = ac_mark <$> am_cells a d -> ac_act <$> cs' = ac_act <$> am_cells a d ->
  ac_orig <$> cs' = ac_orig <$> am_cells a d -> ac_upd <$> cs' = ac_upd <$> am_cells a d ->
  ac_geo <$> cs' = ac_geo <$> am_cells a d ->
  (forall r, row_of r <$> cs' = row_of r <$> am_cells a d) ->
  rep_props p names (ac_prop <$> cs') ->
  represents (set_props d p m) (with_names d names (with_cells d cs' a)).
Proof.
  intros H Hm Ha Ho Hu Hg Hr Hp.
  pose proof (fmap_length_eq _ _ _ Hm) as Hl.
  split; cbn.
  - apply H.
  - intros d'. unfold upd_fun. case_decide as E; [|apply (r_cells _ _ H)].
    subst d'. rewrite Hl, Hm, Ha, Ho, Hu. destruct (r_cells _ _ H d). split; auto.
  - intros r. unfold upd_fun. case_decide as E; [|apply (r_rel _ _ H)].
    rewrite Hr, E. apply (r_rel _ _ H).
  - unfold upd_fun. case_decide; [subst d; rewrite Hg|]; apply H.
  - unfold upd_fun. case_decide; [subst d; rewrite Hg|]; apply H.
  - intros d'. unfold upd_fun. case_decide; [subst d'; rewrite Hg|]; apply (r_geo _ _ H).
Qed.

Lemma with_names_same a d cs' :
  aeq (with_names d (am_names a d) (with_cells d cs' a)) (with_cells d cs' a).
Proof.
  split_and!; cbn; auto using cells_eq_refl.
  intros d'. unfold upd_fun. case_decide; by subst.
Qed.

Definition column (p : nat) (rows : list (list (list N))) : list (list N) :=
  (fun x => default [] (x !! p)) <$> rows.

Lemma rep_props_update ps names rows rows' p c c' :
  rep_props ps names rows -> pvals ps !! p = Some c ->
  Forall (fun x => length x = length names) rows' ->
  csr_rep c' (column p rows') ->
  (forall q, q <> p -> column q rows' = column q rows) ->
  rep_props (Props (pids ps) (pindex ps) (<[p := c']> (pvals ps))) names rows'.
Proof.
  intros [Hi Hn Hx Hl Hr Hv] Hc HF Hc' Hq. split; cbn; auto.
  - by rewrite insert_length.
  - intros q c1. destruct (decide (q = p)) as [->|Hne].
    + rewrite list_lookup_insert by (by eapply lookup_lt_Some). by intros [= <-].
    + rewrite list_lookup_insert_ne by done. intros Hc1. fold (column q rows').
      rewrite Hq by done. by apply Hv.
Qed.

Lemma prop_lookup m a d p :
  represents m a -> p < length (am_names a d) ->
  exists c, pvals (cprops (mcells m d)) !! p = Some c /\
    csr_rep c (prop_of p <$> am_cells a d).
Proof.
  intros H Hp. pose proof (rc_props _ _ _ _ _ _ _ _ _ (r_cells _ _ H d)) as Hpr. cbn in Hpr.
  destruct (lookup_lt_is_Some_2 (pvals (cprops (mcells m d))) p) as [c Hc].
  { by rewrite (rp_len _ _ _ Hpr). }
  exists c. split; [done|]. pose proof (rp_vals _ _ _ Hpr p c Hc) as Hv.
  by rewrite <- list_fmap_compose in Hv.
Qed.

Lemma names_length m a d : represents m a -> length (pids (cprops (mcells m d))) = length (am_names a d).
Proof.
  intros H. pose proof (rc_props _ _ _ _ _ _ _ _ _ (r_cells _ _ H d)) as Hpr.
  by rewrite (rp_ids _ _ _ Hpr).
Qed.

Lemma prop_rows_len m a d : represents m a -> Forall (fun x => length (ac_prop x) = length (am_names a d)) (am_cells a d).
Proof.
  intros H. pose proof (rc_props _ _ _ _ _ _ _ _ _ (r_cells _ _ H d)) as Hpr. cbn in Hpr.
  pose proof (rp_rows _ _ _ Hpr) as Hr. by rewrite Forall_fmap in Hr.
Qed.

(** One cell's values of property [p] become [l]. *)
Lemma represents_prop_row m a d i p x l c c' :
  represents m a -> am_cells a d !! i = Some x -> p < length (am_names a d) ->
  pvals (cprops (mcells m d)) !! p = Some c ->
  csr_rep c' (<[i := l]> (prop_of p <$> am_cells a d)) ->
  represents (set_props d (Props (pids (cprops (mcells m d))) (pindex (cprops (mcells m d)))
                             (<[p := c']> (pvals (cprops (mcells m d))))) m)
    (with_cells d (<[i := with_props (<[p := l]> (ac_prop x)) x]> (am_cells a d)) a).
Proof.
  intros H Hx Hp Hc Hc'.
  eapply represents_aeq; [|apply with_names_same].
  pose proof (rc_props _ _ _ _ _ _ _ _ _ (r_cells _ _ H d)) as Hpr. cbn in Hpr.
  assert (Hlen : length (ac_prop x) = length (am_names a d)).
  { pose proof (prop_rows_len m a d H) as Hr. rewrite Forall_forall in Hr. apply Hr.
    by eapply elem_of_list_lookup_2. }
  apply represents_set_props; auto.
  1-5: by eapply fmap_insert_same.
  { intros r. by eapply fmap_insert_same. }
  eapply rep_props_update; [done|done| | |].
  - rewrite list_fmap_insert. apply Forall_insert; [apply (rp_rows _ _ _ Hpr)|]. cbn. by rewrite insert_length.
  - unfold column. rewrite list_fmap_insert, list_fmap_insert. cbn.
    rewrite list_lookup_insert by lia. cbn. by rewrite <- list_fmap_compose.
  - intros q Hq. unfold column. rewrite list_fmap_insert, list_fmap_insert. cbn.
    rewrite list_lookup_insert_ne by done. apply list_insert_id.
    rewrite !list_lookup_fmap, Hx. done.
Qed.

Lemma prop_row_lookup a d i x p :
  am_cells a d !! i = Some x -> (prop_of p <$> am_cells a d) !! i = Some (prop_of p x).
Proof. intros Hx. by rewrite list_lookup_fmap, Hx. Qed.

Lemma sim_PropInitOne m a d i p n :
  represents m a -> sim (PropInitOne d i p n m) (astep a (OPropInitOne d i p n)).
Proof.
  intros H. cbn [astep]. unfold PropInitOne.
  change (cnum (mcells m d)) with (num d m).
  rewrite (names_length m a d H).
  destruct (am_cells a d !! i) as [x|] eqn:Hx.
  2: { rewrite require_false by (by eapply num_false). case_decide; [|done]. by rewrite on_cell_None. }
  rewrite require_true by (by eapply num_true).
  apply sim_require; [lia|]. intros Hp.
  destruct (prop_lookup m a d p H Hp) as (c & Hc & Hrep).
  rewrite (vget_Ok _ _ _ Hc). cbn [mbind outcome_bind].
  destruct (csr_resize_row_spec c _ i (prop_of p x) n 0%N Hrep (prop_row_lookup _ _ _ _ _ Hx)) as (c' & Hc' & Hrep').
  rewrite fmap_length in Hc'. rewrite (rep_num m a d H). unfold anum. rewrite Hc'. cbn [mbind outcome_bind].
  eapply sim_on_cell; [done|]. eapply represents_prop_row; eauto.
  by rewrite <- vresize_resize.
Qed.

Lemma sim_PropInsert m a d i p k v :
  represents m a -> pre a (OPropInsert d i p k v) ->
  sim (PropInsert d i p k v m) (astep a (OPropInsert d i p k v)).
Proof.
  intros H Hpre. cbn [astep]. cbn [pre] in Hpre. unfold PropInsert.
  change (cnum (mcells m d)) with (num d m).
  rewrite (names_length m a d H).
  destruct (am_cells a d !! i) as [x|] eqn:Hx.
  2: { rewrite require_false by (by eapply num_false). case_decide; [|done]. by rewrite on_cell_None. }
  rewrite require_true by (by eapply num_true).
  apply sim_require; [lia|]. intros Hp.
  destruct (prop_lookup m a d p H Hp) as (c & Hc & Hrep).
  rewrite (vget_Ok _ _ _ Hc). cbn [mbind outcome_bind].
  assert (Hlen : length (ac_prop x) = length (am_names a d)).
  { pose proof (prop_rows_len m a d H) as Hr. rewrite Forall_forall in Hr. apply Hr.
    by eapply elem_of_list_lookup_2. }
  destruct (lookup_lt_is_Some_2 (ac_prop x) p) as [l Hl]; [lia|].
  specialize (Hpre x l eq_refl Hl).
  assert (Hpl : prop_of p x = l) by (unfold prop_of; by rewrite Hl).
  destruct (csr_set_spec c _ i (prop_of p x) k v Hrep (prop_row_lookup _ _ _ _ _ Hx)) as (c' & -> & Hrep').
  { by rewrite Hpl. }
  cbn [mbind outcome_bind].
  eapply sim_on_cell; [done|]. eapply represents_prop_row; eauto.
Qed.

Lemma column_zip p q (rows : list (list N)) cs n :
  Forall (fun x => length (ac_prop x) = n) cs -> length rows = length cs -> p < n ->
  column q (ac_prop <$> zip_with (fun l x => with_props (<[p := l]> (ac_prop x)) x) rows cs) =
  if decide (q = p) then rows else column q (ac_prop <$> cs).
Proof.
  intros HF. revert rows. induction HF as [|x cs Hx HF IH]; intros [|l rows] Hl Hp; cbn in *; try done.
  { by case_decide. }
  injection Hl as Hl. specialize (IH rows Hl Hp). unfold column in IH. rewrite IH.
  case_decide as E.
  - subst q. rewrite list_lookup_insert by lia. done.
  - rewrite list_lookup_insert_ne by done. done.
Qed.

Lemma sim_PropInitAll m a d p cnt :
  represents m a -> sim (PropInitAll d p cnt m) (astep a (OPropInitAll d p cnt)).
Proof.
  intros H. cbn [astep]. unfold PropInitAll.
  change (cnum (mcells m d)) with (num d m).
  rewrite (names_length m a d H), (rep_num m a d H).
  case_decide as Hd.
  2: { destruct (decide (p < length (am_names a d))).
       - rewrite require_true by lia. rewrite require_false by lia. done.
       - rewrite require_false by lia. done. }
  destruct Hd as [Hp Hl]. rewrite !require_true by lia.
  destruct (prop_lookup m a d p H Hp) as (c & Hc & Hrep).
  rewrite (vget_Ok _ _ _ Hc). cbn [mbind outcome_bind sim].
  eapply represents_aeq; [|apply with_names_same].
  pose proof (rc_props _ _ _ _ _ _ _ _ _ (r_cells _ _ H d)) as Hpr. cbn in Hpr.
  pose proof (prop_rows_len m a d H) as Hr.
  set (rows := redeal 0%N cnt (prop_of p <$> am_cells a d)).
  assert (Hrl : length rows = length (am_cells a d)) by (unfold rows; by rewrite redeal_length).
  apply represents_set_props; auto.
  1-5: by apply zip_with_same.
  { intros r. by apply zip_with_same. }
  eapply rep_props_update; [done|done| | |].
  - rewrite Forall_fmap. clear Hpr Hrep. revert Hrl Hr. generalize rows (am_cells a d).
    intros l k. revert l. induction k as [|y k IH]; intros [|z l] Hrl Hr; cbn in *; try done.
    inversion Hr. constructor; [cbn; by rewrite insert_length|]. apply IH; [lia|done].
  - rewrite (column_zip p p rows _ (length (am_names a d))) by done.
    rewrite decide_True by done. unfold rows. rewrite redeal_pieces. by apply csr_init_spec.
  - intros q Hq. rewrite (column_zip p q rows _ (length (am_names a d))) by done.
    by rewrite decide_False by done.
Qed.

Lemma sim_AddProperty m a d id :
  represents m a -> sim (mn ← AddDoubleProperty d id m; Ok mn.1) (astep a (OAddProperty d id)).
Proof.
  intros H. cbn [astep]. unfold AddDoubleProperty.
  pose proof (rc_props _ _ _ _ _ _ _ _ _ (r_cells _ _ H d)) as Hpr. cbn in Hpr.
  destruct Hpr as [Hi Hn Hx Hl Hr Hv].
  destruct (decide (id ∈ am_names a d)) as [Hin|Hin].
  - rewrite require_false; [done|]. apply bool_decide_eq_false.
    apply elem_of_list_lookup in Hin as [p Hp]. apply Hx in Hp. rewrite Hp. done.
  - assert (Hnone : pindex (cprops (mcells m d)) !! id = None).
    { destruct (pindex (cprops (mcells m d)) !! id) as [p|] eqn:E; [|done].
      apply Hx in E. exfalso. apply Hin. by eapply elem_of_list_lookup_2. }
    rewrite require_true by (by apply bool_decide_eq_true). cbn [mbind outcome_bind fst sim].
    assert (Hsame : forall B (f : acell -> B), (forall ps x, f (with_props ps x) = f x) ->
      f <$> ((fun x => with_props (ac_prop x ++ [[]]) x) <$> am_cells a d) = f <$> am_cells a d).
    { intros B f Hf. rewrite <- list_fmap_compose. apply list_fmap_ext. intros. cbn. by rewrite Hf. }
    eapply represents_aeq.
    { apply (represents_set_props m a d _ (am_names a d ++ [id])
               ((fun x => with_props (ac_prop x ++ [[]]) x) <$> am_cells a d)); try done; try by apply Hsame.
      { intros. by apply Hsame. }
      assert (Hc : forall q, column q (ac_prop <$> ((fun x => with_props (ac_prop x ++ [[]]) x) <$> am_cells a d))
                   = column q (ac_prop <$> am_cells a d)).
      { intros q. unfold column. rewrite <- !list_fmap_compose. apply list_fmap_ext.
        intros k x _. cbn. destruct (decide (q < length (ac_prop x))).
        - by rewrite lookup_app_l by lia.
        - rewrite lookup_app_r by lia. rewrite (lookup_ge_None_2 (ac_prop x)) by lia.
          destruct (q - length (ac_prop x)) as [|[|]]; done. }
      split; cbn.
      - by rewrite Hi.
      - apply NoDup_app. split_and!; [done| |apply NoDup_singleton].
        intros z Hz Hz2. apply elem_of_list_singleton in Hz2. by subst.
      - intros z q. rewrite Hl. destruct (decide (z = id)) as [->|Hz].
        + rewrite lookup_insert. split.
          * intros [= <-]. rewrite lookup_app_r by lia. by rewrite Nat.sub_diag.
          * intros Hq. destruct (decide (q < length (am_names a d))).
            { rewrite lookup_app_l in Hq by lia. exfalso. apply Hin. by eapply elem_of_list_lookup_2. }
            rewrite lookup_app_r in Hq by lia. destruct (q - length (am_names a d)) as [|[|]] eqn:E; try done.
            f_equal. lia.
        + rewrite lookup_insert_ne by done. rewrite Hx. split.
          * intros Hq. rewrite lookup_app_l; [done|]. by eapply lookup_lt_Some.
          * intros Hq. destruct (decide (q < length (am_names a d))).
            { by rewrite lookup_app_l in Hq by lia. }
            rewrite lookup_app_r in Hq by lia. destruct (q - length (am_names a d)) as [|[|]] eqn:E; try done.
            cbn in Hq. congruence.
      - rewrite !app_length. cbn. lia.
      - rewrite !Forall_fmap in *. eapply Forall_impl; [exact Hr|]. intros x Hxl. cbn in *. rewrite !app_length, Hxl. done.
      - intros q c Hq. fold (column q (ac_prop <$> ((fun x => with_props (ac_prop x ++ [[]]) x) <$> am_cells a d))).
        rewrite Hc. destruct (decide (q < length (pvals (cprops (mcells m d))))).
        + rewrite lookup_app_l in Hq by lia. by apply Hv.
        + rewrite lookup_app_r in Hq by lia.
          destruct (q - length (pvals (cprops (mcells m d)))) as [|[|]] eqn:E; try done. injection Hq as <-.
          assert (Hcol : column q (ac_prop <$> am_cells a d) = replicate (length (am_cells a d)) []).
          { unfold column. rewrite <- list_fmap_compose. clear -Hr E Hl n. rewrite Forall_fmap in Hr.
            induction Hr as [|x cs Hx Hr IH]; [done|]. cbn in *. rewrite IH.
            by rewrite (lookup_ge_None_2 (ac_prop x)) by lia. }
          rewrite Hcol. split; cbn.
          * rewrite row_ends_replicate_nil. rewrite (rc_num _ _ _ _ _ _ _ _ _ (r_cells _ _ H d)).
            f_equal. lia.
          * by rewrite concat_replicate_nil. }
    split_and!; cbn; auto. intros d'. unfold upd_fun. case_decide; apply cells_eq_refl.
Qed.
