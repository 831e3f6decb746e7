From Verif Require Import Base BaseProof CsrModel CsrSpec CsrProof MeshModel MeshSpec MeshRep MeshProof MeshProof2.
From Coq Require Import ZifyBool ZifyNat ZifyN.

(** ** Vertices and edges of a polygon together *)

Definition ve_step (i : nat) (a : amesh) (kve : nat * (N * N)) : option amesh :=
  a' ← astep a (OInsert V2 i kve.1 kve.2.1); astep a' (OInsert E2 i kve.1 kve.2.2).

Lemma ve_step_eq i a kve : ve_step i a kve =
  astep a (OInsert V2 i kve.1 kve.2.1) ≫= fun a' => astep a' (OInsert E2 i kve.1 kve.2.2).
Proof. done. Qed.

Lemma ve_fold i cols : forall k a x,
  am_cells a D2 !! i = Some x ->
  length (ac_rel x V2) = k + length cols -> length (ac_rel x E2) = k + length cols ->
  oaeq (afold (ve_step i) (imap (fun j c => (k + j, c)) cols) a)
       (if decide (all_below (anum D0 a) (cols.*1) /\ all_below (anum D1 a) (cols.*2))
        then Some (with_cells D2
               (<[i := with_row E2 (take k (ac_rel x E2) ++ cols.*2)
                         (with_row V2 (take k (ac_rel x V2) ++ cols.*1) x)]> (am_cells a D2)) a)
        else None).
Proof.
  induction cols as [|[v e] cols IH]; intros k a x Hx HV HE.
  - cbn. rewrite decide_True by (split; constructor). cbn in *.
    apply with_cells_self_aeq. rewrite <- (list_insert_id (am_cells a D2) i x) at 1 by done.
    apply insert_cell_eq; [apply cells_eq_refl|].
    rewrite !app_nil_r, !take_ge by lia.
    split_and!; cbn; auto. intros r. unfold upd_fun. repeat case_decide; by subst.
  - cbn [imap afold]. rewrite (ve_step_eq i a). cbn [fst snd].
    rewrite (astep_insert a V2 i _ v x Hx), Nat.add_0_r. cbn [tgt src length] in *.
    destruct (decide (k < length (ac_rel x V2) /\ (v < N.of_nat (anum D0 a))%N)) as [H1|H1]; cbn [mbind option_bind].
    2: { rewrite decide_False; [done|]. cbn [fmap list_fmap fst snd]. rewrite !all_below_cons. intros [[? _] _]. apply H1. split; [lia|done]. }
    set (x1 := with_row V2 (<[k:=v]> (ac_rel x V2)) x).
    set (a1 := with_cells D2 (<[i:=x1]> (am_cells a D2)) a).
    assert (Hx1 : am_cells a1 D2 !! i = Some x1).
    { cbn. apply list_lookup_insert. by eapply lookup_lt_Some. }
    rewrite (astep_insert a1 E2 i _ e x1 Hx1). cbn [tgt src].
    change (ac_rel x1 E2) with (ac_rel x E2). change (anum D1 a1) with (anum D1 a).
    destruct (decide (k < length (ac_rel x E2) /\ (e < N.of_nat (anum D1 a))%N)) as [H2|H2]; cbn [mbind option_bind].
    2: { rewrite decide_False; [done|]. cbn [fmap list_fmap fst snd]. rewrite !all_below_cons. intros [_ [? _]]. apply H2. split; [lia|done]. }
    set (x2 := with_row E2 (<[k:=e]> (ac_rel x E2)) x1).
    set (a2 := with_cells D2 (<[i:=x2]> (am_cells a1 D2)) a1).
    assert (Hx2 : am_cells a2 D2 !! i = Some x2).
    { unfold a2, a1. cbn [am_cells with_cells]. rewrite !upd_fun_eq. apply list_lookup_insert.
      rewrite insert_length. by eapply lookup_lt_Some. }
    specialize (IH (S k) a2 x2 Hx2).
    change (ac_rel x2 V2) with (<[k:=v]> (ac_rel x V2)) in IH.
    change (ac_rel x2 E2) with (<[k:=e]> (ac_rel x E2)) in IH.
    change (anum D0 a2) with (anum D0 a) in IH. change (anum D1 a2) with (anum D1 a) in IH.
    rewrite !insert_length in IH. specialize (IH ltac:(lia) ltac:(lia)).
    rewrite (imap_ext _ (fun j c => (S k + j, c))) by (intros; cbn; f_equal; lia).
    eapply oaeq_trans; [exact IH|]. cbn [fmap list_fmap fst snd].
    destruct (decide (all_below (anum D0 a) cols.*1 /\ all_below (anum D1 a) cols.*2)) as [H3|H3].
    + rewrite decide_True by (rewrite !all_below_cons; tauto).
      cbn [oaeq]. split_and!; [done| |done].
      intros d. destruct d; try apply cells_eq_refl. unfold a2, a1. cbn [am_cells with_cells].
      rewrite !upd_fun_eq, !list_insert_insert.
      apply insert_cell_eq; [apply cells_eq_refl|].
      erewrite !take_S_r by (rewrite list_lookup_insert; [done|lia]).
      rewrite !take_insert by lia. rewrite <- !app_assoc.
      split_and!; cbn; auto. intros r. unfold upd_fun. repeat case_decide; by subst.
    + rewrite decide_False; [done|]. rewrite !all_below_cons. tauto.
Qed.

Lemma sim_AddVE m a i cols :
  represents m a -> sim (Cell2DAddVerticesAndEdges i cols m) (astep a (OAddVE i cols)).
Proof.
  intros H. unfold Cell2DAddVerticesAndEdges.
  eapply sim_aeq.
  { apply (sim_bind _ (astep a (OInitOne V2 i (length cols))) _
             (fun a => a' ← astep a (OInitOne E2 i (length cols)); afold (ve_step i) (imap pair cols) a'));
      [by apply sim_InitOne|]. intros m1 a1 H1.
    apply sim_bind; [by apply sim_InitOne|]. intros m2 a2 H2.
    apply sim_fold; [done|]. intros m3 a3 kve _ H3. unfold ve_step.
    apply sim_bind; [by apply sim_Insert|]. intros. by apply sim_Insert. }
  cbn [astep src]. rewrite !decide_True by done.
  destruct (am_cells a D2 !! i) as [x|] eqn:Hx.
  2: { rewrite !(on_cell_None a) by done. destruct (decide (all_below _ _ /\ _)); done. }
  rewrite !(on_cell_Some _ _ _ _ _ Hx). cbn [mbind option_bind].
  set (x1 := with_row V2 _ x). set (a1 := with_cells D2 (<[i := x1]> _) a).
  assert (Hx1 : am_cells a1 D2 !! i = Some x1).
  { cbn. apply list_lookup_insert. by eapply lookup_lt_Some. }
  rewrite (on_cell_Some _ _ _ _ _ Hx1). cbn [mbind option_bind].
  set (x2 := with_row E2 _ x1). set (a2 := with_cells D2 (<[i := x2]> _) a1).
  assert (Hx2 : am_cells a2 D2 !! i = Some x2).
  { unfold a2, a1. cbn [am_cells with_cells]. rewrite !upd_fun_eq. apply list_lookup_insert.
    rewrite insert_length. by eapply lookup_lt_Some. }
  rewrite (imap_ext pair (fun j v => (0 + j, v))) by done.
  eapply oaeq_trans.
  { eapply (ve_fold i cols 0 a2 x2); [done| |]; apply resize_length. }
  change (anum D0 a2) with (anum D0 a). change (anum D1 a2) with (anum D1 a).
  destruct (decide (all_below _ _ /\ _)); [|done].
  cbn [oaeq]. split_and!; [done| |done].
  intros d. destruct d; try apply cells_eq_refl. unfold a2, a1. cbn [am_cells with_cells].
      rewrite !upd_fun_eq, !list_insert_insert.
  apply insert_cell_eq; [apply cells_eq_refl|].
  split_and!; cbn; auto. intros r. unfold upd_fun. repeat case_decide; by subst.
Qed.

(** ** Markers and states *)

Definition rep_list (d : dim) (c : cells) (cs : list acell) (names : list string) : Prop :=
  rep_cells d c (length cs) (ac_mark <$> cs) (ac_act <$> cs) (ac_orig <$> cs) (ac_upd <$> cs) names (ac_prop <$> cs).

Lemma sim_Marker m a d i v : represents m a -> sim (SetMarker d i v m) (astep a (OMarker d i v)).
Proof.
  intros H. cbn. unfold SetMarker. pose proof (r_cells _ _ H d) as Hc. cbn in Hc.
  destruct (am_cells a d !! i) as [x|] eqn:Hx.
  2: { rewrite on_cell_None by done. by rewrite require_false by (by eapply num_false). }
  rewrite require_true by (by eapply num_true).
  rewrite vset_Ok.
  2: { rewrite (rc_mark _ _ _ _ _ _ _ _ _ Hc), fmap_length. by eapply lookup_lt_Some. }
  cbn [mbind outcome_bind]. eapply sim_on_cell; [done|].
  apply represents_set_cells; [done| | |].
  2: { intros r _. by eapply fmap_insert_same. }
  2: { by eapply fmap_insert_same. }
  destruct Hc as [Hn Hm Ha Ho Hu Huo Hp].
  rewrite insert_length.
  rewrite (fmap_insert_same ac_act _ _ x), (fmap_insert_same ac_orig _ _ x),
    (fmap_insert_same ac_upd _ _ x), (fmap_insert_same ac_prop _ _ x) by done.
  split; cbn [cnum cmark cact corig cupd cprops]; auto.
  rewrite Hm, list_fmap_insert. done.
Qed.

Lemma sim_State m a d i v : represents m a -> sim (SetState d i v m) (astep a (OState d i v)).
Proof.
  intros H. cbn. unfold SetState. pose proof (r_cells _ _ H d) as Hc. cbn in Hc.
  destruct (am_cells a d !! i) as [x|] eqn:Hx.
  2: { rewrite on_cell_None by done. by rewrite require_false by (by eapply num_false). }
  rewrite require_true by (by eapply num_true).
  rewrite vset_Ok.
  2: { rewrite (rc_act _ _ _ _ _ _ _ _ _ Hc), fmap_length. by eapply lookup_lt_Some. }
  cbn [mbind outcome_bind]. eapply sim_on_cell; [done|].
  apply represents_set_cells; [done| | |].
  2: { intros r _. by eapply fmap_insert_same. }
  2: { by eapply fmap_insert_same. }
  destruct Hc as [Hn Hm Ha Ho Hu Huo Hp].
  rewrite insert_length.
  rewrite (fmap_insert_same ac_mark _ _ x), (fmap_insert_same ac_orig _ _ x),
    (fmap_insert_same ac_upd _ _ x), (fmap_insert_same ac_prop _ _ x) by done.
  split; cbn [cnum cmark cact corig cupd cprops]; auto.
  rewrite Ha, list_fmap_insert. done.
Qed.

(** ** Genealogy *)

Lemma sim_Updated m a d i j : represents m a -> sim (InsertUpdated d i j m) (astep a (OUpdated d i j)).
Proof.
  intros H. cbn [astep]. unfold InsertUpdated. pose proof (r_cells _ _ H d) as Hc. cbn in Hc.
  rewrite (rep_num m a d H).
  case_decide as Hd.
  2: { destruct (decide (i < anum d a)).
       - rewrite require_true by lia. rewrite require_false by lia. done.
       - rewrite require_false by lia. done. }
  rewrite !require_true by lia. destruct Hd as [Hi Hj]. unfold anum in Hi, Hj.
  apply lookup_lt_is_Some in Hi as [x Hx].
  rewrite (on_cell_Some _ _ _ _ _ Hx). cbn [mbind option_bind].
  set (x1 := with_upd _ x). set (a1 := with_cells d (<[i := x1]> (am_cells a d)) a).
  assert (is_Some (am_cells a1 d !! j)) as [y Hy].
  { cbn. rewrite upd_fun_eq. apply lookup_lt_is_Some. rewrite insert_length. lia. }
  rewrite (on_cell_Some _ _ _ _ _ Hy).
  set (y1 := if decide (d = D0) then y else _).
  set (l := match d with D0 => Ok (corig (mcells m d)) | _ => _ end).
  set (cs' := <[j:=y1]> (<[i:=x1]> (am_cells a d))).
  assert (Hl : l = Ok (match d with D0 => [] | _ => ac_orig <$> cs' end)).
  { destruct Hc as [Hn Hm Ha Ho Hu Huo Hp]. unfold l.
    destruct d; rewrite Ho; [done|..];
      (rewrite vset_Ok by (by rewrite fmap_length); f_equal; unfold cs';
       rewrite list_fmap_insert; unfold y1; cbn [decide];
       rewrite (fmap_insert_same ac_orig _ _ x) by done; done). }
  rewrite Hl. cbn [mbind outcome_bind sim].
  eapply represents_aeq.
  2: { unfold a1. eapply aeq_refl. }
  assert (Hy' : (<[i:=x1]> (am_cells a d)) !! j = Some y).
  { cbn in Hy. by rewrite upd_fun_eq in Hy. }
  assert (Hsame : forall B (f : acell -> B), f x1 = f x -> f y1 = f y -> f <$> cs' = f <$> am_cells a d).
  { intros B f E1 E2. unfold cs'. rewrite (fmap_insert_same f _ _ y) by done.
    by rewrite (fmap_insert_same f _ _ x). }
  assert (Hy1 : forall B (f : acell -> B), (forall o z, f (with_orig o z) = f z) -> f y1 = f y).
  { intros B f Hf. unfold y1. case_decide; auto. }
  eapply represents_aeq with (a := with_cells d cs' a).
  2: { unfold a1. split_and!; cbn; auto. intros d'. unfold upd_fun.
       repeat case_decide; subst; try done; apply cells_eq_refl. }
  apply represents_set_cells; [done| | |].
  2: { intros r _. apply Hsame; [done|]. by apply Hy1. }
  2: { apply Hsame; [done|]. by apply Hy1. }
  destruct Hc as [Hn Hm Ha Ho Hu Huo Hp].
  rewrite (Hsame _ ac_mark), (Hsame _ ac_act), (Hsame _ ac_prop) by (done || by apply Hy1).
  assert (Hlen : length cs' = length (am_cells a d)) by (unfold cs'; by rewrite !insert_length).
  rewrite Hlen.
  assert (HU : ac_upd <$> cs' = <[i := Some ({[N.of_nat j]} ∪ default ∅ (ac_upd x))]> (ac_upd <$> am_cells a d)).
  { unfold cs'. rewrite (fmap_insert_same ac_upd _ _ y); [|done|by apply Hy1].
    by rewrite list_fmap_insert. }
  assert (Hui : cupd (mcells m d) !! N.of_nat i = ac_upd x).
  { rewrite Hu, Nat2N.id, list_lookup_fmap, Hx. done. }
  split; cbn [cnum cmark cact corig cupd cprops]; auto.
  - intros k. rewrite HU, Hui. destruct (decide (k = N.of_nat i)) as [->|Hk].
    + rewrite lookup_insert, Nat2N.id, list_lookup_insert; [done|].
      rewrite fmap_length. by eapply lookup_lt_Some.
    + rewrite lookup_insert_ne by done. rewrite list_lookup_insert_ne by lia. apply Hu.
  - intros k s. rewrite HU. destruct (decide (k = i)) as [->|Hk].
    + rewrite list_lookup_insert by (rewrite fmap_length; by eapply lookup_lt_Some).
      intros [= <-]. split; [set_solver|]. intros v [Hv|Hv]%elem_of_union.
      * apply elem_of_singleton in Hv as ->. lia.
      * destruct (ac_upd x) as [s|] eqn:E; cbn in Hv; [|set_solver].
        destruct (Huo i s) as [_ Hb]; [by rewrite list_lookup_fmap, Hx; cbn; rewrite E|]. auto.
    + rewrite list_lookup_insert_ne by done. apply Huo.
Qed.
