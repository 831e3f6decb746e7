From Verif Require Import Base BaseProof CsrModel CsrSpec CsrProof MeshModel MeshSpec MeshRep MeshProof MeshProof2 MeshProof3.
From Coq Require Import ZifyBool ZifyNat ZifyN.

(** ** Fixed-size blocks (coordinates, extremes) *)

Lemma uniform_concat_length {A} g (rows : list (list A)) :
  Forall (fun r => length r = g) rows -> length (concat rows) = g * length rows.
Proof. induction 1 as [|r rows H _ IH]; cbn; [lia|]. rewrite app_length, H, IH. lia. Qed.

Lemma uniform_take_length {A} g (rows : list (list A)) i :
  Forall (fun r => length r = g) rows -> i <= length rows ->
  length (concat (take i rows)) = g * i.
Proof.
  intros H Hi. rewrite (uniform_concat_length g) by (by apply Forall_take).
  rewrite take_length. f_equal. lia.
Qed.

Lemma uniform_set {A} g (rows : list (list A)) i r k v :
  Forall (fun r => length r = g) rows -> rows !! i = Some r -> k < g ->
  vset (concat rows) (g * i + k) v = Ok (concat (<[i := <[k := v]> r]> rows)).
Proof.
  intros H Hr Hk. pose proof (lookup_lt_Some _ _ _ Hr) as Hi.
  assert (Hl : length r = g).
  { rewrite Forall_forall in H. apply H. by eapply elem_of_list_lookup_2. }
  rewrite vset_ok. split.
  - rewrite (uniform_concat_length g) by done. nia.
  - rewrite (concat_insert rows i r) by done. rewrite (concat_split rows i r) by done.
    rewrite insert_app_r_alt; rewrite (uniform_take_length g) by (done || lia); [|lia].
    replace (g * i + k - g * i) with k by lia.
    by rewrite insert_app_l by lia.
Qed.

Lemma uniform_get {A} g (rows : list (list A)) i r k :
  Forall (fun r => length r = g) rows -> rows !! i = Some r -> k < g ->
  vget (concat rows) (g * i + k) = vget r k.
Proof.
  intros H Hr Hk. pose proof (lookup_lt_Some _ _ _ Hr) as Hi.
  assert (Hl : length r = g).
  { rewrite Forall_forall in H. apply H. by eapply elem_of_list_lookup_2. }
  unfold vget. rewrite <- (uniform_take_length g rows i) by (done || lia).
  rewrite (concat_lookup rows i r) by (done || lia). done.
Qed.

Lemma uniform_erase {A} g (rows : list (list A)) i :
  Forall (fun r => length r = g) rows -> i < length rows ->
  verase_range (concat rows) (g * i) (g * i + g) = Ok (concat (delete i rows)).
Proof.
  intros H Hi. apply lookup_lt_is_Some in Hi as [r Hr].
  pose proof (lookup_lt_Some _ _ _ Hr) as Hi.
  assert (Hl : length r = g).
  { rewrite Forall_forall in H. apply H. by eapply elem_of_list_lookup_2. }
  apply verase_range_ok. split.
  - rewrite (uniform_concat_length g) by done. nia.
  - rewrite delete_take_drop, concat_app, (concat_split rows i r) by done.
    rewrite take_app_alt by (by rewrite (uniform_take_length g) by (done || lia)). f_equal.
    rewrite app_assoc, drop_app_alt; [done|].
    rewrite app_length, (uniform_take_length g) by (done || lia). lia.
Qed.

Lemma represents_geo0 m a cs' :
  represents m a -> same_base cs' (am_cells a D0) ->
  (forall r, row_of r <$> cs' = row_of r <$> am_cells a D0) ->
  Forall (fun g => length g = 3) (ac_geo <$> cs') ->
  represents (set_coord (concat (ac_geo <$> cs')) m) (with_cells D0 cs' a).
Proof.
  intros H Hb Hr Hg. split; cbn; auto.
  - apply H.
  - intros d'. unfold upd_fun. case_decide as E; [|apply (r_cells _ _ H)].
    subst d'. eapply same_base_rep; [done|]. apply (r_cells _ _ H).
  - intros r. unfold upd_fun. case_decide as E; [|apply (r_rel _ _ H)].
    rewrite Hr, E. apply (r_rel _ _ H).
  - apply H.
  - intros d'. unfold upd_fun. case_decide as E; [subst d'; done|apply (r_geo _ _ H)].
Qed.

Lemma represents_geo1 m a cs' :
  represents m a -> same_base cs' (am_cells a D1) ->
  (forall r, row_of r <$> cs' = row_of r <$> am_cells a D1) ->
  Forall (fun g => length g = 2) (ac_geo <$> cs') ->
  represents (set_ext (concat (ac_geo <$> cs')) m) (with_cells D1 cs' a).
Proof.
  intros H Hb Hr Hg. split; cbn; auto.
  - apply H.
  - intros d'. unfold upd_fun. case_decide as E; [|apply (r_cells _ _ H)].
    subst d'. eapply same_base_rep; [done|]. apply (r_cells _ _ H).
  - intros r. unfold upd_fun. case_decide as E; [|apply (r_rel _ _ H)].
    rewrite Hr, E. apply (r_rel _ _ H).
  - apply H.
  - intros d'. unfold upd_fun. case_decide as E; [subst d'; done|apply (r_geo _ _ H)].
Qed.

Lemma geo_lookup m a d i x :
  represents m a -> am_cells a d !! i = Some x -> length (ac_geo x) = geo_size d.
Proof.
  intros H Hx. pose proof (r_geo _ _ H d) as Hg. rewrite Forall_forall in Hg. apply Hg.
  apply elem_of_list_fmap. exists x. split; [done|]. by eapply elem_of_list_lookup_2.
Qed.

Lemma same_base_insert cs i x y :
  cs !! i = Some x ->
  ac_mark y = ac_mark x -> ac_act y = ac_act x -> ac_orig y = ac_orig x -> ac_upd y = ac_upd x ->
  ac_prop y = ac_prop x -> same_base (<[i := y]> cs) cs.
Proof. intros. split_and!; by eapply fmap_insert_same. Qed.

Lemma sim_Coordinates m a i x y z :
  represents m a -> sim (Cell0DInsertCoordinates i x y z m) (astep a (OCoordinates i x y z)).
Proof.
  intros H. cbn [astep]. unfold Cell0DInsertCoordinates.
  destruct (am_cells a D0 !! i) as [c|] eqn:Hx.
  2: { rewrite on_cell_None by done. by rewrite require_false by (by eapply num_false). }
  rewrite require_true by (by eapply num_true).
  pose proof (r_geo _ _ H D0) as Hg. cbn in Hg.
  pose proof (geo_lookup _ _ _ _ _ H Hx) as Hl. cbn in Hl.
  destruct (ac_geo c) as [|g0 [|g1 [|g2 [|]]]] eqn:E; try done.
  assert (Hgx : (ac_geo <$> am_cells a D0) !! i = Some [g0; g1; g2]) by (rewrite list_lookup_fmap, Hx; cbn; by rewrite E).
  assert (Hi : i < length (ac_geo <$> am_cells a D0)) by (by eapply lookup_lt_Some).
  rewrite (r_coord _ _ H).
  rewrite <- (Nat.add_0_r (3 * i)) at 1.
  rewrite (uniform_set 3 _ i [g0;g1;g2] 0 x) by (done || lia). cbn [mbind outcome_bind].
  rewrite (uniform_set 3 _ i [x;g1;g2] 1 y).
  2: { apply Forall_insert; done. }
  2: { by apply list_lookup_insert. }
  2: lia.
  cbn [mbind outcome_bind]. rewrite list_insert_insert.
  rewrite (uniform_set 3 _ i [x;y;g2] 2 z).
  2: { apply Forall_insert; done. }
  2: { by apply list_lookup_insert. }
  2: lia.
  cbn [mbind outcome_bind]. rewrite list_insert_insert.
  eapply sim_on_cell; [done|].
  change (<[2:=z]> [x; y; g2]) with (ac_geo (with_geo [x;y;z] c)).
  rewrite <- list_fmap_insert.
  apply represents_geo0; [done| | |].
  - by eapply same_base_insert.
  - intros r. by eapply fmap_insert_same.
  - rewrite list_fmap_insert. by apply Forall_insert.
Qed.

Lemma ext_write m a e o t x :
  represents m a -> am_cells a D1 !! e = Some x ->
  exists l1, vset (mext m) (2 * e) o = Ok l1 /\
  vset l1 (2 * e + 1) t = Ok (concat (ac_geo <$> <[e := with_geo [o; t] x]> (am_cells a D1))).
Proof.
  intros H Hx.
  pose proof (r_geo _ _ H D1) as Hg. cbn in Hg.
  pose proof (geo_lookup _ _ _ _ _ H Hx) as Hl. cbn in Hl.
  destruct (ac_geo x) as [|g0 [|g1 [|]]] eqn:E; try done.
  assert (Hgx : (ac_geo <$> am_cells a D1) !! e = Some [g0; g1]) by (rewrite list_lookup_fmap, Hx; cbn; by rewrite E).
  assert (Hi : e < length (ac_geo <$> am_cells a D1)) by (by eapply lookup_lt_Some).
  rewrite (r_ext _ _ H). eexists. split.
  { rewrite <- (Nat.add_0_r (2 * e)). apply (uniform_set 2 _ e [g0;g1] 0 o); done || lia. }
  rewrite (uniform_set 2 _ e [o;g1] 1 t).
  2: { apply Forall_insert; done. }
  2: { by apply list_lookup_insert. }
  2: lia.
  by rewrite list_insert_insert, list_fmap_insert.
Qed.

Lemma sim_ext_write m a e o t x :
  represents m a -> am_cells a D1 !! e = Some x ->
  sim (l ← vset (mext m) (2 * e) o; l ← vset l (2 * e + 1) t; Ok (set_ext l m))
      (on_cell D1 e (with_geo [o; t]) a).
Proof.
  intros H Hx. destruct (ext_write m a e o t x H Hx) as (l1 & -> & E). cbn [mbind outcome_bind].
  rewrite E. cbn [mbind outcome_bind].
  eapply sim_on_cell; [done|].
  apply represents_geo1; [done| | |].
  - by eapply same_base_insert.
  - intros r. by eapply fmap_insert_same.
  - rewrite list_fmap_insert. apply Forall_insert; [apply (r_geo _ _ H D1)|done].
Qed.

Lemma sim_Extremes m a e o t :
  represents m a -> sim (Cell1DInsertExtremes e o t m) (astep a (OExtremes e o t)).
Proof.
  intros H. cbn [astep]. unfold Cell1DInsertExtremes.
  destruct (am_cells a D1 !! e) as [c|] eqn:Hx.
  2: { rewrite on_cell_None by done. by rewrite require_false by (by eapply num_false). }
  rewrite require_true by (by eapply num_true).
  by eapply sim_ext_write.
Qed.

(** ** Loops over all cells *)

Lemma sim_fold_inv {A} (I : amesh -> Prop) (f : mesh -> A -> outcome mesh) g l m a :
  represents m a -> I a ->
  (forall m a x, x ∈ l -> I a -> represents m a -> sim (f m x) (g a x)) ->
  (forall a x a', I a -> g a x = Some a' -> I a') ->
  sim (ofold f l m) (afold g l a).
Proof.
  intros H HI Hf Hg. revert m a H HI Hf. induction l as [|x l IH]; intros m a H HI Hf; cbn; [done|].
  apply sim_bind_some; [apply Hf; [left|done|done]|]. intros m' a' E H'. apply IH; [done|by eapply Hg|].
  intros. apply Hf; [by right|done|done].
Qed.

Lemma all_cells_fold {A} d (P : A -> Prop) `{!forall x, Decision (P x)} (f : A -> acell -> acell)
      (cols pcols : list A) : forall (pre cs : list acell) a,
  am_cells a d = pre ++ cs -> length pcols = length pre -> length cols = length cs ->
  oaeq (afold (fun a c => x ← (pcols ++ cols) !! c; if decide (P x) then on_cell d c (f x) a else None)
              (seq (length pre) (length cs)) a)
       (if decide (Forall P cols) then Some (with_cells d (pre ++ zip_with f cols cs) a) else None).
Proof.
  revert pcols. induction cols as [|x cols IH]; intros pcols pre cs a Ha Hp Hc.
  - destruct cs; [|done]. cbn. rewrite decide_True by constructor. cbn.
    apply with_cells_self_aeq. rewrite Ha. apply cells_eq_refl.
  - destruct cs as [|y cs]; [done|]. cbn [length seq afold].
    rewrite lookup_app_r by lia. replace (length pre - length pcols) with 0 by lia.
    cbn [lookup list_lookup mbind option_bind].
    destruct (decide (P x)) as [HP|HP].
    2: { rewrite decide_False; [done|]. intros HF. inversion HF. done. }
    rewrite (on_cell_Some a d (length pre) (f x) y).
    2: { rewrite Ha, lookup_app_r by lia. by rewrite Nat.sub_diag. }
    cbn [option_bind mbind]. rewrite Ha. rewrite insert_app_r_alt by lia. rewrite Nat.sub_diag.
    cbn [insert list_insert].
    set (a' := with_cells d _ a).
    specialize (IH (pcols ++ [x]) (pre ++ [f x y]) cs a').
    rewrite !app_length in IH. cbn [length] in IH.
    rewrite <- !app_assoc in IH. cbn [app] in IH.
    replace (length pre + 1) with (S (length pre)) in IH by lia.
    eapply oaeq_trans.
    { apply IH; [|lia|by injection Hc]. unfold a'. cbn [am_cells with_cells]. by rewrite upd_fun_eq. }
    destruct (decide (Forall P cols)) as [HF|HF].
    + rewrite decide_True by (by constructor). cbn [oaeq]. unfold a'. apply with_cells_twice_aeq.
      cbn. apply cells_eq_refl.
    + rewrite decide_False; [done|]. intros HF'. inversion HF'. done.
Qed.

Lemma sim_AllCoordinates m a cols :
  represents m a -> sim (Cell0DsInsertCoordinates cols m) (astep a (OAllCoordinates cols)).
Proof.
  intros H. cbn [astep]. unfold Cell0DsInsertCoordinates.
  apply sim_require; [rewrite (rep_num m a _ H); lia|]. intros Hl.
  eapply sim_aeq.
  { apply (sim_fold _ (fun a c => x ← cols !! c; if decide True then on_cell D0 c (fun y => with_geo [x.1.1; x.1.2; x.2] y) a else None));
      [done|].
    intros m' a' c Hc H'. apply elem_of_seq in Hc. rewrite (rep_num m a _ H) in Hc.
    destruct (lookup_lt_is_Some_2 cols c) as [x Hx]; [lia|].
    rewrite Hx, (vget_Ok _ _ _ Hx). cbn [mbind option_bind outcome_bind].
    apply (sim_Coordinates _ _ _ _ _ _ H'). }
  rewrite (rep_num m a _ H).
  eapply oaeq_trans; [apply (all_cells_fold D0 (fun _ => True) (fun x y => with_geo [x.1.1; x.1.2; x.2] y) cols [] [] (am_cells a D0)); done|].
  rewrite decide_True by (by apply Forall_forall). apply aeq_refl.
Qed.

Lemma all_below_pairs n n' (cols : list (N * N)) :
  (all_below n cols.*1 /\ all_below n' cols.*2) <->
  Forall (fun c => (c.1 < N.of_nat n)%N /\ (c.2 < N.of_nat n')%N) cols.
Proof.
  induction cols as [|c cols IH]; cbn.
  - split; [constructor|split; constructor].
  - rewrite !all_below_cons. split.
    + intros [[? ?] [? ?]]. constructor; tauto.
    + intros HF. inversion HF. tauto.
Qed.

Lemma sim_AllExtremes m a cols :
  represents m a -> sim (Cell1DsInsertExtremes cols m) (astep a (OAllExtremes cols)).
Proof.
  intros H. cbn [astep]. unfold Cell1DsInsertExtremes.
  destruct (decide (length cols = anum D1 a)) as [Hl|Hl].
  2: { rewrite require_false by (rewrite (rep_num m a _ H); lia). by rewrite decide_False by tauto. }
  rewrite require_true by (rewrite (rep_num m a _ H); lia).
  set (P := fun c : N * N => (c.1 < N.of_nat (anum D0 a))%N /\ (c.2 < N.of_nat (anum D0 a))%N).
  eapply sim_aeq.
  { apply (sim_fold_inv (fun a' => anum D0 a' = anum D0 a /\ anum D1 a' = anum D1 a) _
             (fun a c => x ← cols !! c; if decide (P x) then on_cell D1 c (fun y => with_geo [x.1; x.2] y) a else None));
      [done|done| |].
    - intros m' a' c Hc [HI HI1] H'. apply elem_of_seq in Hc. rewrite (rep_num m a _ H) in Hc.
      destruct (lookup_lt_is_Some_2 cols c) as [x Hx]; [lia|].
      rewrite Hx, (vget_Ok _ _ _ Hx). cbn [mbind option_bind outcome_bind].
      rewrite (rep_num m' a' _ H'), HI.
      destruct (lookup_lt_is_Some_2 (am_cells a' D1) c) as [y Hy]; [unfold anum in *; lia|].
      destruct (decide (P x)) as [[HP1 HP2]|HP].
      + rewrite !require_true by lia. by eapply sim_ext_write.
      + destruct (decide (x.1 < N.of_nat (anum D0 a))%N).
        * rewrite require_true by lia. rewrite require_false; [done|]. unfold P in HP. lia.
        * rewrite require_false; [done|]. lia.
    - intros a' c a'' [HI HI1]. destruct (cols !! c); cbn; [|done]. case_decide; [|done].
      unfold on_cell. destruct (am_cells a' D1 !! c); cbn; [|done]. intros [= <-].
      unfold anum in *. cbn [am_cells with_cells]. rewrite upd_fun_eq, upd_fun_ne, insert_length by done. done. }
  rewrite (rep_num m a _ H).
  eapply oaeq_trans; [apply (all_cells_fold D1 P (fun x y => with_geo [x.1; x.2] y) cols [] [] (am_cells a D1)); done|].
  pose proof (all_below_pairs (anum D0 a) (anum D0 a) cols) as HB.
  destruct (decide (Forall P cols)) as [HF|HF].
  - rewrite decide_True by (split; [done|by apply HB]). apply aeq_refl.
  - rewrite decide_False; [done|]. intros [_ HC]. by apply HF, HB.
Qed.
