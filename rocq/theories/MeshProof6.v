From Verif Require Import Base BaseProof CsrModel CsrSpec CsrProof MeshModel MeshSpec MeshRep
  MeshProof MeshProof2 MeshProof3 MeshProof4 MeshProof5.
From Coq Require Import ZifyBool ZifyNat ZifyN.

(** ** Changing all the data of one dimension *)

Lemma represents_dim m m' a d cs' :
  represents m a ->
  mdim m' = mdim m ->
  rep_list d (mcells m' d) cs' (am_names a d) ->
  (forall d', d' <> d -> mcells m' d' = mcells m d') ->
  (forall r, src r = d -> csr_rep (mrel m' r) (row_of r <$> cs')) ->
  (forall r, src r <> d -> mrel m' r = mrel m r) ->
  mcoord m' = (if decide (d = D0) then concat (ac_geo <$> cs') else mcoord m) ->
  mext m' = (if decide (d = D1) then concat (ac_geo <$> cs') else mext m) ->
  Forall (fun g => length g = geo_size d) (ac_geo <$> cs') ->
  represents m' (with_cells d cs' a).
Proof.
  intros H Hd Hc Hc' Hr Hr' Hx He Hg. split; cbn [with_cells am_dim am_cells am_names].
  - rewrite Hd. apply H.
  - intros d'. destruct (decide (d = d')) as [<-|E]; [rewrite upd_fun_eq; exact Hc|].
    rewrite upd_fun_ne by done. rewrite Hc' by done. apply (r_cells _ _ H).
  - intros r. destruct (decide (d = src r)) as [E|E].
    + rewrite <- E, upd_fun_eq. by apply Hr.
    + rewrite upd_fun_ne by done. rewrite Hr' by done. apply (r_rel _ _ H).
  - rewrite Hx. destruct (decide (d = D0)) as [->|E]; [by rewrite upd_fun_eq|].
    rewrite upd_fun_ne by done. apply H.
  - rewrite He. destruct (decide (d = D1)) as [->|E]; [by rewrite upd_fun_eq|].
    rewrite upd_fun_ne by done. apply H.
  - intros d'. destruct (decide (d = d')) as [<-|E]; [by rewrite upd_fun_eq|].
    rewrite upd_fun_ne by done. apply (r_geo _ _ H).
Qed.

(** ** Appending cells *)

Lemma omapM_spec {A B} (f : A -> outcome B) (Q : nat -> B -> Prop) l :
  (forall i x, l !! i = Some x -> exists y, f x = Ok y /\ Q i y) ->
  exists l', omapM f l = Ok l' /\ length l' = length l /\ forall i y, l' !! i = Some y -> Q i y.
Proof.
  revert Q. induction l as [|x l IH]; intros Q Hf.
  - exists []. split_and!; [done..|]. intros i y Hi. by rewrite lookup_nil in Hi.
  - destruct (Hf 0 x eq_refl) as (y & Hy & HQ).
    destruct (IH (fun i => Q (S i))) as (l' & Hl & Hlen & HQ'); [intros i; apply (Hf (S i))|].
    exists (y :: l'). cbn. rewrite Hy. cbn. rewrite Hl. cbn. split_and!; [done|lia|].
    intros [|i] z Hz; cbn in Hz; [by injection Hz as <-|by apply HQ'].
Qed.

Lemma append_props_spec ps names rows n :
  rep_props ps names rows ->
  exists ps', append_props (length rows) n ps = Ok ps' /\
    rep_props ps' names (rows ++ replicate n (replicate (length names) [])).
Proof.
  intros [Hi Hn Hx Hl Hr Hv].
  destruct (omapM_spec (fun c => csr_append c (length rows) n)
    (fun p c => csr_rep c (column p (rows ++ replicate n (replicate (length names) [])))) (pvals ps))
    as (vs & Hvs & Hlen & Hq).
  { intros p c Hc. pose proof (Hv p c Hc) as Hrep.
    destruct (csr_append_spec c _ n Hrep) as (c' & Hc' & Hrep'). rewrite fmap_length in Hc'.
    exists c'. split; [done|]. unfold column. rewrite fmap_app, fmap_replicate.
    assert (Hpl : p < length names) by (rewrite <- Hl; by eapply lookup_lt_Some).
    rewrite lookup_replicate_2 by done. done. }
  exists (Props (pids ps) (pindex ps) vs). unfold append_props. rewrite Hvs. split; [done|].
  split; cbn; auto.
  - congruence.
  - apply Forall_app. split; [done|]. apply Forall_replicate. by rewrite replicate_length.
Qed.

Definition has_orig (d : dim) : bool := match d with D0 => false | _ => true end.

Lemma append_cells_spec d c cs names n :
  rep_list d c cs names ->
  exists c', append_cells (has_orig d) n c = Ok c' /\
    rep_list d c' (cs ++ replicate n (new_cell d (length names))) names.
Proof.
  intros [Hn Hm Ha Ho Hu Huo Hp].
  destruct (append_props_spec _ _ _ n Hp) as (ps' & Hps & Hp').
  rewrite fmap_length in Hps. unfold append_cells. rewrite Hn, Hps. cbn [mbind outcome_bind].
  eexists. split; [done|]. unfold rep_list.
  rewrite !app_length, !fmap_app, !fmap_replicate, replicate_length.
  cbn [new_cell ac_mark ac_act ac_orig ac_upd ac_prop].
  split; cbn [cnum cmark cact corig cupd cprops]; auto.
  - by rewrite Hm.
  - by rewrite Ha.
  - rewrite Ho. by destruct d.
  - intros k. rewrite Hu. destruct (decide (N.to_nat k < length (ac_upd <$> cs))).
    + by rewrite lookup_app_l by lia.
    + rewrite lookup_app_r by lia. rewrite (lookup_ge_None_2 (ac_upd <$> cs)) by lia.
      cbn. destruct (replicate n None !! _) eqn:E; [|done]. apply lookup_replicate in E as [-> _]. done.
  - intros k s Hk. destruct (decide (k < length (ac_upd <$> cs))).
    + rewrite lookup_app_l in Hk by lia. destruct (Huo k s Hk) as [? Hb]. split; [done|].
      intros v Hv. specialize (Hb v Hv). lia.
    + rewrite lookup_app_r in Hk by lia. apply lookup_replicate in Hk as [? _]. done.
Qed.

Lemma append_row_spec m a r n :
  represents m a ->
  exists c', csr_append (mrel m r) (anum (src r) a) n = Ok c' /\
    csr_rep c' (row_of r <$> (am_cells a (src r) ++ replicate n (new_cell (src r) (length (am_names a (src r)))))).
Proof.
  intros H. destruct (csr_append_spec _ _ n (r_rel _ _ H r)) as (c' & Hc & Hr).
  rewrite fmap_length in Hc. exists c'. split; [done|]. by rewrite fmap_app, fmap_replicate.
Qed.

Lemma concat_replicate_uniform {A} n g (v : A) : concat (replicate n (replicate g v)) = replicate (g * n) v.
Proof.
  induction n as [|n IH]; [by rewrite Nat.mul_0_r|]. cbn. rewrite IH, <- replicate_add. f_equal. lia.
Qed.

Lemma new_geo_forall m a d n p :
  represents m a ->
  Forall (fun g => length g = geo_size d) (ac_geo <$> (am_cells a d ++ replicate n (new_cell d p))).
Proof.
  intros H. rewrite fmap_app. apply Forall_app. split; [apply (r_geo _ _ H)|].
  rewrite fmap_replicate. apply Forall_replicate. cbn. by rewrite replicate_length.
Qed.

Lemma concat_geo_append a d n p :
  concat (ac_geo <$> (am_cells a d ++ replicate n (new_cell d p))) =
  concat (ac_geo <$> am_cells a d) ++ replicate (geo_size d * n) 0%N.
Proof. rewrite fmap_app, concat_app, fmap_replicate. cbn. by rewrite concat_replicate_uniform. Qed.

Lemma sim_Append m a d n :
  represents m a -> sim (mn ← CellAppend d n m; Ok mn.1) (astep a (OAppend d n)) /\
  (exists m', CellAppend d n m = Ok (m', anum d a)).
Proof.
  intros H. cbn [astep].
  set (x0 := new_cell d (length (am_names a d))).
  destruct (append_cells_spec d (mcells m d) (am_cells a d) (am_names a d) n (r_cells _ _ H d)) as (c' & Hc' & Hrep).
  pose proof (append_row_spec m a) as Hrow.
  assert (Happ : forall r m', mrel m' r = mrel m r ->
    exists c, append_rel r (anum (src r) a) n m' = Ok (set_rel r c m') /\
      csr_rep c (row_of r <$> (am_cells a (src r) ++ replicate n (new_cell (src r) (length (am_names a (src r))))))).
  { intros r m' E. destruct (Hrow r n H) as (c & Hc & Hr). exists c. unfold append_rel. by rewrite E, Hc. }
  assert (Hex : exists m', CellAppend d n m = Ok (m', anum d a) /\
    represents m' (with_cells d (am_cells a d ++ replicate n x0) a)).
  { destruct d; cbn [CellAppend has_orig] in *.
    - unfold Cell0DAppend. rewrite (rep_num m a D0 H), Hc'. cbn [mbind outcome_bind].
      edestruct (Happ R01) as (c1 & Hc1 & Hr1); [|rewrite Hc1; cbn [mbind outcome_bind]]; [done|].
      edestruct (Happ R02) as (c2 & Hc2 & Hr2); [|rewrite Hc2; cbn [mbind outcome_bind]]; [done|].
      edestruct (Happ R03) as (c3 & Hc3 & Hr3); [|rewrite Hc3; cbn [mbind outcome_bind]]; [done|].
      eexists. split; [done|].
      eapply represents_dim; [exact H|done|done| | | | | |by eapply new_geo_forall].
      + intros [] ?; done.
      + intros [] Hs; done.
      + intros [] Hs; done.
      + rewrite decide_True by done. unfold x0. by rewrite concat_geo_append, <- (r_coord _ _ H).
      + done.
    - unfold Cell1DAppend. rewrite (rep_num m a D1 H), Hc'. cbn [mbind outcome_bind].
      edestruct (Happ R12) as (c1 & Hc1 & Hr1); [|rewrite Hc1; cbn [mbind outcome_bind]]; [done|].
      edestruct (Happ R13) as (c2 & Hc2 & Hr2); [|rewrite Hc2; cbn [mbind outcome_bind]]; [done|].
      eexists. split; [done|].
      eapply represents_dim; [exact H|done|done| | | | | |by eapply new_geo_forall].
      + intros [] ?; done.
      + intros [] Hs; done.
      + intros [] Hs; done.
      + done.
      + rewrite decide_True by done. unfold x0. by rewrite concat_geo_append, <- (r_ext _ _ H).
    - unfold Cell2DAppend. rewrite (rep_num m a D2 H), Hc'. cbn [mbind outcome_bind].
      edestruct (Happ V2) as (c1 & Hc1 & Hr1); [|rewrite Hc1; cbn [mbind outcome_bind]]; [done|].
      edestruct (Happ E2) as (c2 & Hc2 & Hr2); [|rewrite Hc2; cbn [mbind outcome_bind]]; [done|].
      edestruct (Happ S2) as (c3 & Hc3 & Hr3); [|rewrite Hc3; cbn [mbind outcome_bind]]; [done|].
      edestruct (Happ R23) as (c4 & Hc4 & Hr4); [|rewrite Hc4; cbn [mbind outcome_bind]]; [done|].
      eexists. split; [done|].
      eapply represents_dim; [exact H|done|done| | | | | |by eapply new_geo_forall].
      + intros [] ?; done.
      + intros [] Hs; done.
      + intros [] Hs; done.
      + done.
      + done.
    - unfold Cell3DAppend. rewrite (rep_num m a D3 H), Hc'. cbn [mbind outcome_bind].
      edestruct (Happ V3) as (c1 & Hc1 & Hr1); [|rewrite Hc1; cbn [mbind outcome_bind]]; [done|].
      edestruct (Happ E3) as (c2 & Hc2 & Hr2); [|rewrite Hc2; cbn [mbind outcome_bind]]; [done|].
      edestruct (Happ F3) as (c3 & Hc3 & Hr3); [|rewrite Hc3; cbn [mbind outcome_bind]]; [done|].
      eexists. split; [done|].
      eapply represents_dim; [exact H|done|done| | | | | |by eapply new_geo_forall].
      + intros [] ?; done.
      + intros [] Hs; done.
      + intros [] Hs; done.
      + done.
      + done. }
  destruct Hex as (m' & E & Hm'). rewrite E. cbn. eauto.
Qed.

(** ** CellkDsInitialize *)

Lemma vresize_grow {A} (l : list A) n k d : length l = n -> n <= k -> vresize l k d = l ++ replicate (k - n) d.
Proof. intros Hl Hn. unfold vresize. rewrite take_ge by lia. by rewrite Hl. Qed.

Lemma grow_cells_spec d c cs names n :
  rep_list d c cs names ->
  (n = length cs \/ (length cs <= n /\ Forall (bare d) cs)) ->
  rep_list d (init_cells (has_orig d) n c) (cs ++ replicate (n - length cs) (new_cell d (length names))) names.
Proof.
  intros [Hn Hm Ha Ho Hu Huo Hp] Hpre.
  assert (Hle : length cs <= n) by lia.
  unfold rep_list.
  rewrite !app_length, !fmap_app, !fmap_replicate, replicate_length.
  cbn [new_cell ac_mark ac_act ac_orig ac_upd ac_prop].
  split; cbn [init_cells cnum cmark cact corig cupd cprops]; auto.
  - lia.
  - rewrite Hm. apply vresize_grow; [by rewrite fmap_length|lia].
  - rewrite Ha. apply vresize_grow; [by rewrite fmap_length|lia].
  - rewrite Ho. destruct d; cbn; try done; apply vresize_grow; try lia; by rewrite fmap_length.
  - intros k. rewrite Hu. destruct (decide (N.to_nat k < length (ac_upd <$> cs))).
    + by rewrite lookup_app_l by lia.
    + rewrite lookup_app_r by lia. rewrite (lookup_ge_None_2 (ac_upd <$> cs)) by lia.
      cbn. destruct (replicate _ None !! _) eqn:E; [|done]. apply lookup_replicate in E as [-> _]. done.
  - intros k s Hk. destruct (decide (k < length (ac_upd <$> cs))).
    + rewrite lookup_app_l in Hk by lia. destruct (Huo k s Hk) as [? Hb]. split; [done|].
      intros v Hv. specialize (Hb v Hv). lia.
    + rewrite lookup_app_r in Hk by lia. apply lookup_replicate in Hk as [? _]. done.
  - destruct Hp as [Hi Hnd Hx Hl Hr Hv]. split; cbn; auto.
    + by rewrite fmap_length.
    + apply Forall_app. split; [done|]. apply Forall_replicate. by rewrite replicate_length.
    + intros p c1 Hc1. rewrite list_lookup_fmap in Hc1.
      destruct (pvals (cprops c) !! p) as [c0|] eqn:Hc0; [|done]. injection Hc1 as <-.
      pose proof (Hv p c0 Hc0) as Hrep.
      assert (Hpl : p < length names) by (rewrite <- Hl; by eapply lookup_lt_Some).
      rewrite fmap_app, fmap_replicate, lookup_replicate_2 by done. cbn.
      destruct Hpre as [->|[_ Hbare]].
      * rewrite Nat.sub_diag. cbn. rewrite app_nil_r. erewrite csr_grow_same; [done|done|].
        by rewrite !fmap_length.
      * assert (Hnil : (fun x : list (list N) => default [] (x !! p)) <$> (ac_prop <$> cs) = replicate (length cs) []).
        { clear -Hbare. induction Hbare as [|x cs [_ Hx] Hb IH]; [done|]. cbn. rewrite IH. f_equal.
          destruct (ac_prop x !! p) as [l|] eqn:E; [|done]. cbn.
          rewrite Forall_forall in Hx. apply Hx. by eapply elem_of_list_lookup_2. }
        rewrite Hnil in Hrep |- *. rewrite <- replicate_add.
        replace (length cs + (n - length cs)) with n by lia.
        eapply csr_grow_spec; [done|]. by apply Forall_replicate.
Qed.

Lemma grow_row_spec m a r n :
  represents m a ->
  (n = anum (src r) a \/ (anum (src r) a <= n /\ Forall (bare (src r)) (am_cells a (src r)))) ->
  csr_rep (csr_grow (mrel m r) n)
    (row_of r <$> (am_cells a (src r) ++ replicate (n - anum (src r) a) (new_cell (src r) (length (am_names a (src r)))))).
Proof.
  intros H Hpre. rewrite fmap_app, fmap_replicate. cbn. unfold anum in *.
  destruct Hpre as [->|[Hle Hbare]].
  - rewrite Nat.sub_diag. cbn. rewrite app_nil_r. erewrite csr_grow_same; [apply (r_rel _ _ H)|apply (r_rel _ _ H)|].
    by rewrite fmap_length.
  - assert (Hnil : row_of r <$> am_cells a (src r) = replicate (length (am_cells a (src r))) []).
    { clear -Hbare. induction Hbare as [|x cs [Hx _] Hb IH]; [done|]. cbn. rewrite IH. f_equal. by apply Hx. }
    pose proof (r_rel _ _ H r) as Hrep. rewrite Hnil in Hrep |- *.
    rewrite <- replicate_add.
    replace (length (am_cells a (src r)) + (n - length (am_cells a (src r)))) with n by lia.
    eapply csr_grow_spec; [done|]. by apply Forall_replicate.
Qed.

Lemma geo_grow m a d n p :
  represents m a -> anum d a <= n ->
  vresize (concat (ac_geo <$> am_cells a d)) (geo_size d * n) 0%N =
  concat (ac_geo <$> (am_cells a d ++ replicate (n - anum d a) (new_cell d p))).
Proof.
  intros H Hle. rewrite concat_geo_append. erewrite (vresize_grow _ (geo_size d * anum d a)).
  - f_equal. f_equal. by rewrite Nat.mul_sub_distr_l.
  - rewrite (uniform_concat_length (geo_size d)) by apply (r_geo _ _ H). by rewrite fmap_length.
  - nia.
Qed.

Lemma sim_Initialize m a d n :
  represents m a -> pre a (OInitialize d n) ->
  sim (Ok (CellsInitialize d n m)) (astep a (OInitialize d n)).
Proof.
  intros H Hpre. cbn [astep sim]. cbn [pre] in Hpre.
  pose proof (grow_cells_spec d _ _ _ n (r_cells _ _ H d) Hpre) as Hc.
  pose proof (fun r => grow_row_spec m a r n H) as Hr.
  assert (Hle : anum d a <= n) by lia.
  destruct d; cbn [CellsInitialize has_orig] in *.
  - eapply represents_dim; [exact H|done|exact Hc| | | | | |by eapply new_geo_forall].
    + intros [] ?; done.
    + intros [] Hs; try done; by apply Hr.
    + intros [] Hs; done.
    + rewrite decide_True by done. rewrite <- (geo_grow m a D0) by done. by rewrite <- (r_coord _ _ H).
    + done.
  - eapply represents_dim; [exact H|done|exact Hc| | | | | |by eapply new_geo_forall].
    + intros [] ?; done.
    + intros [] Hs; try done; by apply Hr.
    + intros [] Hs; done.
    + done.
    + rewrite decide_True by done. rewrite <- (geo_grow m a D1) by done. by rewrite <- (r_ext _ _ H).
  - eapply represents_dim; [exact H|done|exact Hc| | | | | |by eapply new_geo_forall].
    + intros [] ?; done.
    + intros [] Hs; try done; by apply Hr.
    + intros [] Hs; done.
    + done.
    + done.
  - eapply represents_dim; [exact H|done|exact Hc| | | | | |by eapply new_geo_forall].
    + intros [] ?; done.
    + intros [] Hs; try done; by apply Hr.
    + intros [] Hs; done.
    + done.
    + done.
Qed.
