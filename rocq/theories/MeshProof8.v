From Verif Require Import Base BaseProof CsrModel CsrSpec CsrProof MeshModel MeshSpec MeshRep
  MeshProof MeshProof2 MeshProof3 MeshProof4 MeshProof5 MeshProof6 MeshProof7.
From Coq Require Import ZifyBool ZifyNat ZifyN.

(** ** One call, and a list of calls *)

Lemma step_sim m a o : represents m a -> pre a o -> sim (step m o) (astep a o).
Proof.
  intros H Hp. destruct o; cbn [step].
  - cbn. destruct H as [H1 H2 H3 H4 H5 H6]. split; cbn; done.
  - by apply sim_Initialize.
  - by apply sim_Append.
  - by apply sim_Remove.
  - by apply sim_Coordinates.
  - by apply sim_AllCoordinates.
  - by apply sim_Extremes.
  - by apply sim_AllExtremes.
  - by apply sim_Marker.
  - by apply sim_State.
  - by apply sim_Updated.
  - by apply sim_InitAll.
  - by apply sim_InitConst.
  - by apply sim_InitOne.
  - by apply sim_Insert.
  - by apply sim_InsertList.
  - by apply sim_Add.
  - by apply sim_AddVE.
  - by apply sim_Reset.
  - by apply sim_AddProperty.
  - by apply sim_PropInitAll.
  - by apply sim_PropInitOne.
  - by apply sim_PropInsert.
  - done.
Qed.

Lemma run_sim ops m a : represents m a -> safe ops a -> sim (run ops m) (arun ops a).
Proof.
  revert m a. induction ops as [|o ops IH]; intros m a H Hs; cbn; [done|].
  destruct Hs as [Hp Hs]. pose proof (step_sim m a o H Hp) as Hst.
  change (sim (step m o ≫= run ops) (astep a o ≫= arun ops)).
  destruct (step m o) as [m'| | | |]; destruct (astep a o) as [a'|]; cbn in *; try done. by apply IH.
Qed.

(** ** The queries read the abstract mesh *)

Definition look {B} (a : amesh) (d : dim) (i : nat) (f : acell -> B) : outcome B :=
  match am_cells a d !! i with Some x => Ok (f x) | None => Abort end.

Section getters.
Context (m : mesh) (a : amesh) (H : represents m a).

Lemma g_num d : num d m = anum d a.
Proof. by apply rep_num. Qed.

Ltac cell d i x Hx :=
  destruct (am_cells a d !! i) as [x|] eqn:Hx;
  [rewrite ?require_true by (by eapply num_true)
  |by rewrite require_false by (by eapply num_false)].

Lemma g_count r i : RelNumber r i m = look a (src r) i (fun x => N.of_nat (length (row_of r x))).
Proof.
  unfold look. destruct (am_cells a (src r) !! i) as [x|] eqn:Hx; [by apply (RelNumber_rep m a)|].
  unfold RelNumber. by rewrite require_false by (by eapply num_false).
Qed.

Lemma csr_get_row r i x k :
  am_cells a (src r) !! i = Some x -> k < length (ac_rel x r) ->
  exists v, ac_rel x r !! k = Some v /\ csr_get (mrel m r) i k = Ok v.
Proof.
  intros Hx Hk. destruct (lookup_lt_is_Some_2 _ _ Hk) as [v Hv]. exists v. split; [done|].
  erewrite csr_get_spec; [|apply (r_rel _ _ H)|by eapply (rep_row m)|done]. by apply vget_Ok.
Qed.

Lemma omapM_seq_get {A} (f : nat -> outcome A) (l : list A) :
  (forall k v, l !! k = Some v -> f k = Ok v) -> omapM f (seq 0 (length l)) = Ok l.
Proof.
  intros Hf. apply omapM_ok. apply Forall2_same_length_lookup. split; [by rewrite seq_length|].
  intros i k v Hk Hv. apply lookup_seq in Hk as [-> _]. by apply Hf.
Qed.

Lemma g_row r i : RelRow r i m = look a (src r) i (row_of r).
Proof.
  unfold RelRow. rewrite g_count. unfold look, row_of.
  destruct (am_cells a (src r) !! i) as [x|] eqn:Hx; [|done]. cbn. rewrite Nat2N.id.
  apply omapM_seq_get. intros k v Hk.
  destruct (csr_get_row r i x k Hx) as (v' & Hv & ->); [by eapply lookup_lt_Some|]. congruence.
Qed.

Lemma g_get r i k :
  RelGet r i k m = match am_cells a (src r) !! i with
                   | Some x => match ac_rel x r !! k with Some v => Ok v | None => Abort end
                   | None => Abort
                   end.
Proof.
  unfold RelGet. cell (src r) i x Hx. rewrite g_count. unfold look. rewrite Hx. cbn. unfold row_of.
  destruct (decide (k < length (ac_rel x r))) as [Hk|Hk].
  - rewrite require_true by lia. destruct (csr_get_row r i x k Hx Hk) as (v & -> & ->). done.
  - rewrite require_false by lia. by rewrite lookup_ge_None_2 by lia.
Qed.

Lemma g_marker d i : Marker d i m = look a d i ac_mark.
Proof.
  unfold Marker, look. cell d i x Hx. apply vget_Ok. rewrite (rc_mark _ _ _ _ _ _ _ _ _ (r_cells _ _ H d)).
  by rewrite list_lookup_fmap, Hx.
Qed.

Lemma g_active d i : IsActive d i m = look a d i ac_act.
Proof.
  unfold IsActive, look. cell d i x Hx. apply vget_Ok. rewrite (rc_act _ _ _ _ _ _ _ _ _ (r_cells _ _ H d)).
  by rewrite list_lookup_fmap, Hx.
Qed.

Lemma geo_get d i x k v :
  am_cells a d !! i = Some x -> ac_geo x !! k = Some v ->
  concat (ac_geo <$> am_cells a d) !! (geo_size d * i + k) = Some v.
Proof.
  intros Hx Hv. pose proof (r_geo _ _ H d) as Hg.
  apply vget_ok. erewrite (uniform_get (geo_size d)); [|done|by rewrite list_lookup_fmap, Hx|].
  - by apply vget_Ok.
  - apply lookup_lt_Some in Hv. rewrite Forall_forall in Hg.
    rewrite <- (Hg (ac_geo x)); [done|]. apply elem_of_list_fmap. exists x. split; [done|].
    by eapply elem_of_list_lookup_2.
Qed.

Lemma geo_len d i x : am_cells a d !! i = Some x -> length (ac_geo x) = geo_size d.
Proof.
  intros Hx. pose proof (r_geo _ _ H d) as Hg. rewrite Forall_forall in Hg. apply Hg.
  apply elem_of_list_fmap. exists x. split; [done|]. by eapply elem_of_list_lookup_2.
Qed.

Lemma geo3 i x : am_cells a D0 !! i = Some x -> exists p q s, ac_geo x = [p; q; s].
Proof.
  intros Hx. pose proof (geo_len D0 i x Hx) as Hl. cbn in Hl.
  destruct (ac_geo x) as [|p [|q [|s [|]]]]; try done. eauto.
Qed.

Lemma geo2 i x : am_cells a D1 !! i = Some x -> exists o t, ac_geo x = [o; t].
Proof.
  intros Hx. pose proof (geo_len D1 i x Hx) as Hl. cbn in Hl.
  destruct (ac_geo x) as [|p [|q [|]]]; try done. eauto.
Qed.

Definition geo_triple (x : acell) : N * N * N :=
  match ac_geo x with [p; q; s] => (p, q, s) | _ => (0%N, 0%N, 0%N) end.
Definition geo_pair (x : acell) : N * N :=
  match ac_geo x with [o; t] => (o, t) | _ => (0%N, 0%N) end.

Lemma g_coord i : Cell0DCoordinates i m = look a D0 i geo_triple.
Proof.
  unfold Cell0DCoordinates, look. cell D0 i x Hx. destruct (geo3 i x Hx) as (p & q & s & Hg).
  unfold geo_triple. rewrite Hg. rewrite (r_coord _ _ H).
  assert (Hk : forall k v, [p; q; s] !! k = Some v ->
    concat (ac_geo <$> am_cells a D0) !! (3 * i + k) = Some v).
  { intros k v Hv. apply (geo_get D0 i x); [done|]. by rewrite Hg. }
  rewrite (vget_Ok _ (3 * i) p) by (rewrite <- (Nat.add_0_r (3 * i)); by apply Hk). cbn [mbind outcome_bind].
  rewrite (vget_Ok _ (3 * i + 1) q) by by apply Hk. cbn [mbind outcome_bind].
  rewrite (vget_Ok _ (3 * i + 2) s) by by apply Hk. done.
Qed.

Lemma ext_get e x k v :
  am_cells a D1 !! e = Some x -> ac_geo x !! k = Some v -> mext m !! (2 * e + k) = Some v.
Proof. intros Hx Hv. rewrite (r_ext _ _ H). by apply (geo_get D1 e x). Qed.

Lemma g_origin e : Cell1DOrigin e m = look a D1 e (fun x => (geo_pair x).1).
Proof.
  unfold Cell1DOrigin, look. cell D1 e x Hx. destruct (geo2 e x Hx) as (o & t & Hg).
  apply vget_Ok. rewrite <- (Nat.add_0_r (2 * e)). eapply ext_get; [done|]. unfold geo_pair. by rewrite Hg.
Qed.

Lemma g_end e : Cell1DEnd e m = look a D1 e (fun x => (geo_pair x).2).
Proof.
  unfold Cell1DEnd, look. cell D1 e x Hx. destruct (geo2 e x Hx) as (o & t & Hg).
  apply vget_Ok. eapply ext_get; [done|]. unfold geo_pair. by rewrite Hg.
Qed.

Lemma upd_cell d i x : am_cells a d !! i = Some x -> cupd (mcells m d) !! N.of_nat i = ac_upd x.
Proof.
  intros Hx. rewrite (rc_upd _ _ _ _ _ _ _ _ _ (r_cells _ _ H d)).
  rewrite Nat2N.id, list_lookup_fmap, Hx. done.
Qed.

Lemma g_hasupdateds d i : HasUpdateds d i m = look a d i (fun x => bool_decide (is_Some (ac_upd x))).
Proof. unfold HasUpdateds, look. cell d i x Hx. by rewrite (upd_cell d i x Hx). Qed.

Lemma g_numupdateds d i :
  NumberUpdateds d i m = match am_cells a d !! i with
                         | Some x => match ac_upd x with Some s => Ok (size s) | None => Throw end
                         | None => Abort
                         end.
Proof. unfold NumberUpdateds. cell d i x Hx. by rewrite (upd_cell d i x Hx). Qed.

Lemma g_hasupdated d i j :
  i < anum d a -> j < anum d a ->
  HasUpdated d i j m = match am_cells a d !! i with
                       | Some x => match ac_upd x with Some s => Ok (bool_decide (N.of_nat j ∈ s)) | None => Throw end
                       | None => Abort
                       end.
Proof.
  intros Hi Hj. unfold HasUpdated. cell d i x Hx. rewrite g_num. rewrite require_true by lia.
  by rewrite (upd_cell d i x Hx).
Qed.

Lemma g_original d i : d <> D0 -> Original d i m = look a d i ac_orig.
Proof.
  intros Hd. unfold Original, look. cell d i x Hx. apply vat_Ok.
  rewrite (rc_orig _ _ _ _ _ _ _ _ _ (r_cells _ _ H d)). destruct d; [done|..]; by rewrite list_lookup_fmap, Hx.
Qed.

Lemma g_hasoriginal d i :
  d <> D0 -> HasOriginal d i m = look a d i (fun x => (ac_orig x <? N.of_nat (anum d a))%N).
Proof.
  intros Hd. unfold HasOriginal, look. cell d i x Hx. rewrite g_num.
  rewrite (vat_Ok _ _ (ac_orig x)); [done|].
  rewrite (rc_orig _ _ _ _ _ _ _ _ _ (r_cells _ _ H d)). destruct d; [done|..]; by rewrite list_lookup_fmap, Hx.
Qed.

(** Double properties. *)
Lemma names_len d : length (pids (cprops (mcells m d))) = length (am_names a d).
Proof.
  by rewrite (rp_ids _ _ _ (rc_props _ _ _ _ _ _ _ _ _ (r_cells _ _ H d))).
Qed.

Lemma prop_csr d p :
  p < length (am_names a d) ->
  exists c, pvals (cprops (mcells m d)) !! p = Some c /\ csr_rep c (prop_of p <$> am_cells a d).
Proof.
  intros Hp. pose proof (rc_props _ _ _ _ _ _ _ _ _ (r_cells _ _ H d)) as Hr.
  rewrite <- (rp_len _ _ _ Hr) in Hp. apply lookup_lt_is_Some in Hp as [c Hc]. exists c. split; [done|].
  pose proof (rp_vals _ _ _ Hr p c Hc) as Hrep. rewrite <- list_fmap_compose in Hrep. exact Hrep.
Qed.

Lemma g_propsize d i p :
  PropSize d i p m = match am_cells a d !! i with
                     | Some x => if decide (p < length (am_names a d)) then Ok (N.of_nat (length (prop_of p x))) else Abort
                     | None => Abort
                     end.
Proof.
  unfold PropSize. change (cnum (mcells m d)) with (num d m). cell d i x Hx. rewrite names_len.
  destruct (decide (p < length (am_names a d))) as [Hp|Hp]; [|by rewrite require_false by lia].
  rewrite require_true by lia. destruct (prop_csr d p Hp) as (c & Hc & Hrep).
  rewrite (vget_Ok _ _ _ Hc). cbn [mbind outcome_bind].
  eapply csr_count_spec; [done|]. by rewrite list_lookup_fmap, Hx.
Qed.

Lemma g_propvalue d i p k :
  PropValue d i p k m = match am_cells a d !! i with
                        | Some x => if decide (p < length (am_names a d))
                                    then match prop_of p x !! k with Some v => Ok v | None => Abort end else Abort
                        | None => Abort
                        end.
Proof.
  unfold PropValue. change (cnum (mcells m d)) with (num d m). cell d i x Hx. rewrite names_len.
  rewrite g_propsize, Hx.
  destruct (decide (p < length (am_names a d))) as [Hp|Hp]; [|by rewrite require_false by lia].
  rewrite require_true by lia. cbn [mbind outcome_bind].
  destruct (prop_csr d p Hp) as (c & Hc & Hrep).
  destruct (decide (k < length (prop_of p x))) as [Hk|Hk].
  - rewrite require_true by lia. rewrite (vget_Ok _ _ _ Hc). cbn [mbind outcome_bind].
    destruct (lookup_lt_is_Some_2 _ _ Hk) as [v Hv]. rewrite Hv.
    erewrite csr_get_spec; [|done|by rewrite list_lookup_fmap, Hx|done]. by apply vget_Ok.
  - rewrite require_false by lia. by rewrite lookup_ge_None_2 by lia.
Qed.

Lemma g_propexists d id : PropExists d id m = bool_decide (id ∈ am_names a d).
Proof.
  unfold PropExists. pose proof (rc_props _ _ _ _ _ _ _ _ _ (r_cells _ _ H d)) as Hr.
  apply bool_decide_ext. split.
  - intros [p Hp]. apply (rp_index _ _ _ Hr) in Hp. by eapply elem_of_list_lookup_2.
  - intros [p Hp]%elem_of_list_lookup. exists p. by apply (rp_index _ _ _ Hr).
Qed.

(** Neighbours that are present. *)
Lemma g_has r i k :
  RelHas r i k m = match am_cells a (src r) !! i with
                   | Some x => match ac_rel x r !! k with
                               | Some v => Ok (v <? N.of_nat (anum (tgt r) a))%N | None => Abort end
                   | None => Abort
                   end.
Proof.
  unfold RelHas. rewrite g_get, g_num. destruct (am_cells a (src r) !! i) as [x|]; [|done].
  by destruct (ac_rel x r !! k).
Qed.

Lemma ofold_filter {A} (f : nat -> outcome bool) (g : nat -> outcome A) (P : A -> bool) (l : list A) acc s :
  (forall k v, l !! k = Some v -> f (s + k) = Ok (P v)) ->
  (forall k v, l !! k = Some v -> g (s + k) = Ok v) ->
  ofold (fun acc k => b ← f k; if b : bool then v ← g k; Ok (acc ++ [v]) else Ok acc) (seq s (length l)) acc
  = Ok (acc ++ filter (fun v => P v = true) l).
Proof.
  revert acc s. induction l as [|v l IH]; intros acc s Hf Hg; [cbn; by rewrite app_nil_r|].
  cbn [length seq ofold mbind outcome_bind].
  pose proof (Hf 0 v eq_refl) as E1. pose proof (Hg 0 v eq_refl) as E2. rewrite Nat.add_0_r in E1, E2.
  rewrite E1. cbn [mbind outcome_bind]. rewrite filter_cons. destruct (P v) eqn:EP.
  - rewrite E2. cbn [mbind outcome_bind]. rewrite decide_True by done. rewrite IH; [by rewrite <- app_assoc|..].
    + intros k w Hk. replace (S s + k) with (s + S k) by lia. by apply Hf.
    + intros k w Hk. replace (S s + k) with (s + S k) by lia. by apply Hg.
  - cbn [mbind outcome_bind]. rewrite decide_False by done. rewrite IH; [done|..].
    + intros k w Hk. replace (S s + k) with (s + S k) by lia. by apply Hf.
    + intros k w Hk. replace (S s + k) with (s + S k) by lia. by apply Hg.
Qed.

Lemma g_neighbours r i :
  RelNeighbours r i m =
  look a (src r) i (fun x => filter (fun v => (v <? N.of_nat (anum (tgt r) a))%N = true) (row_of r x)).
Proof.
  unfold RelNeighbours. unfold look. cell (src r) i x Hx. rewrite g_count. unfold look. rewrite Hx.
  cbn [mbind outcome_bind]. rewrite Nat2N.id. unfold row_of.
  erewrite (ofold_filter _ _ (fun v => (v <? N.of_nat (anum (tgt r) a))%N)); [done|..].
  - intros k v Hk. cbn. rewrite g_has, Hx. unfold row_of in Hk. by rewrite Hk.
  - intros k v Hk. cbn. rewrite g_get, Hx. unfold row_of in Hk. by rewrite Hk.
Qed.

End getters.
