(** Removing a cell, stated on the queries (C03, C05, C06, C07). *)
From Verif Require Import Base BaseProof CsrModel CsrSpec CsrProof MeshModel MeshSpec MeshRep MeshHist
  MeshProof MeshProof2 MeshProof3 MeshProof4 MeshProof5 MeshProof6 MeshProof7 MeshProof8 MeshProof9 MeshProofA.
From Coq Require Import ZifyBool ZifyNat ZifyN.

Lemma aremove_lookup a d i d' j :
  d' <> d \/ j <> i ->
  am_cells (aremove d i a) d' !! moved d i d' j =
  renumber_cell d (N.of_nat i) (N.of_nat (anum d a - 1)) d' <$> am_cells a d' !! j.
Proof.
  intros Hne. cbn [aremove am_cells]. rewrite list_lookup_fmap. f_equal. unfold moved.
  destruct (decide (d' = d)) as [->|E].
  - rewrite decide_True by done. rewrite lookup_delete_list_cases. unfold new_number.
    destruct Hne as [?|Hne]; [done|]. destruct (Nat.ltb_spec j i).
    + by rewrite decide_True.
    + rewrite decide_False by lia. f_equal. lia.
  - by rewrite decide_False by done.
Qed.

Lemma aremove_num a d i d' :
  i < anum d a -> anum d' (aremove d i a) = if decide (d' = d) then anum d a - 1 else anum d' a.
Proof.
  intros Hi. unfold anum. cbn [aremove am_cells]. rewrite fmap_length.
  destruct (decide (d' = d)) as [->|E].
  - rewrite decide_True by done. by rewrite delete_length.
  - by rewrite decide_False by done.
Qed.

Lemma remove_inv m d i m' :
  reachable m -> CellRemove d i m = Ok m' ->
  exists a, represents m a /\ represents m' (aremove d i a) /\ i < anum d a.
Proof.
  intros Hm Hs. destruct (reachable_step m (ORemove d i) m' Hm I Hs) as (a & a' & H & H' & Ho).
  cbn [astep] in Ho. case_decide; [|done]. injection Ho as <-. eauto.
Qed.

Lemma renumber_shift i g v : v <> i -> renumber i g v = new_numberN i v.
Proof.
  intros Hv. unfold renumber, new_numberN. destruct (decide (v < i)%N).
  - destruct (N.ltb_spec v i); [done|lia].
  - rewrite decide_False by done. destruct (N.ltb_spec v i); [lia|done].
Qed.

Lemma remove_look {B} a d i d' j (g h : acell -> B) :
  d' <> d \/ j <> i ->
  (forall x, g (renumber_cell d (N.of_nat i) (N.of_nat (anum d a - 1)) d' x) = h x) ->
  look (aremove d i a) d' (moved d i d' j) g = look a d' j h.
Proof.
  intros Hne Hg. unfold look. rewrite aremove_lookup by done.
  destruct (am_cells a d' !! j); cbn; [by rewrite Hg|done].
Qed.

(** Counters. *)
Lemma remove_num m d i m' :
  reachable m -> CellRemove d i m = Ok m' ->
  i < num d m /\ num d m' = num d m - 1 /\ forall d', d' <> d -> num d' m' = num d' m.
Proof.
  intros Hm Hs. destruct (remove_inv m d i m' Hm Hs) as (a & H & H' & Hi).
  rewrite (g_num _ _ H), !(g_num _ _ H'). split_and!; [done| |].
  - by rewrite aremove_num, decide_True.
  - intros d' Hd. by rewrite (g_num _ _ H), (g_num _ _ H'), aremove_num, decide_False.
Qed.

(** Own data of the surviving cells. *)
Lemma remove_attributes m d i m' d' j :
  reachable m -> CellRemove d i m = Ok m' -> d' <> d \/ j <> i ->
  let j' := moved d i d' j in
  Marker d' j' m' = Marker d' j m /\
  IsActive d' j' m' = IsActive d' j m /\
  (d' = D0 -> Cell0DCoordinates j' m' = Cell0DCoordinates j m) /\
  (forall p, PropSize d' j' p m' = PropSize d' j p m) /\
  (forall p k, PropValue d' j' p k m' = PropValue d' j p k m).
Proof.
  intros Hm Hs Hne. destruct (remove_inv m d i m' Hm Hs) as (a & H & H' & Hi). cbn zeta. split_and!.
  - rewrite (g_marker _ _ H), (g_marker _ _ H'). by apply remove_look.
  - rewrite (g_active _ _ H), (g_active _ _ H'). by apply remove_look.
  - intros ->. rewrite (g_coord _ _ H), (g_coord _ _ H'). apply remove_look; [done|].
    intros x. unfold geo_triple. cbn. rewrite decide_False by (by intros [_ ?]). done.
  - intros p. rewrite (g_propsize _ _ H), (g_propsize _ _ H'), aremove_lookup by done.
    by destruct (am_cells a d' !! j).
  - intros p k. rewrite (g_propvalue _ _ H), (g_propvalue _ _ H'), aremove_lookup by done.
    by destruct (am_cells a d' !! j).
Qed.

(** Rows: what every reference becomes. *)
Lemma remove_row_obs m d i m' r j :
  reachable m -> CellRemove d i m = Ok m' -> src r <> d \/ j <> i ->
  forall l, RelRow r j m = Ok l ->
  exists l', RelRow r (moved d i (src r) j) m' = Ok l' /\ length l' = length l /\
    forall k v, l !! k = Some v ->
      (tgt r <> d \/ r = S2 -> l' !! k = Some v) /\
      (tgt r = d -> r <> S2 -> v <> N.of_nat i -> l' !! k = Some (new_numberN (N.of_nat i) v)) /\
      (tgt r = d -> r <> S2 -> v = N.of_nat i ->
         l' !! k = Some (if is_neighbour r then UINT_MAX else N.of_nat (num d m - 1))).
Proof.
  intros Hm Hs Hne l Hl. destruct (remove_inv m d i m' Hm Hs) as (a & H & H' & Hi).
  rewrite (g_row _ _ H) in Hl. unfold look in Hl. destruct (am_cells a (src r) !! j) as [x|] eqn:Hx; [|done].
  injection Hl as <-. rewrite (g_row _ _ H'). unfold look. rewrite aremove_lookup, Hx by done. cbn [fmap option_fmap option_map].
  eexists. split; [done|]. unfold row_of. cbn [renumber_cell ac_rel]. unfold renumber_row.
  rewrite (g_num _ _ H).
  destruct (decide (tgt r = d /\ r <> S2)) as [[E1 E2]|E].
  - split; [by rewrite fmap_length|]. intros k v Hk. rewrite list_lookup_fmap, Hk. cbn. split_and!.
    + intros [?|?]; done.
    + intros _ _ Hv. by rewrite renumber_shift.
    + intros _ _ ->. unfold renumber. rewrite decide_False by lia. by rewrite decide_True.
  - split; [done|]. intros k v Hk. split_and!; [done|..]; intros; exfalso; tauto.
Qed.

(** End points of edges. *)
Lemma remove_extremes m d i m' e :
  reachable m -> CellRemove d i m = Ok m' -> d <> D1 \/ e <> i ->
  let e' := moved d i D1 e in
  let f := fun v => if decide (d = D0) then if decide (v = N.of_nat i) then N.of_nat (num D0 m - 1)
                                        else new_numberN (N.of_nat i) v else v in
  Cell1DOrigin e' m' = f <$> Cell1DOrigin e m /\ Cell1DEnd e' m' = f <$> Cell1DEnd e m.
Proof.
  intros Hm Hs Hne. destruct (remove_inv m d i m' Hm Hs) as (a & H & H' & Hi). cbn zeta.
  rewrite (g_origin _ _ H), (g_origin _ _ H'), (g_end _ _ H), (g_end _ _ H').
  unfold look. rewrite aremove_lookup by (destruct Hne; [left|right]; congruence).
  destruct (am_cells a D1 !! e) as [x|] eqn:Hx; cbn [fmap option_fmap option_map outcome_fmap]; [|done].
  destruct (geo2 m a H e x Hx) as (o & t & Hg). unfold geo_pair. cbn [renumber_cell ac_geo]. rewrite Hg.
  assert (Hf : forall v, renumber (N.of_nat i) (N.of_nat (anum d a - 1)) v =
     (if decide (v = N.of_nat i) then N.of_nat (anum d a - 1) else new_numberN (N.of_nat i) v)).
  { intros v. destruct (decide (v = N.of_nat i)) as [->|E]; [|by apply renumber_shift].
    unfold renumber. rewrite decide_False by lia. by rewrite decide_True. }
  destruct (decide (d = D0)) as [->|E].
  - rewrite decide_True by done. cbn. rewrite !Hf. rewrite (g_num _ _ H). done.
  - rewrite decide_False by tauto. done.
Qed.

(** Origins. *)
Lemma remove_original m d i m' d' j :
  reachable m -> CellRemove d i m = Ok m' -> d' <> D0 -> d' <> d \/ j <> i ->
  forall o, Original d' j m = Ok o ->
  Original d' (moved d i d' j) m' =
    Ok (if decide (d' = d) then if decide (o = N.of_nat i) then UINT_MAX else new_numberN (N.of_nat i) o else o).
Proof.
  intros Hm Hs Hd Hne o Ho. destruct (remove_inv m d i m' Hm Hs) as (a & H & H' & Hi).
  rewrite (g_original _ _ H) in Ho by done. rewrite (g_original _ _ H') by done.
  unfold look in *. rewrite aremove_lookup by done.
  destruct (am_cells a d' !! j) as [x|] eqn:Hx; [|done]. injection Ho as <-. cbn [fmap option_fmap option_map renumber_cell ac_orig].
  f_equal. destruct (decide (d' = d)) as [->|E].
  - rewrite decide_True by done. destruct (decide (ac_orig x = N.of_nat i)) as [E|E].
    + unfold renumber. rewrite decide_False by lia. by rewrite decide_True.
    + by apply renumber_shift.
  - rewrite decide_False; [done|]. intros [? _]. done.
Qed.

(** Has-queries. *)
Lemma remove_has m d i m' r j k :
  reachable m -> CellRemove d i m = Ok m' -> src r <> d \/ j <> i -> r <> S2 -> (N.of_nat (num d m) <= UINT_MAX)%N ->
  forall v, RelGet r j k m = Ok v ->
  RelHas r (moved d i (src r) j) k m' =
    if decide (tgt r = d /\ v = N.of_nat i) then Ok false else RelHas r j k m.
Proof.
  intros Hm Hs Hne Hr2 Hmax v Hv. destruct (remove_inv m d i m' Hm Hs) as (a & H & H' & Hi).
  rewrite (g_get _ _ H) in Hv. rewrite (g_has _ _ H), (g_has _ _ H'), aremove_lookup by done.
  rewrite (g_num _ _ H) in Hmax.
  destruct (am_cells a (src r) !! j) as [x|] eqn:Hx; [|done].
  destruct (ac_rel x r !! k) as [w|] eqn:Hw; [|done]. injection Hv as ->.
  cbn [fmap option_fmap option_map renumber_cell ac_rel]. unfold renumber_row. rewrite aremove_num by done.
  destruct (decide (tgt r = d)) as [Et|Et].
  - rewrite decide_True by done. rewrite list_lookup_fmap, Hw. cbn [fmap option_fmap option_map].
    destruct (decide (v = N.of_nat i)) as [->|Ev].
    + rewrite (decide_True (P := tgt r = d /\ N.of_nat i = N.of_nat i)) by done. f_equal.
      unfold renumber. rewrite decide_False by lia. rewrite decide_True by done.
      destruct (is_neighbour r); lia.
    + rewrite (decide_False (P := tgt r = d /\ v = N.of_nat i)) by tauto. f_equal.
      rewrite renumber_shift by done. unfold new_numberN. rewrite Et. destruct (N.ltb_spec v (N.of_nat i)); lia.
  - rewrite !decide_False by tauto. by rewrite Hw.
Qed.

(** Genealogy: "i was replaced by j". *)
Lemma replaced_by_abs m a d i j :
  represents m a ->
  replaced_by d m i j <->
  j < anum d a /\ exists x s, am_cells a d !! i = Some x /\ ac_upd x = Some s /\ N.of_nat j ∈ s.
Proof.
  intros H. unfold replaced_by, HasUpdated. rewrite (g_num _ _ H).
  destruct (am_cells a d !! i) as [x|] eqn:Hx.
  - pose proof (lookup_lt_Some _ _ _ Hx). rewrite require_true by (unfold anum; lia).
    destruct (decide (j < anum d a)).
    + rewrite require_true by lia. rewrite (upd_cell m a H d i x Hx). destruct (ac_upd x) as [s|] eqn:Eu.
      * split.
        -- intros [= Hb%bool_decide_eq_true]. split; [done|]. exists x, s. done.
        -- intros (_ & x' & s' & [= <-] & Es & Hin). rewrite Eu in Es. injection Es as <-.
           by rewrite bool_decide_true.
      * split; [done|]. intros (_ & x' & s' & [= <-] & Es & Hin). congruence.
    + rewrite require_false by lia. split; [done|]. intros [? _]. done.
  - rewrite require_false by (apply lookup_ge_None in Hx; unfold anum; lia). split; [done|].
    intros (_ & x' & s' & ? & _). done.
Qed.

Lemma remove_replaced m d i m' d' p q :
  reachable m -> CellRemove d i m = Ok m' ->
  (d' <> d \/ p <> i) -> (d' <> d \/ q <> i) ->
  replaced_by d' m' (moved d i d' p) (moved d i d' q) <-> replaced_by d' m p q.
Proof.
  intros Hm Hs Hp Hq. destruct (remove_inv m d i m' Hm Hs) as (a & H & H' & Hi).
  rewrite (replaced_by_abs _ _ _ _ _ H), (replaced_by_abs _ _ _ _ _ H').
  rewrite aremove_num by done. rewrite aremove_lookup by done.
  destruct (decide (d' = d)) as [->|E].
  - unfold moved. rewrite !decide_True by done. destruct Hp as [?|Hp]; [done|]. destruct Hq as [?|Hq]; [done|].
    split.
    + intros (Hlt & x & s & Hx & Hu & Hin).
      destruct (am_cells a d !! p) as [y|] eqn:Hy; [|done]. cbn in Hx. injection Hx as <-.
      cbn in Hu. rewrite decide_True in Hu by done. unfold renumber_upd in Hu.
      apply bind_Some in Hu as (s0 & Hs0 & Hu). case_decide; [done|]. injection Hu as <-.
      apply elem_of_map in Hin as (w & Hw & Hin). apply elem_of_difference in Hin as [Hin Hne].
      rewrite elem_of_singleton in Hne.
      assert (w = N.of_nat q) as ->.
      { unfold new_number in Hw. destruct (Nat.ltb_spec q i); destruct (decide (w < N.of_nat i)%N); lia. }
      split; [|by exists y, s0].
      unfold new_number in Hlt. destruct (Nat.ltb_spec q i); lia.
    + intros (Hlt & x & s & Hx & Hu & Hin). split.
      { unfold new_number. destruct (Nat.ltb_spec q i); lia. }
      rewrite Hx. cbn [fmap option_fmap option_map]. eexists _, _. split; [done|].
      cbn [renumber_cell ac_upd]. rewrite decide_True by done. rewrite Hu. unfold renumber_upd. cbn [mbind option_bind].
      rewrite decide_False by set_solver by lia. split; [done|].
      apply elem_of_map. exists (N.of_nat q). split.
      * unfold new_number. destruct (Nat.ltb_spec q i); destruct (decide (N.of_nat q < N.of_nat i)%N); lia.
      * apply elem_of_difference. split; [done|]. rewrite elem_of_singleton. lia.
  - unfold moved. rewrite !decide_False by done. split.
    + intros (Hlt & x & s & Hx & Hu & Hin). split; [done|].
      destruct (am_cells a d' !! p) as [y|] eqn:Hy; [|done]. cbn in Hx. injection Hx as <-.
      exists y, s. split; [done|]. split; [|done]. cbn in Hu. by rewrite decide_False in Hu by done.
    + intros (Hlt & x & s & Hx & Hu & Hin). split; [done|]. rewrite Hx. eexists _, s. split; [done|].
      split; [|done]. cbn. by rewrite decide_False by done.
Qed.

Lemma hasupdateds_replaced m d i :
  reachable m -> HasUpdateds d i m = Ok true <-> exists j, replaced_by d m i j.
Proof.
  intros Hm. destruct (reachable_rep m Hm) as [a H].
  rewrite (g_hasupdateds _ _ H). unfold look.
  setoid_rewrite (replaced_by_abs _ _ _ _ _ H).
  destruct (am_cells a d !! i) as [x|] eqn:Hx.
  - split.
    + intros [= Hb%bool_decide_eq_true]. destruct Hb as [s Hu].
      pose proof (rc_upd_ok _ _ _ _ _ _ _ _ _ (r_cells _ _ H d) i s) as Hok.
      rewrite list_lookup_fmap, Hx in Hok. cbn in Hok. rewrite Hu in Hok. destruct (Hok eq_refl) as [Hne Hb].
      apply set_choose_L in Hne as [v Hv]. pose proof (Hb v Hv) as Hlt.
      exists (N.to_nat v). split; [unfold anum; lia|]. exists x, s. rewrite N2Nat.id. done.
    + intros (j & _ & x' & s & [= <-] & Hu & _). f_equal. apply bool_decide_eq_true. eauto.
  - split; [done|]. intros (j & _ & x' & s & ? & _). done.
Qed.
