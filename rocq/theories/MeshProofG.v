(** End points followed through histories (C06); remaining read-back lemmas (C01); witnesses. *)
From Verif Require Import Base BaseProof CsrModel CsrSpec CsrProof MeshModel MeshSpec MeshRep MeshHist
  MeshProof MeshProof2 MeshProof3 MeshProof4 MeshProof5 MeshProof6 MeshProof7 MeshProof8 MeshProof9 MeshProofA MeshProofB
  MeshProofC MeshProofD MeshProofE MeshProofF.
From Coq Require Import ZifyBool ZifyNat ZifyN.

Definition carry_geo (a : amesh) (o : op) (l : list N) : list N :=
  match o with
  | ORemove D0 i => renumber (N.of_nat i) (N.of_nat (anum D0 a - 1)) <$> l
  | _ => l
  end.

Lemma astep_frame_geo a o a' j j' x :
  astep a o = Some a' -> follow o D1 j = Some j' -> am_cells a D1 !! j = Some x -> ~ writes_extremes o j ->
  exists x', am_cells a' D1 !! j' = Some x' /\ ac_geo x' = carry_geo a o (ac_geo x).
Proof.
  intros Ho Hf Hx Hw.
  assert (Hsame : forall P : acell -> Prop,
    (exists x', am_cells a' D1 !! j = Some x' /\ P x') -> j' = j ->
    exists x', am_cells a' D1 !! j' = Some x' /\ P x') by (intros P HP ->; done).
  assert (Hfj : match o with ORemove _ _ => True | _ => j' = j end) by (destruct o; first [exact I|cbn in Hf; congruence]).
  destruct o; cbn [astep] in Ho; try (apply Hsame; [|exact Hfj]); cbn [writes_extremes carry_geo] in *.
  - injection Ho as <-. exists x. done.
  - injection Ho as <-. rewrite with_cells_lookup. case_decide as E; [|by exists x]. subst d.
    exists x. rewrite lookup_app_l by (by eapply lookup_lt_Some). done.
  - injection Ho as <-. rewrite with_cells_lookup. case_decide as E; [|by exists x]. subst d.
    exists x. rewrite lookup_app_l by (by eapply lookup_lt_Some). done.
  - case_decide as Hi; [|done]. injection Ho as <-. cbn [follow] in Hf.
    assert (Hmv : j' = moved d i D1 j /\ (D1 <> d \/ j <> i)).
    { unfold moved. destruct (decide (d = D1)) as [->|E].
      - rewrite decide_True by done. destruct (decide (j = i)); [done|]. injection Hf as <-. tauto.
      - rewrite decide_False by done. injection Hf as <-. split; [done|]. by left. }
    destruct Hmv as [-> Hne]. rewrite aremove_lookup, Hx by done. eexists. split; [done|].
    cbn [renumber_cell ac_geo]. destruct d; done.
  - eapply on_cell_frame; [exact Ho|exact Hx|done|done].
  - case_decide as E; [|done]. injection Ho as <-. rewrite with_cells_lookup. case_decide as E2; [|by exists x]. done.
  - eapply on_cell_frame; [exact Ho|exact Hx|done|]. intros _ E. by destruct Hw.
  - done.
  - eapply on_cell_frame; [exact Ho|exact Hx|done|done].
  - eapply on_cell_frame; [exact Ho|exact Hx|done|done].
  - case_decide as E; [|done]. apply bind_Some in Ho as (a1 & Ho1 & Ho2).
    destruct (on_cell_frame _ _ _ _ _ D1 j x (fun y => ac_geo y = ac_geo x) Ho1 Hx)
      as (x1 & Hx1 & Hr1); [done|done|].
    eapply on_cell_frame; [exact Ho2|exact Hx1|done|]. intros _ _. by case_decide.
  - case_decide as E; [|done]. injection Ho as <-. rewrite with_cells_lookup. case_decide as E2; [|by exists x].
    rewrite <- E2 in Hx. apply zip_frame with x; [by rewrite redeal_length|by rewrite E2 in *|done].
  - injection Ho as <-. rewrite with_cells_lookup. case_decide as E2; [|by exists x].
    rewrite <- E2 in Hx. apply zip_frame with x; [by rewrite redeal_length, replicate_length|by rewrite E2 in *|done].
  - case_decide as E; [|done]. eapply on_cell_frame; [exact Ho|exact Hx|done|done].
  - apply bind_Some in Ho as (y & Hy & Ho). case_decide as E; [|done].
    eapply on_cell_frame; [exact Ho|exact Hx|done|done].
  - case_decide as E0; [injection Ho as <-; by exists x|].
    apply bind_Some in Ho as (y & Hy & Ho). case_decide as E; [|done].
    eapply on_cell_frame; [exact Ho|exact Hx|done|done].
  - case_decide as E; [|done]. eapply on_cell_frame; [exact Ho|exact Hx|done|done].
  - case_decide as E; [|done]. eapply on_cell_frame; [exact Ho|exact Hx|done|done].
  - eapply on_cell_frame; [exact Ho|exact Hx|done|done].
  - case_decide as E; [done|]. injection Ho as <-. cbn [am_cells].
    destruct (decide (d = D1)) as [->|E2].
    + rewrite upd_fun_eq, list_lookup_fmap, Hx. by eexists.
    + rewrite upd_fun_ne by done. by exists x.
  - case_decide as E; [|done]. injection Ho as <-. rewrite with_cells_lookup. case_decide as E2; [|by exists x].
    subst d. apply zip_frame with x; [rewrite redeal_length; by apply E|done|]. done.
  - case_decide as E; [|done]. eapply on_cell_frame; [exact Ho|exact Hx|done|done].
  - case_decide as E; [|done]. eapply on_cell_frame; [exact Ho|exact Hx|done|done].
  - injection Ho as <-. exists x. done.
Qed.

Lemma extreme_step m o m' (q : nat -> mesh -> outcome N) j j' v c :
  q = Cell1DOrigin \/ q = Cell1DEnd ->
  reachable m -> allowed m o -> step m o = Ok m' ->
  follow o D1 j = Some j' -> ~ writes_extremes o j ->
  q j m = Ok v -> (N.of_nat (num D0 m + (created1 D0 m o + c)) <= v)%N ->
  exists v', q j' m' = Ok v' /\ (N.of_nat (num D0 m' + c) <= v')%N.
Proof.
  intros Hq Hm Ha Hs Hf Hw Hv Hle.
  destruct (reachable_step m o m' Hm Ha Hs) as (a & a' & H & H' & Ho).
  assert (Hpos : exists k x, k < 2 /\ am_cells a D1 !! j = Some x /\ ac_geo x !! k = Some v /\
    forall x' v', am_cells a' D1 !! j' = Some x' -> ac_geo x' !! k = Some v' -> q j' m' = Ok v').
  { destruct Hq as [-> | ->].
    - rewrite (g_origin _ _ H) in Hv. unfold look in Hv. destruct (am_cells a D1 !! j) as [x|] eqn:Hx; [|done].
      destruct (geo2 m a H j x Hx) as (o1 & o2 & Hg). unfold geo_pair in Hv. rewrite Hg in Hv. injection Hv as <-.
      exists 0, x. split_and!; [lia|done|by rewrite Hg|]. intros x' v' Hx' Hk. rewrite (g_origin _ _ H'). unfold look.
      rewrite Hx'. destruct (geo2 m' a' H' j' x' Hx') as (p1 & p2 & Hg'). unfold geo_pair. rewrite Hg' in *. cbn in *. congruence.
    - rewrite (g_end _ _ H) in Hv. unfold look in Hv. destruct (am_cells a D1 !! j) as [x|] eqn:Hx; [|done].
      destruct (geo2 m a H j x Hx) as (o1 & o2 & Hg). unfold geo_pair in Hv. rewrite Hg in Hv. injection Hv as <-.
      exists 1, x. split_and!; [lia|done|by rewrite Hg|]. intros x' v' Hx' Hk. rewrite (g_end _ _ H'). unfold look.
      rewrite Hx'. destruct (geo2 m' a' H' j' x' Hx') as (p1 & p2 & Hg'). unfold geo_pair. rewrite Hg' in *. cbn in *. congruence. }
  destruct Hpos as (k & x & Hk & Hx & Hgk & Hread).
  destruct (astep_frame_geo a o a' j j' x Ho Hf Hx Hw) as (x' & Hx' & Hgeo).
  rewrite (g_num _ _ H'). rewrite (g_num _ _ H) in Hle.
  destruct (astep_num a o a' D0 m H Ho) as [Hnum Hlt].
  assert (Hsame : carry_geo a o (ac_geo x) = ac_geo x -> (N.of_nat (anum D0 a' + c) <= v)%N ->
    exists v', q j' m' = Ok v' /\ (N.of_nat (anum D0 a' + c) <= v')%N).
  { intros E Hb. exists v. split; [|done]. eapply Hread; [done|]. by rewrite Hgeo, E. }
  destruct o; try (apply Hsame; [done|]; lia).
  destruct d; try (apply Hsame; [done|]; rewrite decide_False in Hnum by done; cbn in Hle; lia).
  exists (renumber (N.of_nat i) (N.of_nat (anum D0 a - 1)) v). split.
  - eapply Hread; [done|]. rewrite Hgeo. cbn [carry_geo]. by rewrite list_lookup_fmap, Hgk.
  - specialize (Hlt eq_refl). rewrite decide_True in Hnum by done. cbn in Hle.
    rewrite (renumber_beyond _ _ _ (N.of_nat (anum D0 a))) by lia. lia.
Qed.

Lemma extreme_history ops m m' q j j' v :
  q = Cell1DOrigin \/ q = Cell1DEnd ->
  reachable m -> all_allowed ops m -> run ops m = Ok m' ->
  follow_all ops D1 j = Some j' -> never writes_extremes ops D1 j ->
  q j m = Ok v -> (N.of_nat (num D0 m + created D0 ops m) <= v)%N ->
  exists v', q j' m' = Ok v' /\ (N.of_nat (num D0 m') <= v')%N.
Proof.
  intros Hq. revert m j v. induction ops as [|o ops IH]; intros m j v Hm Ha Hs Hf Hw Hv Hle; cbn in *.
  - injection Hs as <-. injection Hf as <-. exists v. split; [done|]. lia.
  - destruct (step m o) as [m1| | | |] eqn:Es; try done. cbn in Hs. destruct Ha as [Ha Ha']. destruct Hw as [Hw Hw'].
    destruct (follow o D1 j) as [j1|] eqn:Ef; [|done].
    destruct (extreme_step m o m1 q j j1 v (created D0 ops m1) Hq Hm Ha Es Ef Hw Hv Hle) as (v1 & Hv1 & Hle1).
    eapply (IH m1 j1 v1); try done. by eapply reach_step.
Qed.

(** Histories that create no cell. *)
Lemma removals_create_nothing ops m d :
  Forall (fun o => match o with ORemove _ _ => True | _ => False end) ops -> created d ops m = 0.
Proof.
  revert m. induction ops as [|o ops IH]; intros m Ho; cbn; [done|].
  inversion Ho as [|? ? Ho1 Ho2]; subst. destruct o; try done. cbn. destruct (CellRemove d0 i m); try done. by apply IH.
Qed.

Lemma removals_write_nothing ops :
  Forall (fun o => match o with ORemove _ _ => True | _ => False end) ops ->
  (forall m, all_allowed ops m) /\
  (forall r d j, never (fun o => writes_row o r) ops d j) /\ (forall d j, never (fun o => writes_origin o d) ops d j) /\
  (forall d j, never writes_extremes ops d j).
Proof.
  induction 1 as [|o ops Ho _ (IH0 & IH1 & IH2 & IH3)]; [done|]. destruct o; try done.
  split_and!; intros; (split; [first [exact I|by intros []]|]); cbn;
   [destruct (CellRemove d i m); try done; apply IH0|..];
   repeat case_decide; try done; first [apply IH1|apply IH2|apply IH3].
Qed.

Lemma removals_absent ops m m' r j j' k :
  reachable m -> Forall (fun o => match o with ORemove _ _ => True | _ => False end) ops -> run ops m = Ok m' -> r <> S2 ->
  follow_all ops (src r) j = Some j' -> RelHas r j k m = Ok false -> RelHas r j' k m' = Ok false.
Proof.
  intros Hm Ho Hs Hr Hf Hh. destruct (removals_write_nothing ops Ho) as (Ha & Hw & _ & _).
  unfold RelHas in Hh. apply bind_ok in Hh as (v & Hv & Hb). injection Hb as Hb.
  eapply (slot_history ops m m' r j j' k v); try done. rewrite removals_create_nothing by done. lia.
Qed.

Lemma removals_no_origin ops m m' d j j' :
  reachable m -> Forall (fun o => match o with ORemove _ _ => True | _ => False end) ops -> run ops m = Ok m' -> d <> D0 ->
  follow_all ops d j = Some j' -> HasOriginal d j m = Ok false -> HasOriginal d j' m' = Ok false.
Proof.
  intros Hm Ho Hs Hd Hf Hh. destruct (removals_write_nothing ops Ho) as (Ha & _ & Hw & _).
  unfold HasOriginal in Hh. apply bind_ok in Hh as ([] & Hr & Hh). apply bind_ok in Hh as (v & Hv & Hb). injection Hb as Hb.
  eapply (origin_history ops m m' d j j' v); try done.
  - unfold Original. rewrite Hr. done.
  - rewrite removals_create_nothing by done. lia.
Qed.

(** Remaining read-back lemmas. *)
Lemma insert_list_ok m r i vs m' :
  reachable m -> vs <> [] -> RelInsertList r i vs m = Ok m' ->
  (exists old, RelRow r i m = Ok old /\ length vs <= length old /\
     Forall (fun v => (v < N.of_nat (num (tgt r) m))%N) vs /\
     RelRow r i m' = Ok (vs ++ drop (length vs) old)) /\
  same_rows_but r i m m' /\ same_values m m' /\ same_props m m'.
Proof.
  intros Hm Hvs Hs. destruct (reachable_step m (OInsertList r i vs) m' Hm I Hs) as (a & a' & H & H' & Ho).
  cbn [astep] in Ho. rewrite decide_False in Ho by done.
  apply bind_Some in Ho as (x & Hx & Ho). case_decide as E; [|done]. destruct E as [El Eb].
  destruct (row_change m m' a a' r i (fun l => vs ++ drop (length vs) l) H H' Ho) as ((old & H1 & H2) & Hf).
  split; [|done]. exists old. rewrite (g_row _ _ H) in H1. unfold look in H1. rewrite Hx in H1. injection H1 as <-.
  rewrite (g_row _ _ H). unfold look. rewrite Hx, (g_num _ _ H). done.
Qed.

Lemma add_ve_ok m i cols m' :
  reachable m -> Cell2DAddVerticesAndEdges i cols m = Ok m' ->
  RelRow V2 i m' = Ok (cols.*1) /\ RelRow E2 i m' = Ok (cols.*2) /\
  Forall (fun v => (v < N.of_nat (num D0 m))%N) (cols.*1) /\ Forall (fun v => (v < N.of_nat (num D1 m))%N) (cols.*2) /\
  (forall r j, (r, j) <> (V2, i) -> (r, j) <> (E2, i) -> RelRow r j m' = RelRow r j m).
Proof.
  intros Hm Hs. destruct (reachable_step m (OAddVE i cols) m' Hm I Hs) as (a & a' & H & H' & Ho).
  cbn [astep] in Ho. case_decide as E; [|done]. destruct E as [Ev Ee].
  rewrite (g_num _ _ H), (g_num _ _ H).
  assert (Hx : exists x, am_cells a D2 !! i = Some x).
  { unfold on_cell in Ho. apply bind_Some in Ho as (x & Hx & _). eauto. }
  destruct Hx as [x Hx].
  assert (Hread : forall r j, RelRow r j m' = look a' (src r) j (row_of r)) by (intros; apply (g_row _ _ H')).
  rewrite !Hread. split_and!; try done.
  - rewrite (look_on_cell _ _ _ _ _ _ _ _ Ho), decide_True by done. unfold look. cbn [src]. by rewrite Hx.
  - rewrite (look_on_cell _ _ _ _ _ _ _ _ Ho), decide_True by done. unfold look. cbn [src]. by rewrite Hx.
  - intros r j H1 H2. rewrite Hread, (g_row _ _ H), (look_on_cell _ _ _ _ _ _ _ _ Ho). case_decide as E; [|done].
    destruct E as [E1 <-]. apply look_ext. intros y. unfold compose, row_of, with_row. cbn [ac_rel].
    rewrite !upd_fun_ne; [done|congruence..].
Qed.

(** Exact effect of a bulk initialisation: the values already stored are dealt out again. *)
Lemma init_all_exact m r cnt m' olds :
  reachable m -> RelInitAll r cnt m = Ok m' ->
  length olds = num (src r) m -> (forall i l, olds !! i = Some l -> RelRow r i m = Ok l) ->
  forall i l, redeal (default_bulk r) cnt olds !! i = Some l -> RelRow r i m' = Ok l.
Proof.
  intros Hm Hs Hlen Hold i l Hl.
  destruct (reachable_step m (OInitAll r cnt) m' Hm I Hs) as (a & a' & H & H' & Ho).
  cbn [astep] in Ho. case_decide as Hc; [|done]. injection Ho as <-.
  assert (olds = row_of r <$> am_cells a (src r)) as ->.
  { apply list_eq. intros j. rewrite list_lookup_fmap.
    destruct (olds !! j) as [l'|] eqn:E.
    - pose proof (Hold j l' E) as Hr. rewrite (g_row _ _ H) in Hr. unfold look in Hr.
      destruct (am_cells a (src r) !! j) as [x|]; [|done]. injection Hr as <-. done.
    - apply lookup_ge_None_1 in E. rewrite Hlen, (g_num _ _ H) in E. by rewrite lookup_ge_None_2. }
  rewrite (g_row _ _ H'). unfold look. rewrite with_cells_lookup, decide_True by done.
  rewrite lookup_zip_with_row by (rewrite redeal_length; done). rewrite Hl.
  assert (Hi : i < length (am_cells a (src r))). { apply lookup_lt_Some in Hl. rewrite redeal_length in Hl. unfold anum in Hc. lia. }
  destruct (lookup_lt_is_Some_2 _ _ Hi) as [x ->]. cbn [mbind option_bind]. f_equal. unfold row_of, with_row. cbn [ac_rel].
  by rewrite upd_fun_eq.
Qed.

Lemma find_edge_in_cell m r i o t edges :
  reachable m -> RelRow r i m = Ok edges -> Forall (fun e => (e < N.of_nat (num D1 m))%N) edges ->
  exists f, FindEdgeByExtremes r i o t m = Ok f /\ f <= length edges /\
    (forall k e, k < f -> edges !! k = Some e ->
       ~ (Cell1DOrigin (N.to_nat e) m = Ok o /\ Cell1DEnd (N.to_nat e) m = Ok t)) /\
    (forall e, edges !! f = Some e ->
       Cell1DOrigin (N.to_nat e) m = Ok o /\ Cell1DEnd (N.to_nat e) m = Ok t).
Proof.
  intros Hm Hr Hv. unfold FindEdgeByExtremes. rewrite Hr. cbn [mbind outcome_bind].
  exact (find_edge_in_spec m o t edges 0 Hm Hv).
Qed.

Lemma dangling_entries ops m m' r j j' k v :
  reachable m -> all_allowed ops m -> run ops m = Ok m' -> r <> S2 ->
  follow_all ops (src r) j = Some j' -> never (fun o => writes_row o r) ops (src r) j ->
  created (tgt r) ops m = 0 ->
  RelGet r j k m = Ok v -> (N.of_nat (num (tgt r) m) <= v)%N ->
  RelHas r j' k m' = Ok false.
Proof. intros. eapply (slot_history ops m m' r j j' k v); try done. lia. Qed.

Lemma subdivision_below m i m' f l k v :
  reachable m -> CellRemove D0 i m = Ok m' -> RelRow S2 f m = Ok l -> l !! k = Some (N.of_nat v) -> v < i ->
  exists l', RelRow S2 f m' = Ok l' /\ l' !! k = Some (N.of_nat v) /\
    Cell0DCoordinates v m' = Cell0DCoordinates v m.
Proof.
  intros Hm Hs Hl Hk Hv.
  assert (Hd : src S2 <> D0 \/ f <> i) by (by left).
  destruct (remove_row_obs m D0 i m' S2 f Hm Hs Hd l Hl) as (l' & Hl' & _ & Hkv).
  exists l'. split; [exact Hl'|]. split; [apply (Hkv _ _ Hk); by right|].
  assert (Hne : D0 <> D0 \/ v <> i) by (right; lia).
  destruct (remove_attributes m D0 i m' D0 v Hm Hs Hne) as (_ & _ & Hc & _).
  specialize (Hc eq_refl). unfold moved in Hc. rewrite decide_True in Hc by done. unfold new_number in Hc.
  destruct (Nat.ltb_spec v i); [done|lia].
Qed.

Lemma find_extreme_spec m e v o t :
  Cell1DOrigin e m = Ok o -> Cell1DEnd e m = Ok t -> (v < N.of_nat (num D0 m))%N ->
  Cell1DFindExtreme e v m = Ok (if decide (v = o) then 0 else if decide (v = t) then 1 else 2).
Proof.
  unfold Cell1DOrigin, Cell1DEnd, Cell1DFindExtreme. intros Ho Ht Hv.
  destruct (e <? num D1 m); [|done]. cbn [require mbind outcome_bind] in *.
  rewrite require_true by lia. cbn [mbind outcome_bind]. rewrite Ho, Ht. cbn [mbind outcome_bind].
  destruct (N.eqb_spec o v) as [->|H1]; [by rewrite decide_True|]. rewrite decide_False by congruence.
  destruct (N.eqb_spec t v) as [->|H2]; [by rewrite decide_True|]. by rewrite decide_False by congruence.
Qed.

Lemma neighbours_spec m r i l :
  reachable m -> RelRow r i m = Ok l ->
  RelNeighbours r i m = Ok (filter (fun v => (v < N.of_nat (num (tgt r) m))%N) l).
Proof.
  intros Hr Hl. destruct (reachable_rep m Hr) as [a H]. rewrite (g_row _ _ H) in Hl. rewrite (g_neighbours _ _ H).
  unfold look in *. destruct (am_cells a (src r) !! i) as [x|]; [|done]. injection Hl as <-. f_equal.
  apply list_filter_iff. intros v. rewrite (g_num _ _ H). apply N.ltb_lt.
Qed.
