(** Getters never fail on valid arguments (C02); double-property writes (C11). *)
From Verif Require Import Base BaseProof CsrModel CsrSpec CsrProof MeshModel MeshSpec MeshRep MeshHist
  MeshProof MeshProof2 MeshProof3 MeshProof4 MeshProof5 MeshProof6 MeshProof7 MeshProof8 MeshProof9 MeshProofA MeshProofB
  MeshProofC MeshProofD MeshProofE.
From Coq Require Import ZifyBool ZifyNat ZifyN.

Lemma look_ok {B} m a d i (f : acell -> B) : represents m a -> i < num d m -> exists v, look a d i f = Ok v.
Proof.
  intros H Hi. rewrite (g_num _ _ H) in Hi. destruct (lookup_lt_is_Some_2 _ _ Hi) as [x Hx].
  unfold look. rewrite Hx. eauto.
Qed.

Lemma getters_ok m :
  reachable m ->
  (forall d i, i < num d m -> exists v, Marker d i m = Ok v) /\
  (forall d i, i < num d m -> exists b, IsActive d i m = Ok b) /\
  (forall i, i < num D0 m -> exists c, Cell0DCoordinates i m = Ok c) /\
  (forall e, e < num D1 m -> exists o, Cell1DOrigin e m = Ok o) /\
  (forall e, e < num D1 m -> exists t, Cell1DEnd e m = Ok t) /\
  (forall r i, i < num (src r) m -> exists n, RelNumber r i m = Ok (N.of_nat n) /\
     (exists l, RelRow r i m = Ok l /\ length l = n) /\
     forall k, k < n -> (exists v, RelGet r i k m = Ok v) /\ exists b, RelHas r i k m = Ok b) /\
  (forall d i, i < num d m -> exists b, HasUpdateds d i m = Ok b) /\
  (forall d i, d <> D0 -> i < num d m -> (exists o, Original d i m = Ok o) /\ exists b, HasOriginal d i m = Ok b) /\
  (forall d i id p, i < num d m -> PropIndex d id m = Ok p ->
     exists n, PropSize d i p m = Ok (N.of_nat n) /\ forall k, k < n -> exists v, PropValue d i p k m = Ok v).
Proof.
  intros Hm. destruct (reachable_rep m Hm) as [a H]. split_and!.
  - intros d i Hi. rewrite (g_marker _ _ H). by eapply look_ok.
  - intros d i Hi. rewrite (g_active _ _ H). by eapply look_ok.
  - intros i Hi. rewrite (g_coord _ _ H). by eapply look_ok.
  - intros i Hi. rewrite (g_origin _ _ H). by eapply look_ok.
  - intros i Hi. rewrite (g_end _ _ H). by eapply look_ok.
  - intros r i Hi. rewrite (g_num _ _ H) in Hi. destruct (lookup_lt_is_Some_2 _ _ Hi) as [x Hx].
    exists (length (row_of r x)). rewrite (g_count _ _ H), (g_row _ _ H). unfold look. rewrite Hx.
    split; [done|]. split; [eauto|]. intros k Hk. unfold row_of in Hk.
    destruct (lookup_lt_is_Some_2 _ _ Hk) as [v Hv].
    rewrite (g_has _ _ H), (g_get _ _ H), Hx, Hv. eauto.
  - intros d i Hi. rewrite (g_hasupdateds _ _ H). by eapply look_ok.
  - intros d i Hd Hi. rewrite (g_original _ _ H), (g_hasoriginal _ _ H) by done. split; by eapply look_ok.
  - intros d i id p Hi Hp. rewrite (g_num _ _ H) in Hi. destruct (lookup_lt_is_Some_2 _ _ Hi) as [x Hx].
    assert (Hlt : p < length (am_names a d)).
    { unfold PropIndex in Hp. destruct (pindex (cprops (mcells m d)) !! id) as [q|] eqn:E; [|done]. injection Hp as ->.
      pose proof (r_cells _ _ H d) as Hc. apply (rp_index _ _ _ (rc_props _ _ _ _ _ _ _ _ _ Hc)) in E. by eapply lookup_lt_Some. }
    exists (length (prop_of p x)). rewrite (g_propsize _ _ H), Hx, decide_True by done. split; [done|].
    intros k Hk. destruct (lookup_lt_is_Some_2 _ _ Hk) as [v Hv]. rewrite (g_propvalue _ _ H), Hx, decide_True, Hv by done. eauto.
Qed.

(** One value of a double property. *)
Lemma prop_insert_ok m d i p k v m' n :
  reachable m -> PropInsert d i p k v m = Ok m' -> PropSize d i p m = Ok n -> (N.of_nat k < n)%N ->
  PropSize d i p m' = Ok n /\ PropValue d i p k m' = Ok v /\
  (forall k', k' <> k -> PropValue d i p k' m' = PropValue d i p k' m) /\
  (forall d' j q k', (d', j, q) <> (d, i, p) ->
     PropSize d' j q m' = PropSize d' j q m /\ PropValue d' j q k' m' = PropValue d' j q k' m) /\
  same_values m m' /\ (forall r j, RelRow r j m' = RelRow r j m).
Proof.
  intros Hm Hs Hn Hk.
  assert (Ha : allowed m (OPropInsert d i p k v)). { cbn. intros n' Hn'. congruence. }
  destruct (reachable_step m (OPropInsert d i p k v) m' Hm Ha Hs) as (a & a' & H & H' & Ho).
  cbn [astep] in Ho. case_decide as Hp; [|done].
  destruct (prop_change m m' a a' d i p (fun l => <[k:=v]> l) H H' Hp Ho) as ((x & Hx & Hs1 & Hs2 & Hv1 & Hv2) & Hoth & Hsame & Hrow).
  rewrite Hs1 in Hn. injection Hn as <-. rewrite insert_length in Hs2. split_and!; try done.
  - apply Hv2. apply list_lookup_insert. lia.
  - intros k' Hne. destruct (prop_of p x !! k') as [w|] eqn:E.
    + rewrite (Hv1 _ _ E). apply Hv2. by rewrite list_lookup_insert_ne.
    + assert (Hge : length (prop_of p x) <= k') by (by apply lookup_ge_None_1).
      unfold PropValue. unfold PropSize in *. destruct (i <? cnum (mcells m d)); [|done].
      destruct (p <? length (pids (cprops (mcells m d)))); [|done].
      destruct (i <? cnum (mcells m' d)); [|done]. destruct (p <? length (pids (cprops (mcells m' d)))); [|done].
      cbn [require mbind outcome_bind] in *. rewrite Hs1, Hs2. cbn [mbind outcome_bind].
      rewrite !require_false by lia. done.
Qed.

Lemma prop_init_one_ok m d i p n m' :
  reachable m -> PropInitOne d i p n m = Ok m' ->
  PropSize d i p m' = Ok (N.of_nat n) /\
  (exists old, PropSize d i p m = Ok old /\
     forall k, k < n -> PropValue d i p k m' = if (N.of_nat k <? old)%N then PropValue d i p k m else Ok 0%N) /\
  (forall d' j q k', (d', j, q) <> (d, i, p) ->
     PropSize d' j q m' = PropSize d' j q m /\ PropValue d' j q k' m' = PropValue d' j q k' m) /\
  same_values m m' /\ (forall r j, RelRow r j m' = RelRow r j m).
Proof.
  intros Hm Hs.
  destruct (reachable_step m (OPropInitOne d i p n) m' Hm I Hs) as (a & a' & H & H' & Ho).
  cbn [astep] in Ho. case_decide as Hp; [|done].
  destruct (prop_change m m' a a' d i p (fun l => resize n 0%N l) H H' Hp Ho) as ((x & Hx & Hs1 & Hs2 & Hv1 & Hv2) & Hoth & Hsame & Hrow).
  rewrite resize_length in Hs2. split_and!; try done.
  eexists. split; [exact Hs1|]. intros k Hk. destruct (N.ltb_spec (N.of_nat k) (N.of_nat (length (prop_of p x)))) as [Hl|Hl].
  - destruct (lookup_lt_is_Some_2 (prop_of p x) k) as [w Hw]; [lia|]. rewrite (Hv1 _ _ Hw). apply Hv2.
    by rewrite lookup_resize by lia.
  - apply Hv2. apply lookup_resize_new; lia.
Qed.
