(** The mesh of one polygon. *)
From Verif Require Import Base BaseProof CsrModel CsrSpec CsrProof MeshModel MeshSpec MeshRep MeshHist
  MeshProof MeshProof2 MeshProof3 MeshProof4 MeshProof5 MeshProof6 MeshProof7 MeshProof8 MeshProof9 MeshProofA MeshProofB
  MeshProg UtilModel UtilProofD FillModel FillSpec FillProofA FillProofB LoneModel LoneSpec.
From Coq Require Import ZifyBool ZifyNat ZifyN.
Local Open Scope nat_scope.

Lemma deal_same {A} (d : A) n k : deal (replicate n k) (replicate (n * k) d) = replicate n (replicate k d).
Proof.
  induction n as [|n IH]; [done|]. cbn [replicate deal Nat.mul]. rewrite replicate_add, take_app_alt by (by rewrite replicate_length).
  rewrite drop_app_alt by (by rewrite replicate_length). by rewrite IH.
Qed.

Lemma redeal_empty {A} (d : A) n k (rows : list (list A)) : Forall (eq []) rows ->
  redeal d (replicate n k) rows = replicate n (replicate k d).
Proof.
  intros H. unfold redeal. assert (E : concat rows = []) by (induction H as [|x l <- H IH]; [done|exact IH]).
  rewrite E, resize_nil. assert (S : sum_list (replicate n k) = n * k) by (clear; induction n; cbn; lia).
  rewrite S. apply deal_same.
Qed.

Lemma does_InitConst r k a : Forall (fun x => row_of r x = []) (am_cells a (src r)) ->
  does (RelInitConst r k) a (with_cells (src r) (with_row r (replicate k (default_bulk r)) <$> am_cells a (src r)) a).
Proof.
  intros H. eapply does_aeq; [apply (does_step a (OInitConst r k)); [done|reflexivity]|].
  rewrite redeal_empty by (apply Forall_fmap; eapply Forall_impl; [exact H|]; intros x Hx; by symmetry).
  apply wc_aeq. unfold anum. apply Forall2_same_length_lookup. rewrite zip_with_length, replicate_length, fmap_length. split; [lia|].
  intros i x y. rewrite lookup_zip_with, list_lookup_fmap. destruct (am_cells a (src r) !! i) as [z|] eqn:Hz; [|by destruct (_ !! i)].
  rewrite lookup_replicate_2 by (by eapply lookup_lt_Some). cbn. intros [= <-] [= <-]. apply ceq_refl.
Qed.

Lemma insert_all r i n m : ofold (fun m v => RelInsert r i v (N.of_nat v) m) (seq 0 n) m = RelInsertList r i (N.of_nat <$> seq 0 n) m.
Proof.
  unfold RelInsertList. assert (E : imap pair (N.of_nat <$> seq 0 n) = (fun v => (v, N.of_nat v)) <$> seq 0 n).
  { apply list_eq. intros j. rewrite list_lookup_imap, !list_lookup_fmap. destruct (seq 0 n !! j) as [v|] eqn:E; [|done].
    apply lookup_seq in E as [-> _]. done. }
  rewrite E. by rewrite ofold_fmap.
Qed.

Section lone.
Context (pts : list (N * N * N)) (vm em : list N) (a : amesh) (Ha : forall d, am_cells a d = []) (H2 : 2 < length pts).
Context (Hfit : (N.of_nat (2 * length pts) <= UINT_MAX)%N).
Notation n := (length pts).
Notation pn d := (length (am_names a d)).
Notation mark0 := (mark_of n 1 vm).
Notation mark1 := (mark_of n (n + 1) em).

Lemma mark_get first given i : i < n -> first + i <= 2 * n ->
  (if length given =? n then vget given i else Ok (uint (first + i))) = Ok (mark_of n first given i).
Proof.
  intros Hi Hf. unfold mark_of. destruct (Nat.eqb_spec (length given) n) as [E|E].
  - rewrite decide_True by done. destruct (lookup_lt_is_Some_2 given i ltac:(lia)) as [x Hx]. rewrite Hx. by apply vget_Ok.
  - rewrite decide_False by done. unfold uint. f_equal. apply N.mod_small. lia.
Qed.

Definition points : list acell := imap (fun v p => with_mark (mark0 v) (point_cell (pn D0) p)) pts.
Definition links (row : list N) : list acell :=
  (fun e => with_row R12 row (with_mark (mark1 e) (edge_cell (pn D1) (N.of_nat e, N.of_nat ((e + 1) mod n))))) <$> seq 0 n.
Notation numbers := (N.of_nat <$> seq 0 n).
Definition face : acell := with_act true (with_row E2 numbers (with_row V2 numbers (new_cell D2 (pn D2)))).

Notation A0 := (AMesh 2 (am_cells a) (am_names a)).
Notation A1 := (with_cells D0 points A0).
Notation A2 := (with_cells D1 (links []) A1).
Notation A3 := (with_cells D2 [face] A2).
Notation A4 row := (with_cells D1 (links row) A3).

Lemma stage_0 :
  does (fun m => m ← Ok (CellsInitialize D0 n m);
         ofold (fun m vp =>
               m ← SetState D0 vp.1 true m;
               m ← Cell0DInsertCoordinates vp.1 vp.2.1.1 vp.2.1.2 vp.2.2 m;
               k ← (if length vm =? n then vget vm vp.1 else Ok (uint (vp.1 + 1)));
               SetMarker D0 vp.1 k m)
            (imap pair pts) m) A0 A1.
Proof.
  eapply does_bind; [apply does_Initialize, Ha|]. cbn [am_names]. set (new := new_cell D0 (pn D0)).
  set (b := with_cells D0 (replicate n new) A0).
  assert (Hb : anum D0 b = n) by (unfold b; rewrite wc_num, decide_True by done; by rewrite replicate_length).
  eapply does_aeq.
  - apply (does_each D0 (fun v p x => with_mark (mark0 v) (with_geo [p.1.1; p.1.2; p.2] (with_act true x))) _ pts b Hb).
    intros k p x F Hk Hx HF. cbn [fst snd]. assert (Hlk : k < anum D0 b) by (rewrite Hb; by eapply lookup_lt_Some).
    assert (M : (if length vm =? n then vget vm k else Ok (uint (k + 1))) = Ok (mark0 k)) by (rewrite (Nat.add_comm k 1); apply mark_get; lia).
    eapply does_ext; [intros m _; rewrite M; reflexivity|].
    eapply does_aeq; [eapply does_bind; [by apply does_State|eapply does_bind; [by apply does_Coordinates|by apply does_Marker]]|].
    apply amap_ext. intros d i z Hz. unfold also. destruct (decide (d = D0 /\ i = k)); apply ceq_refl.
  - eapply aeq_trans; [apply wc_wc|]. apply wc_aeq. unfold b. rewrite wc_same. apply Forall2_same_length_lookup.
    unfold points. rewrite !imap_length, replicate_length. split; [done|]. intros i x y. rewrite !list_lookup_imap.
    destruct (pts !! i) as [c|] eqn:Hc; [|by destruct (_ !! i)]. rewrite lookup_replicate_2 by (by eapply lookup_lt_Some).
    cbn. intros [= <-] [= <-]. apply ceq_refl.
Qed.

Lemma stage_1 :
  does (fun m => m ← Ok (CellsInitialize D1 n m);
         ofold (fun m e =>
               m ← Cell1DInsertExtremes e (N.of_nat e) (N.of_nat ((e + 1) mod n)) m;
               m ← SetState D1 e true m;
               k ← (if length em =? n then vget em e else Ok (uint (n + e + 1)));
               SetMarker D1 e k m)
            (seq 0 n) m) A1 A2.
Proof.
  eapply does_bind; [apply does_Initialize, Ha|]. cbn [am_names with_cells]. set (new := new_cell D1 (pn D1)).
  set (b := with_cells D1 (replicate n new) A1).
  assert (Hb : anum D1 b = n) by (unfold b; rewrite wc_num, decide_True by done; by rewrite replicate_length).
  eapply does_aeq.
  - apply (does_each_seq D1 (fun e x => with_mark (mark1 e) (with_act true (with_geo [N.of_nat e; N.of_nat ((e + 1) mod n)] x))) _ n b Hb).
    intros k x F Hk Hx HF. assert (Hlk : k < anum D1 b) by lia.
    assert (M : (if length em =? n then vget em k else Ok (uint (n + k + 1))) = Ok (mark1 k)).
    { replace (n + k + 1) with (n + 1 + k) by lia. apply mark_get; lia. }
    eapply does_ext; [intros m _; rewrite M; reflexivity|].
    eapply does_aeq; [eapply does_bind; [by apply does_Extremes|eapply does_bind; [by apply does_State|by apply does_Marker]]|].
    apply amap_ext. intros d i z Hz. unfold also. destruct (decide (d = D1 /\ i = k)); apply ceq_refl.
  - eapply aeq_trans; [apply wc_wc|]. apply wc_aeq. unfold b. rewrite wc_same. apply Forall2_same_length_lookup.
    unfold links. rewrite imap_length, fmap_length, replicate_length, seq_length. split; [done|]. intros i x y. rewrite list_lookup_imap, list_lookup_fmap.
    destruct (seq 0 n !! i) as [c|] eqn:Hc; [|by destruct (_ !! i)]. apply lookup_seq in Hc as [-> Hi]. rewrite lookup_replicate_2 by done.
    cbn. intros [= <-] [= <-]. unfold ceq. split_and!; [done..| |done]. intros r. cbn. unfold upd_fun. by case_decide; subst.
Qed.

Lemma numbers_below : all_below n numbers.
Proof. apply Forall_fmap, Forall_forall. intros v [_ Hv]%elem_of_seq. cbn. lia. Qed.

Lemma A2_num : anum D0 A2 = n /\ anum D1 A2 = n.
Proof. rewrite !wc_num. cbn. unfold points, links. by rewrite imap_length, fmap_length, seq_length. Qed.

Lemma stage_2 :
  does (fun m => m ← Ok (CellsInitialize D2 1 m);
         m ← RelInitOne V2 0 n m;
         m ← RelInitOne E2 0 n m;
         m ← ofold (fun m v => RelInsert V2 0 v (N.of_nat v) m) (seq 0 n) m;
         m ← ofold (fun m e => RelInsert E2 0 e (N.of_nat e) m) (seq 0 n) m;
         m ← SetState D2 0 true m;
         SetMarker D2 0 0 m) A2 A3.
Proof.
  eapply does_bind; [apply does_Initialize, Ha|]. cbn [am_names with_cells]. set (new := new_cell D2 (pn D2)).
  set (b := with_cells D2 (replicate 1 new) A2).
  assert (Hb : anum D2 b = 1) by (unfold b; rewrite wc_num, decide_True by done; done).
  assert (Hc : am_cells b D2 !! 0 = Some new) by (unfold b; rewrite wc_same; done).
  assert (Hn0 : anum D0 b = n) by (unfold b; rewrite wc_num, decide_False by done; apply A2_num).
  assert (Hn1 : anum D1 b = n) by (unfold b; rewrite wc_num, decide_False by done; apply A2_num).
  assert (L : length numbers = n) by (by rewrite fmap_length, seq_length).
  apply (does_aeq_l _ b (amap keep b)); [apply amap_keep|].
  eapply does_ext; [intros m _; reflexivity|].
  eapply does_aeq.
  - eapply does_bind; [apply (does_InitOne keep b V2 0 n); [cbn [src]; rewrite Hb; lia|done]|].
    eapply does_bind; [apply does_InitOne; [cbn [src]; rewrite Hb; lia|done]|].
    eapply does_bind; [eapply does_ext; [intros m _; apply insert_all|]; apply (does_Fill _ b V2 0 numbers new Hc)|].
    { unfold also. rewrite !decide_True by done. transitivity (length (resize n (default_single V2) (ac_rel new V2))); [reflexivity|by rewrite resize_length, L]. }
    { cbn [tgt]. rewrite Hn0. apply numbers_below. }
    eapply does_bind; [eapply does_ext; [intros m _; apply insert_all|]; apply (does_Fill _ b E2 0 numbers new Hc)|].
    { unfold also. rewrite !decide_True by done. transitivity (length (resize n (default_single E2) (ac_rel new E2))); [reflexivity|by rewrite resize_length, L]. }
    { cbn [tgt]. rewrite Hn1. apply numbers_below. }
    eapply does_bind; [apply does_State; lia|apply does_Marker; lia].
  - apply aeq_intro; [done..| |].
    + intros d. rewrite amap_num. unfold b. rewrite !wc_num. by case_decide.
    + intros d i x y. rewrite amap_lookup. unfold b. rewrite (wc_cells D2 (replicate 1 new)), (wc_cells D2 [face]). case_decide as E.
      * subst d. destruct i as [|i]; [|done]. cbn [lookup list_lookup replicate fmap option_fmap option_map]. intros [= <-] [= <-].
        unfold also, keep. rewrite !decide_True by done. unfold face, ceq. split_and!; try done.
        intros r. cbn. unfold upd_fun. repeat case_decide; done.
      * intros Hx Hy. rewrite Hy in Hx. cbn [fmap option_fmap option_map] in Hx. injection Hx as <-. unfold also, keep.
        repeat (rewrite decide_False by (intros [-> _]; done)). apply ceq_refl.
Qed.

Lemma stage_3 : does (fun m => m ← RelInitConst R12 2 m; ofold (fun m e => RelInsert R12 e 1 0 m) (seq 0 n) m) A3 (A4 [UINT_MAX; 0%N]).
Proof.
  eapply does_bind; [apply (does_InitConst R12 2 A3)|].
  { cbn [src]. rewrite !wc_cells. cbn. unfold links. apply Forall_fmap, Forall_forall. intros e _. done. }
  cbn [src]. set (b := with_cells D1 _ A3).
  assert (Hb : anum D1 b = n).
  { unfold b. rewrite wc_num, decide_True by done. rewrite fmap_length, wc_other, wc_same by done. unfold links. by rewrite fmap_length, seq_length. }
  eapply does_aeq.
  - apply (does_each_seq D1 (fun e x => with_row R12 (<[1 := 0%N]> (ac_rel x R12)) x) _ n b Hb).
    intros k x F Hk Hx HF. eapply does_aeq; [apply (does_Insert F b R12 k 1 0%N x Hx)|].
    + cbn [src]. rewrite HF. unfold b in Hx. cbn [src] in Hx. rewrite wc_same, list_lookup_fmap in Hx.
      apply fmap_Some in Hx as (y & _ & ->). cbn. unfold upd_fun. rewrite decide_True by done. cbn. lia.
    + cbn [tgt]. unfold b. rewrite wc_num, decide_False by done. rewrite wc_num, decide_True by done. cbn. lia.
    + apply amap_ext. intros d i z Hz. cbn [src]. apply ceq_refl.
  - eapply aeq_trans; [apply wc_wc|]. apply wc_aeq. unfold b. rewrite wc_same, wc_other, wc_same by done. apply Forall2_same_length_lookup.
    unfold links. rewrite imap_length, !fmap_length, seq_length. split; [done|]. intros i x y. rewrite list_lookup_imap, !list_lookup_fmap.
    destruct (seq 0 n !! i) as [c|] eqn:Hc; [|done].
    cbn. intros [= <-] [= <-]. unfold ceq. split_and!; [done..| |done]. intros r. cbn. unfold upd_fun. repeat case_decide; subst; done.
Qed.

Lemma lone_does : does (Mesh2DFromPolygon pts vm em) a (A4 [UINT_MAX; 0%N]).
Proof.
  eapply does_ext with (Q := fun m => m ← Ok (InitializeDimension 2 m);
    m ← (m ← Ok (CellsInitialize D0 n m);
         ofold (fun m vp =>
               m ← SetState D0 vp.1 true m;
               m ← Cell0DInsertCoordinates vp.1 vp.2.1.1 vp.2.1.2 vp.2.2 m;
               k ← (if length vm =? n then vget vm vp.1 else Ok (uint (vp.1 + 1)));
               SetMarker D0 vp.1 k m)
            (imap pair pts) m);
    m ← (m ← Ok (CellsInitialize D1 n m);
         ofold (fun m e =>
               m ← Cell1DInsertExtremes e (N.of_nat e) (N.of_nat ((e + 1) mod n)) m;
               m ← SetState D1 e true m;
               k ← (if length em =? n then vget em e else Ok (uint (n + e + 1)));
               SetMarker D1 e k m)
            (seq 0 n) m);
    m ← (m ← Ok (CellsInitialize D2 1 m);
         m ← RelInitOne V2 0 n m;
         m ← RelInitOne E2 0 n m;
         m ← ofold (fun m v => RelInsert V2 0 v (N.of_nat v) m) (seq 0 n) m;
         m ← ofold (fun m e => RelInsert E2 0 e (N.of_nat e) m) (seq 0 n) m;
         m ← SetState D2 0 true m;
         SetMarker D2 0 0 m);
    m ← RelInitConst R12 2 m; ofold (fun m e => RelInsert R12 e 1 0 m) (seq 0 n) m).
  { intros m _. unfold Mesh2DFromPolygon. rewrite (proj2 (Nat.ltb_lt 2 n) H2). cbn [require mbind outcome_bind].
    destruct (ofold _ (imap pair pts) _) as [m1| | | |]; try done. cbn [mbind outcome_bind].
    destruct (ofold _ (seq 0 n) (CellsInitialize D1 n m1)) as [m2| | | |]; try done. cbn [mbind outcome_bind].
    destruct (RelInitOne V2 0 n _) as [m3| | | |]; try done. cbn [mbind outcome_bind].
    destruct (RelInitOne E2 0 n _) as [m4| | | |]; try done. cbn [mbind outcome_bind].
    destruct (ofold (fun m v => RelInsert V2 0 v (N.of_nat v) m) (seq 0 n) _) as [m5| | | |]; try done. cbn [mbind outcome_bind].
    destruct (ofold (fun m v => RelInsert E2 0 v (N.of_nat v) m) (seq 0 n) _) as [m6| | | |]; try done. cbn [mbind outcome_bind].
    destruct (SetState D2 0 true m6) as [m7| | | |]; done. }
  eapply does_bind; [apply does_Dimension|]. eapply does_bind; [apply stage_0|]. eapply does_bind; [apply stage_1|].
  eapply does_bind; [apply stage_2|]. apply stage_3.
Qed.

Lemma lone_reads m : represents m (A4 [UINT_MAX; 0%N]) -> lone pts mark0 mark1 m.
Proof.
  intros R. set (b := A4 [UINT_MAX; 0%N]) in *.
  assert (C0 : forall i p, pts !! i = Some p -> am_cells b D0 !! i = Some (with_mark (mark0 i) (point_cell (pn D0) p))).
  { intros i p Hp. unfold b. rewrite !wc_other by done. rewrite wc_same. unfold points. by rewrite list_lookup_imap, Hp. }
  assert (C1 : forall i, i < n -> am_cells b D1 !! i =
    Some (with_row R12 [UINT_MAX; 0%N] (with_mark (mark1 i) (edge_cell (pn D1) (N.of_nat i, N.of_nat ((i + 1) mod n)))))).
  { intros i Hi. unfold b. rewrite wc_same. unfold links. rewrite list_lookup_fmap, lookup_seq_lt by done. done. }
  assert (C2 : am_cells b D2 = [face]) by done. assert (C3 : am_cells b D3 = []) by (unfold b; cbn; apply Ha).
  assert (L0 : anum D0 b = n) by (unfold b, anum; rewrite !wc_other by done; rewrite wc_same; unfold points; by rewrite imap_length).
  assert (L1 : anum D1 b = n) by (unfold b, anum; rewrite wc_same; unfold links; by rewrite fmap_length, seq_length).
  assert (L2 : anum D2 b = 1) by done.
  assert (P : forall d k (f : nat -> N), anum d b = k -> few k -> (forall i, i < k -> exists x, am_cells b d !! i = Some x /\
    ac_act x = true /\ ac_mark x = f i /\ ac_upd x = None /\ ac_orig x = UINT_MAX) -> plain_cells d k (fun _ => true) f m).
  { intros d k f Hk Hf H. split; [by rewrite (g_num _ _ R)|]. intros i Hi. destruct (H i Hi) as (x & Hx & H3 & H4 & H5 & H6).
    rewrite (g_active _ _ R), (g_marker _ _ R), (g_hasupdateds _ _ R). unfold look. rewrite Hx, H3, H4, H5. split_and!; try done.
    intros Hd. rewrite (g_hasoriginal _ _ R) by done. unfold look. rewrite Hx, H6, Hk. f_equal. by apply N.ltb_ge. }
  assert (F : few n) by (unfold few; lia).
  split.
  - by rewrite (r_dim _ _ R).
  - apply P; [done..|]. intros i Hi. destruct (lookup_lt_is_Some_2 pts i Hi) as [p Hp]. eexists. split; [by apply C0|done].
  - apply P; [done..|]. intros i Hi. eexists. split; [by apply C1|done].
  - apply P; [done|unfold few, UINT_MAX; lia|]. intros i Hi. assert (i = 0) as -> by lia. exists face. by rewrite C2.
  - rewrite (g_num _ _ R). unfold anum. by rewrite C3.
  - intros i p Hp. rewrite (g_coord _ _ R). unfold look. rewrite (C0 i p Hp). by destruct p as [[? ?] ?].
  - intros i Hi. rewrite (g_origin _ _ R), (g_end _ _ R). unfold look. rewrite (C1 i Hi). cbn. split; [done|]. do 2 f_equal.
    case_decide as E; [rewrite E, Nat.mod_same by lia; done|]. by rewrite Nat.mod_small by lia.
  - rewrite (g_row _ _ R). unfold look. cbn [src]. by rewrite C2.
  - rewrite (g_row _ _ R). unfold look. cbn [src]. by rewrite C2.
  - rewrite (g_row _ _ R). unfold look. cbn [src]. by rewrite C2.
  - intros i Hi. rewrite (g_row _ _ R). unfold look. cbn [src]. by rewrite (C1 i Hi).
  - intros r i Hr Hi. rewrite (g_num _ _ R) in Hi. rewrite (g_row _ _ R). unfold look.
    rewrite !elem_of_cons, elem_of_nil in Hr. destruct Hr as [-> | [-> | [-> | [-> | [-> | []]]]]]; cbn [src] in *.
    1-3: rewrite L0 in Hi; destruct (lookup_lt_is_Some_2 pts i Hi) as [p Hp]; by rewrite (C0 i p Hp).
    + rewrite L1 in Hi. by rewrite (C1 i Hi).
    + rewrite L2 in Hi. assert (i = 0) as -> by lia. by rewrite C2.
Qed.
End lone.

Lemma lone_ok pts vm em m : blank m -> 2 < length pts -> (N.of_nat (2 * length pts) <= UINT_MAX)%N ->
  exists m', Mesh2DFromPolygon pts vm em m = Ok m' /\ reachable m' /\
    lone pts (mark_of (length pts) 1 vm) (mark_of (length pts) (length pts + 1) em) m'.
Proof.
  intros B H2 Hf. destruct (blank_rr m B) as (a & Hm & Ha). destruct (lone_does pts vm em a Ha H2 Hf m Hm) as (m' & E & R).
  exists m'. split; [done|]. split; [apply R|]. destruct R as [_ R]. by apply (lone_reads pts vm em a Ha H2 Hf).
Qed.

Lemma lone_short pts vm em m : length pts <= 2 -> Mesh2DFromPolygon pts vm em m = Abort.
Proof. intros H. unfold Mesh2DFromPolygon. by rewrite (proj2 (Nat.ltb_ge 2 (length pts)) H). Qed.
