(** * The outline of a group of polygons. *)
From Coq Require Import ZArith ZifyBool ZifyNat ZifyN.
From Verif Require Import Base BaseProof ConcatModel ConcatSpec ConcatProof CsrModel MeshModel MeshSpec MeshRep MeshHist MeshProof8 MeshProof9 JoinModel JoinSpec JoinProof
  OutlineModel OutlineSpec OutlineRing OutlineProof.
Local Open Scope nat_scope.

Lemma as_int_small v : (v < 2147483648)%N -> as_int v = Z.of_N v.
Proof. intros L. unfold as_int. destruct (N.ltb_spec v 2147483648); [done|lia]. Qed.
Lemma of_as_int v : (v < 2147483648)%N -> of_int (as_int v) = v.
Proof. intros L. rewrite as_int_small by done. unfold of_int. destruct (Z.ltb_spec (Z.of_N v) 0); [lia|]. apply N2Z.id. Qed.

Lemma rev_reverse {A} (l : list A) : rev l = reverse l.
Proof. apply rev_alt. Qed.

(** Going round backwards. *)
Lemma unroll_back vs es n : length vs = n -> length es = n -> 1 <= n -> forall j, j < n ->
  (unroll false vs es).1 !! j = vs !! ((n - j) mod n) /\ (unroll false vs es).2 !! j = es !! (n - 1 - j).
Proof.
  intros LV LE N1 j J. unfold unroll. cbn [fst snd]. split.
  - destruct vs as [|v vs]; [done|]. cbn [length] in LV. destruct j as [|j].
    + rewrite Nat.sub_0_r, Nat.mod_same by lia. done.
    + rewrite Nat.mod_small by lia. change (rev vs !! j = (v :: vs) !! (n - S j)). rewrite rev_reverse. rewrite reverse_lookup by lia.
      replace (n - S j) with (S (length vs - S j)) by lia. done.
  - rewrite rev_reverse, reverse_lookup by lia. f_equal. lia.
Qed.
Lemma unroll_perm b vs es : (unroll b vs es).1 ≡ₚ vs /\ (unroll b vs es).2 ≡ₚ es.
Proof.
  destruct b; [done|]. unfold unroll. cbn [fst snd]. split; [|by rewrite rev_reverse, reverse_Permutation].
  destruct vs as [|v vs]; [done|]. by rewrite rev_reverse, reverse_Permutation.
Qed.

Lemma back_mod n k : k < n -> (n - (k + 1) mod n) mod n = n - 1 - k.
Proof.
  intros K. rewrite next_mod by done. destruct (decide (S k = n)) as [DK|DK].
  - rewrite Nat.sub_0_r, Nat.mod_same by lia. lia.
  - rewrite Nat.mod_small by lia. lia.
Qed.
Lemma ahead_mod n k : k < n -> (n - k) mod n = (n - 1 - k + 1) mod n.
Proof. intros K. f_equal. lia. Qed.

Lemma runs_unique fs m ws bs : directed fs m ws bs -> forall k e w u, bs !! k = Some e -> ws !! k = Some w -> runs_from fs m e u -> u = w.
Proof. intros D k e w u KE KW R. by apply (D k e w u KE KW). Qed.

Lemma outline_ok fuel order order2 fs m ws bs : reachable m -> polygons_exist fs m -> 2 <= length fs -> has_outline fs m ws bs ->
  (N.of_nat (num D0 m) <= 2147483648)%N -> (forall l, order l ≡ₚ l) -> (forall l, order2 l ≡ₚ l) -> S (length ws) * S (length ws) <= fuel ->
  exists vs es gone0 gone1, PolygonsOutline fuel order order2 fs m = Ok (Outline vs es gone0 gone1) /\ has_outline fs m vs es.
Proof.
  intros RM PE L [[CL CM CV CE CJ] HE HV HD] SM O O2 FU.
  destruct (parts_ok m RM fs PE) as (s & t & [E1 E2 (D1 & _ & D0' & _) I1 _ I0 _ FL]).
  assert (s.1.*1 ≡ₚ bs) as PB. { apply NoDup_Permutation; [done|done|]. intros e. by rewrite I1, HE. }
  assert (t.1 ≡ₚ ws) as PV. { apply NoDup_Permutation; [done|done|]. intros v. by rewrite I0, HV. }
  set (edges := order2 s.1).
  assert (edges.*1 ≡ₚ bs) as PE1 by (unfold edges; by rewrite O2).
  assert (NoDup (edges.*1)) as NE by by rewrite PE1.
  assert (forall v, v ∈ ws -> (v < 2147483648)%N) as SML.
  { intros v [V _]%HV. apply (corner_of_cell m fs PE) in V. unfold is_cell in V. lia. }
  assert (forall p q, p ∈ ws -> q ∈ ws -> as_int p = as_int q -> p = q) as INJ.
  { intros p q P Q EQ. rewrite !as_int_small in EQ by by apply SML. lia. }
  assert (forall k e, bs !! k = Some e -> exists u v o t', ws !! k = Some u /\ ws !! ((k + 1) mod length ws) = Some v /\
     Cell1DOrigin (N.to_nat e) m = Ok o /\ Cell1DEnd (N.to_nat e) m = Ok t' /\ ((o = u /\ t' = v) \/ (o = v /\ t' = u))) as ENDS.
  { intros k e K. destruct (CJ k e K) as (u & v & U & V & J). destruct J as [[J1 J2]|[J1 J2]]; [exists u, v, u, v|exists u, v, v, u]; tauto. }
  (* the segments *)
  assert (forall x, x ∈ edges -> exists o t', Cell1DOrigin (N.to_nat x.1) m = Ok o /\ Cell1DEnd (N.to_nat x.1) m = Ok t') as XE.
  { intros x X. assert (x.1 ∈ bs) as [k K]%elem_of_list_lookup by (rewrite <- PE1; by apply elem_of_list_fmap_1).
    destruct (ENDS k _ K) as (u & v & o & t' & _ & _ & HO & HT & _). eauto. }
  assert (exists segments, omapM (fun x => o ← Cell1DOrigin (N.to_nat x.1) m; t ← Cell1DEnd (N.to_nat x.1) m; Ok (as_int o, as_int t)) edges = Ok segments) as [segments SG].
  { revert XE. generalize edges. induction edges0 as [|x l IH]; intros XE; [by exists []|]. destruct (XE x) as (o & t' & HO & HT); [left|].
    destruct IH as [l' HL]; [intros y Y; apply XE; by right|]. cbn [omapM]. rewrite HO, HT. cbn [mbind outcome_bind]. rewrite HL. cbn [mbind outcome_bind]. eauto. }
  assert (length segments = length edges) as LSE by (apply omapM_ok, Forall2_length in SG; done).
  assert (forall i x, edges !! i = Some x -> exists o t', segments !! i = Some (as_int o, as_int t') /\ Cell1DOrigin (N.to_nat x.1) m = Ok o /\ Cell1DEnd (N.to_nat x.1) m = Ok t') as SEG.
  { intros i x X. pose proof (proj1 (omapM_ok _ _ _) SG) as F2. destruct (Forall2_lookup_l _ _ _ _ _ F2 X) as (g & G & EG). cbn beta in EG.
    apply bind_ok in EG as (o & HO & EG). apply bind_ok in EG as (t' & HT & EG). injection EG as <-. eauto. }
  assert (length edges = length ws) as LEW. { rewrite <- (fmap_length fst edges), PE1. done. }
  (* positions *)
  destruct (proj1 (Permutation_inj _ _) PE1) as (_ & pos & PI & PL).
  destruct (proj1 (Permutation_inj _ _) (symmetry PE1)) as (_ & sop & _ & PL').
  set (zs := as_int <$> ws).
  assert (length zs = length ws) as LZ by apply fmap_length.
  assert (NoDup zs) as NZ.
  { apply NoDup_fmap_2_strong; [|done]. intros x y X Y EQ. rewrite !as_int_small in EQ by by apply SML. lia. }
  assert (forall i, i < length zs -> pos i < length zs) as PBD.
  { intros i I. rewrite LZ, <- LEW in I. destruct (lookup_lt_is_Some_2 edges i I) as [x X]. specialize (PL i). rewrite list_lookup_fmap, X in PL. cbn in PL.
    symmetry in PL. apply lookup_lt_Some in PL. rewrite LZ. lia. }
  assert (forall i, i < length zs -> exists x o t' u v, edges !! i = Some x /\ bs !! pos i = Some x.1 /\ segments !! i = Some (as_int o, as_int t') /\
    ws !! pos i = Some u /\ ws !! ((pos i + 1) mod length ws) = Some v /\ Cell1DOrigin (N.to_nat x.1) m = Ok o /\ ((o = u /\ t' = v) \/ (o = v /\ t' = u))) as POS.
  { intros i I. rewrite LZ, <- LEW in I. destruct (lookup_lt_is_Some_2 edges i I) as [x X]. destruct (SEG i x X) as (o & t' & G & HO & HT).
    specialize (PL i). rewrite list_lookup_fmap, X in PL. cbn in PL. symmetry in PL. destruct (ENDS _ _ PL) as (u & v & o2 & t2 & U & V & HO2 & HT2 & J).
    rewrite HO in HO2. injection HO2 as <-. rewrite HT in HT2. injection HT2 as <-. exists x, o, t', u, v. done. }
  destruct (order t.1) as [|v0 rest] eqn:OT.
  { exfalso. assert (length (order t.1) = length ws) as X by by rewrite O, PV. rewrite OT in X. cbn in X. lia. }
  assert (v0 ∈ ws) as [q0 Q0]%elem_of_list_lookup. { rewrite <- PV, <- (O t.1), OT. left. }
  destruct (ring_ok segments zs pos) with (start := as_int v0) (q := q0) (fuel := fuel) as (l & MC & LL & P1 & P2 & NX & FW & BW).
  - lia.
  - rewrite LZ. lia.
  - done.
  - done.
  - intros i j _ _ EQ. by apply PI.
  - intros k K. rewrite LZ in K. destruct (lookup_lt_is_Some_2 bs k) as [e KE]; [lia|]. exists (sop k). specialize (PL' k). rewrite KE in PL'. symmetry in PL'.
    pose proof (lookup_lt_Some _ _ _ PL') as SL. rewrite fmap_length in SL. split; [lia|]. rewrite PL in PL'. by apply (NoDup_lookup bs _ _ e CE).
  - intros i I. destruct (POS i I) as (x & o & t' & u & v & _ & _ & G & U & V & _ & J). exists (as_int u), (as_int v). unfold zs. rewrite fmap_length, !list_lookup_fmap, U, V.
    split; [done|]. split; [done|]. unfold between. rewrite G. destruct J as [[-> ->]|[-> ->]]; tauto.
  - unfold zs. by rewrite list_lookup_fmap, Q0.
  - by rewrite LZ.
  - rewrite LZ in *.
    assert (forall k w i, l !! k = Some (w, i) -> i < length ws) as IB.
    { intros k w i K. assert (i ∈ l.*2) as X by (apply elem_of_list_fmap; exists (w, i); split; [done|by eapply elem_of_list_lookup_2]).
      rewrite P2 in X. apply elem_of_seq in X. lia. }
    assert (forall k w i, l !! k = Some (w, i) -> exists v, v ∈ ws /\ w = as_int v) as WB.
    { intros k w i K. assert (w ∈ l.*1) as X by (apply elem_of_list_fmap; exists (w, i); split; [done|by eapply elem_of_list_lookup_2]).
      rewrite P1 in X. unfold zs in X. apply elem_of_list_fmap in X as (v & -> & V). eauto. }
    assert (exists names, omapM (fun c => x ← vat edges c.2; Ok x.1) l = Ok names) as [names HN].
    { assert (forall c, c ∈ l -> c.2 < length edges) as X by (intros [w i] [k K]%elem_of_list_lookup; rewrite LEW; by apply (IB k w)).
      revert X. generalize l. induction l0 as [|c l0 IH]; intros X; [by exists []|]. destruct IH as [l' HL]; [intros y Y; apply X; by right|].
      destruct (lookup_lt_is_Some_2 edges c.2) as [x HX]; [apply X; left|]. cbn [omapM].
      assert (vat edges c.2 = Ok x) as -> by (unfold vat; by rewrite HX). cbn [mbind outcome_bind]. rewrite HL. cbn. eauto. }
    assert (forall k w i, l !! k = Some (w, i) -> exists x, edges !! i = Some x /\ names !! k = Some x.1) as NM.
    { intros k w i K. pose proof (proj1 (omapM_ok _ _ _) HN) as F2. destruct (Forall2_lookup_l _ _ _ _ _ F2 K) as (e & KE & EE). cbn in EE.
      apply bind_ok in EE as (x & HX & EE). injection EE as <-. unfold vat in HX. destruct (edges !! i) as [x'|]; [|done]. injection HX as ->. eauto. }
    assert (length names = length ws) as LN by (rewrite <- LL; symmetry; apply omapM_ok, Forall2_length in HN; done).
    set (vs := of_int <$> l.*1).
    assert (length vs = length ws) as LVS by (unfold vs; by rewrite !fmap_length).
    assert (vs ≡ₚ ws) as PVS.
    { unfold vs. rewrite P1. unfold zs. rewrite <- list_fmap_compose. rewrite <- (list_fmap_id ws) at 2. apply Permutation_refl'. apply list_fmap_ext.
      intros k v K. cbn. apply of_as_int, SML. by eapply elem_of_list_lookup_2. }
    assert (names ≡ₚ bs) as PNS.
    { apply submseteq_Permutation_length_eq; [lia|]. apply NoDup_submseteq.
      - apply NoDup_alt. intros k j e K J. pose proof (lookup_lt_Some _ _ _ K). pose proof (lookup_lt_Some _ _ _ J).
        destruct (lookup_lt_is_Some_2 l k) as [[wk ik] LK]; [lia|]. destruct (lookup_lt_is_Some_2 l j) as [[wj ij] LJ]; [lia|].
        destruct (NM _ _ _ LK) as (x & X & XN). destruct (NM _ _ _ LJ) as (y & Y & YN). rewrite K in XN. rewrite J in YN. injection XN as ->. injection YN as EQ.
        assert (ik = ij) as <-.
        { apply (NoDup_lookup (edges.*1) _ _ x.1 NE); rewrite list_lookup_fmap; [by rewrite X|rewrite Y; cbn; by rewrite EQ]. }
        assert (NoDup (l.*2)) as ND2 by (rewrite P2; apply NoDup_seq).
        apply (NoDup_lookup (l.*2) _ _ ik ND2); rewrite list_lookup_fmap; [by rewrite LK|by rewrite LJ].
      - intros e [k K]%elem_of_list_lookup. pose proof (lookup_lt_Some _ _ _ K). destruct (lookup_lt_is_Some_2 l k) as [[wk ik] LK]; [lia|].
        destruct (NM _ _ _ LK) as (x & X & XN). rewrite K in XN. injection XN as ->. rewrite <- PE1. apply elem_of_list_fmap_1. by eapply elem_of_list_lookup_2. }
    (* every column *)
    assert (forall k, k < length ws -> exists i x u w a b, l !! k = Some (as_int a, i) /\ edges !! i = Some x /\ names !! k = Some x.1 /\ vs !! k = Some a /\
      vs !! ((k + 1) mod length ws) = Some b /\ bs !! pos i = Some x.1 /\ ws !! pos i = Some u /\ ws !! ((pos i + 1) mod length ws) = Some w /\ a <> b /\ a ∈ ws /\
      l !! ((k + 1) mod length ws) <> None /\ l.*1 !! ((k + 1) mod length ws) = Some (as_int b) /\ b ∈ ws /\ ((a = u /\ b = w) \/ (a = w /\ b = u))) as COL.
    { intros k K. destruct (lookup_lt_is_Some_2 l k) as [[z i] LK]; [lia|]. destruct (WB _ _ _ LK) as (a & A & ->). destruct (NX k _ _ LK) as (z' & j & LK' & B).
      destruct (WB _ _ _ LK') as (b & HB & ->). destruct (NM _ _ _ LK) as (x & X & XN). destruct (POS i (IB _ _ _ LK)) as (x' & o & t' & u & w & X' & BX & G & U & W & HO & J).
      rewrite X in X'. injection X' as <-. exists i, x, u, w, a, b.
      assert (vs !! k = Some a) as VK by (unfold vs; rewrite !list_lookup_fmap, LK; cbn; by rewrite of_as_int by by apply SML).
      assert (vs !! ((k + 1) mod length ws) = Some b) as VK' by (unfold vs; rewrite !list_lookup_fmap, LK'; cbn; by rewrite of_as_int by by apply SML).
      assert (u ∈ ws) as UI by by eapply elem_of_list_lookup_2. assert (w ∈ ws) as WI by by eapply elem_of_list_lookup_2.
      split_and!; try done.
      + intros ->. assert (NoDup vs) as NV by by rewrite PVS. pose proof (NoDup_lookup vs _ _ _ NV VK VK') as EQ. symmetry in EQ. by apply (next_ne (length ws) k) in EQ; [|lia|lia].
      + by rewrite LK'.
      + by rewrite list_lookup_fmap, LK'.
      + unfold between in B. rewrite G in B. destruct B as [B|B]; injection B as EB1 EB2.
        * destruct J as [[-> ->]|[-> ->]]; apply INJ in EB1; try done; apply INJ in EB2; try done; subst; tauto.
        * destruct J as [[-> ->]|[-> ->]]; apply INJ in EB1; try done; apply INJ in EB2; try done; subst; tauto. }
    assert (forall k i x a b, l !! k = Some (as_int a, i) -> edges !! i = Some x -> vs !! k = Some a -> vs !! ((k + 1) mod length ws) = Some b -> joins m x.1 a b) as JN.
    { intros k i x a b LK X A B. pose proof (lookup_lt_Some _ _ _ LK) as KL. rewrite LL in KL.
      destruct (COL k KL) as (i' & x' & u & w & a' & b' & LK' & X' & _ & A' & B' & BX & U & W & _ & _ & _ & _ & _ & J).
      rewrite LK in LK'. injection LK' as _ <-. rewrite X in X'. injection X' as <-. rewrite A in A'. injection A' as <-. rewrite B in B'. injection B' as <-.
      destruct (ENDS _ _ BX) as (u2 & w2 & o & t' & U2 & W2 & HO & HT & J2). rewrite U in U2. injection U2 as <-. rewrite W in W2. injection W2 as <-.
      unfold joins. rewrite HO, HT. destruct J as [[-> ->]|[-> ->]], J2 as [[-> ->]|[-> ->]]; tauto. }
    (* the direction *)
    assert (forall k i x b a, l !! k = Some (as_int a, i) -> edges !! i = Some x -> vs !! k = Some a -> vs !! ((k + 1) mod length ws) = Some b ->
      zs !! pos i = Some (as_int a) -> forall u', runs_from fs m x.1 u' <-> u' = a) as DF.
    { intros k i x b a LK X A B Z u'. pose proof (IB _ _ _ LK) as IL. destruct (POS i IL) as (x' & _ & _ & u & _ & X' & BX & _ & U & _).
      rewrite X in X'. injection X' as <-. unfold zs in Z. rewrite list_lookup_fmap, U in Z. cbn in Z. injection Z as Z.
      assert (u = a) as ->. { apply INJ; [by eapply elem_of_list_lookup_2| |done]. rewrite <- PVS. by eapply elem_of_list_lookup_2. }
      apply (HD _ _ _ _ BX U). }
    destruct (COL 0) as (i0 & x0 & u0 & w0 & a0 & b0 & L0 & X0 & N0 & A0 & B0 & BX0 & U0 & W0 & AB0 & A0I & _ & LB0 & B0I & J0); [lia|].
    destruct (POS i0 (IB _ _ _ L0)) as (x0' & o0 & t0 & u0' & w0' & X0' & _ & G0 & U0' & W0' & HO0 & J0'). rewrite X0 in X0'. injection X0' as <-.
    rewrite U0 in U0'. injection U0' as <-. rewrite W0 in W0'. injection W0' as <-.
    destruct (FL x0.1 x0.2) as (uf & of' & RF & HOF & FLE).
    { rewrite <- surjective_pairing, <- O2. by eapply elem_of_list_lookup_2. }
    rewrite HO0 in HOF. injection HOF as <-. pose proof (runs_unique _ _ _ _ HD _ _ _ _ BX0 U0 RF) as ->.
    assert (u0 ∈ ws) as U0I by by eapply elem_of_list_lookup_2. assert (w0 ∈ ws) as W0I by by eapply elem_of_list_lookup_2.
    assert ((if x0.2 : bool then (as_int o0 =? as_int a0)%Z else (as_int t0 =? as_int a0)%Z) = bool_decide (zs !! pos i0 = Some (as_int a0))) as FWD.
    { assert (zs !! pos i0 = Some (as_int u0)) as -> by (unfold zs; by rewrite list_lookup_fmap, U0).
      assert (u0 <> w0) as UW by (destruct J0 as [[-> ->]|[-> ->]]; congruence).
      rewrite !as_int_small by (apply SML; destruct J0' as [[-> ->]|[-> ->]]; done). rewrite FLE.
      destruct J0' as [[-> ->]|[-> ->]].
      - rewrite bool_decide_true by done. apply eq_true_iff_eq. rewrite Z.eqb_eq, bool_decide_eq_true. split; [by intros ->|by intros [= ->]].
      - rewrite bool_decide_false by done. apply eq_true_iff_eq. rewrite Z.eqb_eq, bool_decide_eq_true. split; [by intros ->|by intros [= ->]]. }
    set (forward := bool_decide (zs !! pos i0 = Some (as_int a0))) in *.
    exists (unroll forward vs names).1, (unroll forward vs names).2, (order t.2), (order s.2). split.
    { unfold PolygonsOutline. destruct (Nat.ltb_spec (length fs) 2) as [|_]; [lia|]. unfold edges_of_polygons in E1. rewrite E1. cbn [mbind outcome_bind].
      unfold corners_of_polygons in E2. rewrite E2. cbn [mbind outcome_bind]. fold edges. rewrite SG. cbn [mbind outcome_bind]. rewrite OT, MC. cbn [mbind outcome_bind].
      rewrite (proj2 (Nat.eqb_eq _ _)) by by rewrite PV. destruct l as [|c l]; [done|]. injection L0 as ->.
      assert (vat edges i0 = Ok x0) as -> by (unfold vat; by rewrite X0). cbn [mbind outcome_bind].
      unfold vget. rewrite G0. cbn [mbind outcome_bind fst snd]. rewrite HN. cbn [mbind outcome_bind]. rewrite FWD. done. }
    destruct (unroll_perm forward vs names) as [PU1 PU2].
    assert (length (unroll forward vs names).1 = length ws) as LU1 by by rewrite PU1.
    assert (length (unroll forward vs names).2 = length ws) as LU2 by by rewrite PU2.
    (* in both directions: every edge joins, and the polygons have it so *)
    assert (forall k e, (unroll forward vs names).2 !! k = Some e -> exists u v, (unroll forward vs names).1 !! k = Some u /\
      (unroll forward vs names).1 !! ((k + 1) mod length ws) = Some v /\ joins m e u v /\ forall u', runs_from fs m e u' <-> u' = u) as ALL.
    { intros k e K. pose proof (lookup_lt_Some _ _ _ K) as KL. rewrite LU2 in KL. destruct forward eqn:FE.
      - unfold unroll in *. cbn [fst snd] in *. destruct (COL k KL) as (i & x & u & w & a & b & LK & X & N' & A & B & BX & U & W & AB & AI & _ & LB & BI & J).
        rewrite K in N'. injection N' as ->. exists a, b. split_and!; [done|done|by apply (JN k i)|]. apply (DF k i x b a); [done..|].
        apply (FW) with (k := k); [|done]. intros v i' H0. rewrite L0 in H0. injection H0 as <- <-. unfold forward in FE. by apply bool_decide_eq_true in FE.
      - destruct (unroll_back vs names (length ws) LVS LN) with (j := k) as [RV RE]; [lia|done|]. rewrite RE in K.
        destruct (unroll_back vs names (length ws) LVS LN) with (j := (k + 1) mod length ws) as [RV' _]; [lia|by apply next_lt|].
        set (j := length ws - 1 - k) in *. assert (j < length ws) as JL by lia.
        destruct (COL j JL) as (i & x & u & w & a & b & LK & X & N' & A & B & BX & U & W & AB & AI & LN0 & LB & BI & J).
        rewrite K in N'. injection N' as ->.
        assert ((length ws - k) mod length ws = (j + 1) mod length ws) as IX1 by by apply ahead_mod.
        assert ((length ws - (k + 1) mod length ws) mod length ws = j) as IX2 by by apply back_mod.
        exists b, a. rewrite RV, RV', IX1, IX2. split_and!; [done|done|..].
        + pose proof (JN j i x a b LK X A B) as JJ. unfold joins in *. tauto.
        + assert (zs !! pos i = Some (as_int b)) as ZB.
          { rewrite list_lookup_fmap in LB. destruct (l !! ((j + 1) mod length ws)) as [[zb ib]|] eqn:LKB; [|done]. cbn in LB. injection LB as ->.
            apply (BW) with (k := j) (v := as_int a) (j := ib); [|done|done]. intros v i' H0. rewrite L0 in H0. injection H0 as <- <-. unfold forward in FE. by apply bool_decide_eq_false in FE. }
          unfold zs in ZB. rewrite list_lookup_fmap, U in ZB. cbn in ZB. injection ZB as ZB.
          assert (u = b) as ->. { apply INJ; [by eapply elem_of_list_lookup_2|done|done]. }
          intros u'. apply (HD _ _ _ _ BX U). }
    split.
    + split.
      * by rewrite LU1, LU2.
      * by rewrite LU2, CL.
      * by rewrite PU1, PVS.
      * by rewrite PU2, PNS.
      * intros k e K. rewrite LU1. destruct (ALL k e K) as (u & v & U & V & J & _). eauto.
    + intros e. rewrite PU2, PNS. apply HE.
    + intros v. rewrite PU1, PVS. apply HV.
    + intros k e u u' K U. destruct (ALL k e K) as (u2 & v & U2 & _ & _ & D). rewrite U in U2. injection U2 as <-. apply D.
Qed.

Lemma outline_few fuel order order2 fs m : length fs < 2 -> PolygonsOutline fuel order order2 fs m = Ok (Outline [] [] [] []).
Proof. intros L. unfold PolygonsOutline. destruct (Nat.ltb_spec (length fs) 2); [done|lia]. Qed.
