(** * Joining polygons in a mesh: the whole change. *)
From Coq Require Import ZifyBool ZifyNat ZifyN.
From Verif Require Import Base BaseProof CsrModel MeshModel MeshSpec MeshRep MeshHist MeshProof MeshProof8 MeshProof9 MeshProg UtilProofD FillProofA
  JoinModel JoinSpec JoinProof JoinMesh JoinAll WeldModel WeldSpec WeldProof.
Local Open Scope nat_scope.

Section reads.
Context (a : amesh) (m m' : mesh) (R : rr m a) (fs vs es gone0 gone1 : list N) (k : N) (ss : list N).
Notation c := (anum D2 a).
Notation b := (aappend D2 1 a).
Notation coreF := (newF2 a fs vs es k ss).
Notation rowsF := (sidesF a fs (cornersF a m fs coreF vs) es).
Definition weldF : dim -> nat -> acell -> acell := lostF D1 (lostF D0 rowsF gone0) gone1.
Context (R' : rr m' (amap weldF b)).

Lemma rows_same {B} (g : acell -> B) d i x : (forall l z, g (with_row R02 l z) = g z) -> (forall l z, g (with_row R12 l z) = g z) -> g (rowsF d i x) = g (coreF d i x).
Proof.
  intros H1 H2. unfold sidesF. assert (g (cornersF a m fs coreF vs d i x) = g (coreF d i x)) as E.
  { unfold cornersF. case_decide; [|done]. unfold row_update2. apply H1. }
  case_decide; [|exact E]. unfold swapped. by rewrite H2.
Qed.
Lemma core_old d i x : i < anum d a -> coreF d i x = off2 fs d i x.
Proof. intros L. unfold newF2. by rewrite decide_False by (intros [-> ->]; lia). Qed.
Lemma lost_same {B} (g : acell -> B) d i x : (forall v z, g (with_act v z) = g z) -> g (weldF d i x) = g (rowsF d i x).
Proof. intros H. unfold weldF, lostF. repeat case_decide; by rewrite ?H. Qed.

Lemma old_cell2 {B} (g : acell -> B) d i : i < anum d a ->
  (forall v x, g (with_act v x) = g x) -> (forall l z, g (with_row R02 l z) = g z) -> (forall l z, g (with_row R12 l z) = g z) ->
  look (amap weldF b) d i g = look a d i g.
Proof.
  intros L HA H1 H2. unfold look. rewrite amap_lookup, aappend_old by done. destruct (am_cells a d !! i) as [x|]; [|done]. cbn [fmap option_fmap option_map].
  f_equal. rewrite lost_same by done. rewrite rows_same by done. rewrite core_old by done. unfold off2. case_decide; [apply HA|done].
Qed.
Lemma new_cell_is2 : am_cells (amap weldF b) D2 !! c = Some (fresh2 vs es k ss (new_cell D2 (length (am_names a D2)))).
Proof.
  rewrite amap_lookup, aappend_new by lia. cbn [fmap option_fmap option_map]. f_equal. unfold weldF, lostF, sidesF, cornersF, newF2.
  rewrite !(decide_False (P := D2 = D1 /\ _)) by (intros [? _]; done). rewrite !(decide_False (P := D2 = D0 /\ _)) by (intros [? _]; done).
  by rewrite decide_True.
Qed.

Lemma weld_read : (exists f, f ∈ fs /\ Marker D2 (N.to_nat f) m = Ok k) -> (forall f k', f ∈ fs -> Marker D2 (N.to_nat f) m = Ok k' -> (k' <= k)%N) ->
  Forall (is_cell D0 m) vs -> Forall (is_cell D1 m) es ->
  NoDup ss -> (forall p, p ∈ ss <-> exists k, around R23 fs m k p) -> polygons_joined fs vs es gone0 gone1 m m'.
Proof.
  intros MS MM VC EC SN SK. pose proof (proj2 R) as RA. pose proof (proj2 R') as RA'.
  assert (forall d, num d m = anum d a) as NM by (intros d; apply (g_num _ _ RA)).
  assert (forall B d i (g : acell -> B), look (amap weldF b) d i g = match am_cells (amap weldF b) d !! i with Some x => Ok (g x) | None => Abort end) as LK by done.
  assert (forall d i, i < anum d a -> look (amap weldF b) d i ac_act =
    if decide ((d = D2 /\ N.of_nat i ∈ fs) \/ (d = D0 /\ N.of_nat i ∈ gone0) \/ (d = D1 /\ N.of_nat i ∈ gone1)) then Ok false else look a d i ac_act) as ACT.
  { intros d i L. unfold look. rewrite amap_lookup, aappend_old by done. unfold anum in L. destruct (lookup_lt_is_Some_2 _ _ L) as [x X]. fold (anum d a) in L. rewrite X.
    cbn [fmap option_fmap option_map].
    assert (ac_act (rowsF d i x) = ac_act (off2 fs d i x)) as E by (rewrite rows_same by done; by rewrite core_old).
    unfold weldF, lostF. destruct (decide (d = D1 /\ N.of_nat i ∈ gone1)).
    - by rewrite (decide_True (P := _ \/ _)) by tauto.
    - destruct (decide (d = D0 /\ N.of_nat i ∈ gone0)).
      + by rewrite (decide_True (P := _ \/ _)) by tauto.
      + rewrite E. unfold off2. destruct (decide (d = D2 /\ N.of_nat i ∈ fs)); [by rewrite (decide_True (P := _ \/ _)) by tauto|by rewrite (decide_False (P := _ \/ _)) by tauto]. }
  assert (forall r i x, am_cells a (src r) !! i = Some x -> RelRow r i m' = Ok (ac_rel (rowsF (src r) i x) r)) as RR.
  { intros r i x X. rewrite (g_row _ _ RA'), LK, amap_lookup. pose proof (lookup_lt_Some _ _ _ X) as L. rewrite aappend_old, X by done.
    cbn [fmap option_fmap option_map]. f_equal. unfold row_of. apply (lost_same (fun z => ac_rel z r)). done. }
  assert (forall r i x, am_cells a (src r) !! i = Some x -> RelRow r i m = Ok (ac_rel x r)) as RO.
  { intros r i x X. rewrite (g_row _ _ RA). unfold look. by rewrite X. }
  assert (forall r i x, am_cells a (src r) !! i = Some x -> ac_rel (coreF (src r) i x) r = ac_rel x r) as CO.
  { intros r i x X. rewrite core_old by (by eapply lookup_lt_Some). unfold off2. by case_decide. }
  split.
  - by rewrite (r_dim _ _ RA), (r_dim _ _ RA').
  - intros d. rewrite NM, (g_num _ _ RA'), amap_num, num_b2. done.
  - intros d i L H. rewrite NM in L. rewrite (g_active _ _ RA'), ACT by done. by rewrite decide_True.
  - intros d i L H. rewrite NM in L. rewrite (g_active _ _ RA'), (g_active _ _ RA), ACT by done. by rewrite decide_False.
  - intros d i L. rewrite NM in L. rewrite (g_marker _ _ RA), (g_marker _ _ RA'). by apply old_cell2.
  - intros i L. rewrite NM in L. rewrite (g_coord _ _ RA), (g_coord _ _ RA'). by apply old_cell2.
  - intros e L. rewrite NM in L. rewrite (g_origin _ _ RA), (g_origin _ _ RA'), (g_end _ _ RA), (g_end _ _ RA'). split; by apply old_cell2.
  - intros d i ND L. rewrite NM in L. rewrite (g_original _ _ RA), (g_original _ _ RA') by done. by apply old_cell2.
  - intros d i L. rewrite NM in L. rewrite (g_hasupdateds _ _ RA), (g_hasupdateds _ _ RA'). by apply old_cell2.
  - intros r i L N1 N2. rewrite NM in L. unfold anum in L. destruct (lookup_lt_is_Some_2 _ _ L) as [x X]. rewrite (RR r i x X), (RO r i x X). f_equal.
    assert (ac_rel (cornersF a m fs coreF vs (src r) i x) r = ac_rel x r) as E.
    { unfold cornersF. case_decide as D; [|by apply CO]. unfold row_update2. cbn. unfold upd_fun. rewrite decide_False; [by apply CO|]. intros EQ. apply N1. split; [done|tauto]. }
    unfold sidesF. case_decide as D; [|exact E]. unfold swapped. cbn. unfold upd_fun. rewrite decide_False; [exact E|]. intros EQ. apply N2. split; [done|tauto].
  - intros v row V RV. rewrite NM. rewrite Forall_forall in VC. pose proof (VC v V) as L. unfold is_cell in L. rewrite NM in L.
    destruct (lookup_lt_is_Some_2 (am_cells a D0) (N.to_nat v)) as [x X]; [unfold anum in L; lia|].
    rewrite (RO R02 _ _ X) in RV. injection RV as <-. rewrite (RR R02 _ _ X). f_equal. cbn [src].
    unfold sidesF. rewrite decide_False by (intros [? _]; done). unfold cornersF. rewrite N2Nat.id, decide_True by done.
    unfold row_update2. cbn [ac_rel with_row]. unfold upd_fun. rewrite decide_True by done. pose proof (CO R02 _ _ X) as E. cbn [src] in E. by rewrite E.
  - intros e row V RV. rewrite NM. rewrite Forall_forall in EC. pose proof (EC e V) as L. unfold is_cell in L. rewrite NM in L.
    destruct (lookup_lt_is_Some_2 (am_cells a D1) (N.to_nat e)) as [x X]; [unfold anum in L; lia|].
    rewrite (RO R12 _ _ X) in RV. injection RV as <-. rewrite (RR R12 _ _ X). f_equal. cbn [src].
    unfold sidesF. rewrite N2Nat.id, decide_True by done. unfold swapped. cbn [ac_rel with_row]. unfold upd_fun. rewrite decide_True by done. apply f_equal.
    unfold cornersF. rewrite decide_False by (intros [? _]; done). apply (CO R12 _ _ X).
  - cbn zeta. rewrite NM, !(g_row _ _ RA'), (g_active _ _ RA'), (g_hasupdateds _ _ RA'), (g_original _ _ RA') by done.
    cbn [src]. rewrite !LK, new_cell_is2. done.
  - destruct MS as (f & I & K). exists k, f. split; [|done]. rewrite NM, (g_marker _ _ RA'), LK, new_cell_is2. done.
  - exists ss. split; [|done]. rewrite NM, (g_row _ _ RA'), LK. cbn [src]. rewrite new_cell_is2. done.
Qed.
End reads.

Lemma weld_ok order fs vs es gone0 gone1 original m : reachable m -> can_weld fs vs es gone0 gone1 original m -> (forall l, order l ≡ₚ l) ->
  exists m' l, WeldPolygons order fs vs es gone0 gone1 original m = Ok (m', num D2 m, original ++ [l]) /\
    originals_of original fs l /\ reachable m' /\ polygons_joined fs vs es gone0 gone1 m m'.
Proof.
  intros RM CW O1. destruct (rr_of m RM) as [a R]. pose proof (proj2 R) as RA.
  assert (forall d, num d m = anum d a) as NM by (intros d; apply (g_num _ _ RA)).
  destruct CW as [L2 ND FC [VC VN] EC [GC0 GC1] LO ST]. rewrite NM in LO.
  assert (forall f, f ∈ fs -> is_cell D2 m f) as FL by (by apply Forall_forall).
  destruct (does_Append D2 1 a m R) as (m1 & EA & R1).
  destruct (weld_all a m R original LO fs [] m1 (Crop 0 [] [])) as (m2 & h & E2 & R2 & G); [done| | |].
  { eapply rr_aeq; [exact R1|apply off2_nil]. }
  { split; cbn.
    - intros e k I. by apply elem_of_nil in I.
    - by left.
    - by exists [].
    - constructor.
    - intros x. rewrite elem_of_nil. split; [done|]. intros (k & e & _ & I & _). by apply elem_of_nil in I. }
  cbn [app] in R2, G. pose proof (c_lt2 a) as CL.
  destruct (start2_ok a m R fs FL vs es (cr_marker h) VC EC m2 R2) as (m3 & E3 & R3).
  assert (exists ss, does (fun m => if decide (cr_solids h = []) then Ok m else RelAdd R23 (anum D2 a) (order (cr_solids h)) m)
    (amap (newF2 a fs vs es (cr_marker h) []) (aappend D2 1 a)) (amap (newF2 a fs vs es (cr_marker h) ss) (aappend D2 1 a)) /\ ss ≡ₚ cr_solids h) as (ss & DS & SP).
  { destruct (decide (cr_solids h = [])) as [E|NE].
    - exists []. split; [apply does_ret|by rewrite E].
    - exists (order (cr_solids h)). split; [|apply O1]. apply solids2_ok. apply Forall_forall. intros x X. rewrite O1 in X.
      apply (cp_solids _ _ _ _ G) in X as (n & ? & ? & _ & _ & _ & I). unfold is_cell in I. cbn [tgt] in I. rewrite NM in I. lia. }
  destruct (DS m3 R3) as (m4 & E4 & R4).
  set (F4 := newF2 a fs vs es (cr_marker h) ss) in *.
  assert (forall x, ac_rel (F4 D2 (anum D2 a) x) V2 = vs /\ ac_rel (F4 D2 (anum D2 a) x) MeshModel.E2 = es) as FVE.
  { intros x. unfold F4, newF2. rewrite decide_True by done. unfold fresh2. done. }
  destruct (corners_ok a m R fs FL vs es F4) with (m := m4) as (m5 & E5 & R5); [| |done|done| |exact R4|].
  { intros i x. unfold F4, newF2. rewrite decide_False by (intros [? _]; done). unfold off2. by rewrite decide_False by (intros [? _]; done). }
  { intros x. apply FVE. }
  { intros v row. rewrite <- NM. apply ST. }
  destruct (sides2_ok a m R fs FL es (cornersF a m fs F4 vs)) with (m := m5) as (m6 & E6 & R6); [|done|exact R5|].
  { intros x. unfold cornersF. rewrite decide_False by (intros [? _]; done). apply FVE. }
  destruct (lost_ok a m R fs FL D0 _ gone0 GC0 m6 R6) as (m7 & E7 & R7).
  destruct (lost_ok a m R fs FL D1 _ gone1 GC1 m7 R7) as (m8 & E8 & R8).
  exists m8, (cr_original h).
  assert (WeldPolygons order fs vs es gone0 gone1 original m = Ok (m8, num D2 m, original ++ [cr_original h])) as ->.
  { unfold WeldPolygons. destruct fs as [|f1 [|f2 fs']]; [cbn in L2; lia|cbn in L2; lia|].
    rewrite EA. cbn [mbind outcome_bind fst snd]. rewrite E2. cbn [mbind outcome_bind fst snd].
    rewrite <- LO. destruct (Nat.ltb_spec (length original) (length original + 1)); [|lia]. cbn [mbind outcome_bind].
    rewrite insert_app_r_alt by lia. rewrite Nat.sub_diag. cbn [insert list_insert].
    rewrite LO. apply bind_ok in E3 as (m21 & -> & E3). cbn [mbind outcome_bind]. apply bind_ok in E3 as (m22 & -> & E3). cbn [mbind outcome_bind].
    apply bind_ok in E3 as (m23 & -> & E3). cbn [mbind outcome_bind]. rewrite E3.
    cbn [mbind outcome_bind]. rewrite E4. cbn [mbind outcome_bind].
    apply bind_ok in E5 as (n5 & -> & E5). cbn [mbind outcome_bind]. rewrite E5. cbn [mbind outcome_bind].
    apply bind_ok in E6 as (n6 & -> & E6). cbn [mbind outcome_bind]. rewrite E6. cbn [mbind outcome_bind].
    rewrite E7. cbn [mbind outcome_bind]. rewrite E8. cbn [mbind outcome_bind]. by rewrite NM. }
  split; [done|]. split; [apply (cp_original _ _ _ _ G)|]. split; [apply R8|].
  eapply (weld_read a m m8 R fs vs es gone0 gone1 (cr_marker h) ss R8); [|apply (cp_most _ _ _ _ G)|done|done| |].
  - destruct (cp_some _ _ _ _ G) as [Z|H]; [|done].
    destruct fs as [|e fs']; [cbn in L2; lia|]. exists e. split; [left|].
    pose proof (FL e ltac:(left)) as L. unfold is_cell in L. rewrite NM in L.
    destruct (lookup_lt_is_Some_2 (am_cells a D2) (N.to_nat e)) as [x X]; [unfold anum in L; lia|].
    assert (Marker D2 (N.to_nat e) m = Ok (ac_mark x)) as MK by (rewrite (g_marker _ _ RA); unfold look; by rewrite X).
    pose proof (cp_most _ _ _ _ G e _ ltac:(left) MK). rewrite MK. f_equal. lia.
  - rewrite SP. apply (cp_once _ _ _ _ G).
  - intros p. rewrite SP. apply (cp_solids _ _ _ _ G).
Qed.

Lemma weld_few order fs vs es gone0 gone1 original m : length fs < 2 ->
  exists c, WeldPolygons order fs vs es gone0 gone1 original m = Ok (m, c, original) /\
    (fs = [] -> c = num D2 m) /\ forall f, fs = [f] -> c = N.to_nat f.
Proof.
  intros L. destruct fs as [|e [|e' fs]]; [| |cbn in L; lia].
  - exists (num D2 m). split_and!; done.
  - exists (N.to_nat e). split_and!; [done|done|]. by intros ? [= <-].
Qed.
