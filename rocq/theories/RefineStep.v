(** * The view of a store, and what the operations of the refinement do to it. *)
From Coq Require Import QArith Qcanon.
From Verif Require Import Base BaseProof CsrModel MeshModel MeshSpec MeshRep MeshHist MeshProof8 MeshProof9 MeshProofA MeshProofB MeshProofF MeshProg
  UtilModel UtilSpec UtilProofD UtilProofH RefineModel RefineSpec RefineView RefineSplit RefineReplace.
From Coq Require Import ZifyBool ZifyNat ZifyN.
Local Open Scope nat_scope.

Definition view_of (m : mesh) : view :=
  View (fun d => N.of_nat (num d m))
       (fun d i => active d m (N.to_nat i))
       (fun e => match Cell1DOrigin (N.to_nat e) m, Cell1DEnd (N.to_nat e) m with Ok a, Ok b => Some (a, b) | _, _ => None end)
       (fun c => match RelRow V2 (N.to_nat c) m, RelRow E2 (N.to_nat c) m with
                 | Ok a, Ok b => if length a =? length b then Some (zip a b) else None
                 | _, _ => None
                 end)
       (fun e => match RelRow R12 (N.to_nat e) m with Ok l => Some l | _ => None end)
       (fun c => match HasUpdateds D2 (N.to_nat c) m with Ok b => b | _ => false end).

Lemma zip_fst_snd {A B} (l : list (A * B)) : zip (l.*1) (l.*2) = l.
Proof. induction l as [|[x y] l IH]; cbn; [done|]. by rewrite IH. Qed.

Lemma vp_polygon m c l : vp (view_of m) c = Some l <-> polygon m (N.to_nat c) l.
Proof.
  unfold polygon. cbn. split.
  - destruct (RelRow V2 (N.to_nat c) m) as [a| | | |]; [|done..]. destruct (RelRow E2 (N.to_nat c) m) as [b| | | |]; [|done..].
    destruct (Nat.eqb_spec (length a) (length b)) as [E|E]; [|done]. intros [= <-].
    by rewrite fst_zip, snd_zip by lia.
  - intros [-> ->]. rewrite !fmap_length, Nat.eqb_refl. by rewrite zip_fst_snd.
Qed.

Lemma ve_ends m e a b : ve (view_of m) e = Some (a, b) <-> Cell1DOrigin (N.to_nat e) m = Ok a /\ Cell1DEnd (N.to_nat e) m = Ok b.
Proof.
  cbn. destruct (Cell1DOrigin (N.to_nat e) m), (Cell1DEnd (N.to_nat e) m); naive_solver.
Qed.

Lemma active_num m d i : reachable m -> active d m i = true -> i < num d m.
Proof. intros R. by apply active_lt. Qed.
Lemma active_ge m d i : reachable m -> num d m <= i -> active d m i = false.
Proof. intros R H. destruct (active d m i) eqn:E; [|done]. apply active_num in E; [lia|done]. Qed.

(** ** One more cell, of which everything may have been set *)
Record grown (d : dim) (m m' : mesh) : Prop := {
  gr_num : forall d', num d' m' = num d' m + if decide (d' = d) then 1 else 0;
  gr_act : forall d' i, i < num d' m -> IsActive d' i m' = IsActive d' i m;
  gr_mark : forall d' i, i < num d' m -> Marker d' i m' = Marker d' i m;
  gr_upd : forall d' i, i < num d' m -> HasUpdateds d' i m' = HasUpdateds d' i m;
  gr_row : forall r i, i < num (src r) m -> RelRow r i m' = RelRow r i m;
  gr_coord : forall i, i < num D0 m -> Cell0DCoordinates i m' = Cell0DCoordinates i m;
  gr_ends : forall e, e < num D1 m -> Cell1DOrigin e m' = Cell1DOrigin e m /\ Cell1DEnd e m' = Cell1DEnd e m
}.

Lemma grown_of d m m' a F : rr m a -> rr m' (amap F (aappend d 1 a)) ->
  (forall d' i x, i < anum d' a -> F d' i x = x) -> grown d m m'.
Proof.
  intros [_ R] [_ R'] HF.
  assert (L : forall B d' i (f : acell -> B), i < anum d' a -> look (amap F (aappend d 1 a)) d' i f = look a d' i f).
  { intros B d' i f Hi. unfold look. rewrite amap_lookup, aappend_old by done.
    destruct (am_cells a d' !! i) as [x|]; [|done]. cbn. by rewrite HF. }
  split.
  - intros d'. rewrite (g_num _ _ R), (g_num _ _ R'), amap_num, aappend_num. done.
  - intros d' i Hi. rewrite (g_num _ _ R) in Hi. rewrite (g_active _ _ R), (g_active _ _ R'). by apply L.
  - intros d' i Hi. rewrite (g_num _ _ R) in Hi. rewrite (g_marker _ _ R), (g_marker _ _ R'). by apply L.
  - intros d' i Hi. rewrite (g_num _ _ R) in Hi. rewrite (g_hasupdateds _ _ R), (g_hasupdateds _ _ R'). by apply L.
  - intros r i Hi. rewrite (g_num _ _ R) in Hi. rewrite (g_row _ _ R), (g_row _ _ R'). by apply L.
  - intros i Hi. rewrite (g_num _ _ R) in Hi. rewrite (g_coord _ _ R), (g_coord _ _ R'). by apply L.
  - intros e Hi. rewrite (g_num _ _ R) in Hi. rewrite (g_origin _ _ R), (g_origin _ _ R'), (g_end _ _ R), (g_end _ _ R'). split; by apply L.
Qed.

(** A new vertex. *)
Lemma new_vertex m x y z k : reachable m ->
  exists m1 m2 m3 m4, CellAppend D0 1 m = Ok (m1, num D0 m) /\ Cell0DInsertCoordinates (num D0 m) x y z m1 = Ok m2 /\
    (forall e, e < num D1 m -> Marker D1 e m2 = Marker D1 e m) /\
    SetMarker D0 (num D0 m) k m2 = Ok m3 /\ SetState D0 (num D0 m) true m3 = Ok m4 /\ reachable m4 /\ grown D0 m m4 /\
    IsActive D0 (num D0 m) m4 = Ok true /\ Cell0DCoordinates (num D0 m) m4 = Ok (x, y, z).
Proof.
  intros Hr. destruct (rr_of m Hr) as [a Hm]. pose proof (proj2 Hm) as R. rewrite (g_num _ _ R).
  destruct (does_Append D0 1 a m Hm) as (m1 & E1 & H1).
  set (w := anum D0 a) in *. set (b := aappend D0 1 a) in *.
  assert (Hw : w < anum D0 b) by (unfold b; rewrite aappend_num, decide_True by done; unfold w; lia).
  pose proof (rr_aeq _ _ _ H1 (amap_keep b)) as H1'.
  destruct (does_Coordinates keep b w x y z Hw m1 H1') as (m2 & E2 & H2).
  destruct (does_Marker _ b D0 w k Hw m2 H2) as (m3 & E3 & H3).
  destruct (does_State _ b D0 w true Hw m3 H3) as (m4 & E4 & H4).
  assert (Hold : forall d' i, i < anum d' a -> ~ (d' = D0 /\ i = w)).
  { intros d' i Hi [-> ->]. unfold w in Hi. lia. }
  exists m1, m2, m3, m4. split_and!; [done|done| |done|done|apply H4| | |].
  - intros e He. rewrite (g_num _ _ R) in He. pose proof (proj2 H2) as R2. rewrite (g_marker _ _ R), (g_marker _ _ R2). unfold look.
    rewrite amap_lookup. unfold b. rewrite aappend_old by done. destruct (am_cells a D1 !! e) as [q|]; [|done]. cbn. unfold also.
    by rewrite decide_False by naive_solver.
  - eapply grown_of; [exact Hm|exact H4|]. intros d' i q Hi. unfold also. by rewrite !decide_False by (by apply Hold).
  - rewrite (g_active _ _ (proj2 H4)). unfold look. rewrite amap_lookup. unfold b. rewrite aappend_new by (unfold w; lia). cbn.
    unfold also. by rewrite !decide_True.
  - rewrite (g_coord _ _ (proj2 H4)). unfold look. rewrite amap_lookup. unfold b. rewrite aappend_new by (unfold w; lia). cbn.
    unfold also. by rewrite !decide_True.
Qed.

(** A new edge. *)
Lemma new_edge m o t k : reachable m ->
  exists m1 m2 m3 m4 m5, CellAppend D1 1 m = Ok (m1, num D1 m) /\ Cell1DInsertExtremes (num D1 m) o t m1 = Ok m2 /\
    SetMarker D1 (num D1 m) k m2 = Ok m3 /\ SetState D1 (num D1 m) true m3 = Ok m4 /\ RelInitOne R12 (num D1 m) 2 m4 = Ok m5 /\
    reachable m5 /\ grown D1 m m5 /\
    IsActive D1 (num D1 m) m5 = Ok true /\ Cell1DOrigin (num D1 m) m5 = Ok o /\ Cell1DEnd (num D1 m) m5 = Ok t /\
    RelRow R12 (num D1 m) m5 = Ok [UINT_MAX; UINT_MAX].
Proof.
  intros Hr. destruct (rr_of m Hr) as [a Hm]. pose proof (proj2 Hm) as R. rewrite (g_num _ _ R).
  destruct (does_Append D1 1 a m Hm) as (m1 & E1 & H1).
  set (w := anum D1 a) in *. set (b := aappend D1 1 a) in *.
  assert (Hw : w < anum D1 b) by (unfold b; rewrite aappend_num, decide_True by done; unfold w; lia).
  pose proof (rr_aeq _ _ _ H1 (amap_keep b)) as H1'.
  destruct (does_Extremes keep b w o t Hw m1 H1') as (m2 & E2 & H2).
  destruct (does_Marker _ b D1 w k Hw m2 H2) as (m3 & E3 & H3).
  destruct (does_State _ b D1 w true Hw m3 H3) as (m4 & E4 & H4).
  destruct (does_InitOne _ b R12 w 2 Hw ltac:(done) m4 H4) as (m5 & E5 & H5).
  assert (Hold : forall d' i, i < anum d' a -> ~ (d' = D1 /\ i = w)).
  { intros d' i Hi [-> ->]. unfold w in Hi. lia. }
  exists m1, m2, m3, m4, m5. split_and!; [done|done|done|done|done|apply H5|..].
  - eapply grown_of; [exact Hm|exact H5|]. intros d' i q Hi. unfold also. by rewrite !decide_False by (by apply Hold).
  - rewrite (g_active _ _ (proj2 H5)). unfold look. rewrite amap_lookup. unfold b. rewrite aappend_new by (unfold w; lia). cbn.
    unfold also. by rewrite !decide_True.
  - rewrite (g_origin _ _ (proj2 H5)). unfold look. rewrite amap_lookup. unfold b. rewrite aappend_new by (unfold w; lia). cbn.
    unfold also. by rewrite !decide_True.
  - rewrite (g_end _ _ (proj2 H5)). unfold look. rewrite amap_lookup. unfold b. rewrite aappend_new by (unfold w; lia). cbn.
    unfold also. by rewrite !decide_True.
  - rewrite (g_row _ _ (proj2 H5)). unfold look. cbn [src]. rewrite amap_lookup. unfold b. rewrite aappend_new by (unfold w; lia). cbn.
    unfold also. rewrite !decide_True by done. unfold row_of. cbn. unfold upd_fun. by rewrite decide_True.
Qed.

Lemma seq2 k : seq k 2 = [k; S k].
Proof. done. Qed.

(** ** Splitting an edge *)
Lemma refine_edge m e o t x y z :
  reachable m -> active D1 m e = true -> Cell1DOrigin e m = Ok o -> Cell1DEnd e m = Ok t ->
  (o < N.of_nat (num D0 m))%N -> (t < N.of_nat (num D0 m))%N ->
  exists m', RefineCell1D e x y z m = Ok (m', (num D0 m, [num D1 m; S (num D1 m)])) /\ reachable m' /\
    edge_split (N.of_nat e) (N.of_nat (num D0 m)) (N.of_nat (num D1 m)) (N.of_nat (S (num D1 m))) o t (view_of m) (view_of m') /\
    (forall i, i < num D0 m -> Cell0DCoordinates i m' = Cell0DCoordinates i m) /\ Cell0DCoordinates (num D0 m) m' = Ok (x, y, z).
Proof.
  intros Hr Ha Ho Ht Lo Lt. pose proof (active_num m D1 e Hr Ha) as He.
  destruct (getters_ok m Hr) as (Gm & _). destruct (Gm D1 e He) as [k Hk].
  destruct (new_vertex m x y z k Hr) as (m1 & m2 & m3 & m4 & E1 & E2 & Hmark & E3 & E4 & R4 & G & Aw & Cw).
  set (w := num D0 m) in *.
  pose proof (gr_num _ _ _ G D0) as N0. rewrite decide_True in N0 by done.
  pose proof (gr_num _ _ _ G D1) as N1. rewrite decide_False in N1 by done.
  pose proof (gr_num _ _ _ G D2) as N2. rewrite decide_False in N2 by done.
  destruct (split_edge m4 e [(o, N.of_nat w); (N.of_nat w, t)] R4) as (m' & E5 & R' & Fr & Ch & Sub & Inh & _ & _ & Rows).
  { lia. }
  { repeat constructor; cbn; lia. }
  cbn [length] in *. rewrite seq2 in E5. rewrite N1, Nat.add_0_r in E5.
  exists m'. split.
  { unfold RefineCell1D. rewrite Ho, Ht. cbn [mbind outcome_bind]. rewrite E1. cbn [mbind outcome_bind fst snd]. fold w. rewrite E2. cbn [mbind outcome_bind].
    rewrite (Hmark e He), Hk. cbn [mbind outcome_bind]. rewrite E3. cbn [mbind outcome_bind]. rewrite E4. cbn [mbind outcome_bind].
    rewrite E5. cbn [mbind outcome_bind fst snd]. done. }
  split; [done|].
  destruct Fr as (_ & Fn & _ & Fa & Fc & Fe & _ & _ & Fu).
  pose proof (Fn D0) as M0. rewrite decide_False in M0 by done.
  pose proof (Fn D1) as M1. rewrite decide_True in M1 by done.
  pose proof (Fn D2) as M2. rewrite decide_False in M2 by done.
  assert (Hact : forall d i, i < num d m -> IsActive d i m' = if decide (d = D1 /\ i = e) then Ok false else IsActive d i m).
  { intros d i Hi. rewrite Fa by (rewrite (gr_num _ _ _ G); lia). case_decide; [done|]. by apply (gr_act _ _ _ G). }
  split; [|split].
  2:{ intros i Hi. rewrite Fc by lia. by apply (gr_coord _ _ _ G). }
  2:{ rewrite Fc by lia. done. }
  destruct (Sub 0 _ eq_refl) as [S0o S0t]. destruct (Sub 1 _ eq_refl) as [S1o S1t].
  cbn [fst snd] in S0o, S0t, S1o, S1t. rewrite N1 in S0o, S0t, S1o, S1t.
  replace (num D1 m + 0 + 0) with (num D1 m) in * by lia. replace (num D1 m + 0 + 1) with (S (num D1 m)) in * by lia.
  assert (ve' : forall i, i < num D1 m -> Cell1DOrigin i m' = Cell1DOrigin i m /\ Cell1DEnd i m' = Cell1DEnd i m).
  { intros i Hi. destruct (Fe i ltac:(lia)) as [-> ->]. by apply (gr_ends _ _ _ G). }
  assert (Rw : forall r i, r <> R01 -> i < num (src r) m -> RelRow r i m' = RelRow r i m).
  { intros r i Hne Hi. rewrite Rows; [by apply (gr_row _ _ _ G)|done|]. rewrite (gr_num _ _ _ G). lia. }
  assert (Out : forall r i, num (src r) m' <= i -> RelRow r i m' = Abort).
  { intros r i Hi. destruct (rr_of m' R') as [a' [_ Ra]]. rewrite (g_row _ _ Ra). unfold look.
    rewrite (g_num _ _ Ra) in Hi. by rewrite (lookup_ge_None_2 (am_cells a' (src r)) i Hi). }
  assert (OutM : forall r i, num (src r) m <= i -> RelRow r i m = Abort).
  { intros r i Hi. destruct (rr_of m Hr) as [a' [_ Ra]]. rewrite (g_row _ _ Ra). unfold look.
    rewrite (g_num _ _ Ra) in Hi. by rewrite (lookup_ge_None_2 (am_cells a' (src r)) i Hi). }
  split; cbn [view_of vn va ve vp vr vu].
  - by rewrite Nat2N.id.
  - rewrite Nat2N.id. by rewrite Ho, Ht.
  - done.
  - done.
  - lia.
  - lia.
  - lia.
  - lia.
  - intros i. unfold active. case_decide as Ei.
    + subst i. rewrite Nat2N.id. rewrite Fa by lia. rewrite decide_False by naive_solver. by rewrite Aw.
    + destruct (decide (N.to_nat i < num D0 m)) as [Hi|Hi].
      * rewrite Hact by done. by rewrite decide_False by naive_solver.
      * fold (active D0 m' (N.to_nat i)) (active D0 m (N.to_nat i)). rewrite !active_ge; [done|done|lia|done|lia].
  - intros i. unfold active. case_decide as Ei.
    + subst i. rewrite Nat2N.id. rewrite Hact by done. by rewrite decide_True.
    + case_decide as Es.
      * assert (Hs : N.to_nat i = num D1 m4 + 0 \/ N.to_nat i = num D1 m4 + 1) by lia.
        destruct Hs as [-> | ->]; [destruct (Ch 0 ltac:(lia)) as (_ & A & _)|destruct (Ch 1 ltac:(lia)) as (_ & A & _)]; cbn in A; by rewrite A.
      * destruct (decide (N.to_nat i < num D1 m)) as [Hi|Hi].
        -- rewrite Hact by done. by rewrite decide_False by (intros [_ E]; apply Ei; lia).
        -- fold (active D1 m' (N.to_nat i)) (active D1 m (N.to_nat i)). rewrite !active_ge; [done|done|lia|done|lia].
  - intros i. unfold active. destruct (decide (N.to_nat i < num D2 m)) as [Hi|Hi].
    + rewrite Hact by done. by rewrite decide_False by naive_solver.
    + fold (active D2 m' (N.to_nat i)) (active D2 m (N.to_nat i)). rewrite !active_ge; [done|done|lia|done|lia].
  - intros i Hi. apply active_num in Hi; [lia|done].
  - intros i H0 H1. destruct (decide (N.to_nat i < num D1 m)) as [Hi|Hi].
    + by destruct (ve' _ Hi) as [-> ->].
    + destruct (rr_of m Hr) as [a0 [_ Ra]]. destruct (rr_of m' R') as [a' [_ Ra']].
      rewrite (g_origin _ _ Ra), (g_origin _ _ Ra'), (g_end _ _ Ra), (g_end _ _ Ra'). unfold look.
      rewrite (lookup_ge_None_2 (am_cells a0 D1)) by (rewrite (g_num _ _ Ra) in Hi; unfold anum in Hi; lia).
      rewrite (lookup_ge_None_2 (am_cells a' D1)); [done|].
      assert (num D1 m' = length (am_cells a' D1)) by (by rewrite (g_num _ _ Ra')). lia.
  - rewrite Nat2N.id. by rewrite S0o, S0t.
  - rewrite Nat2N.id. by rewrite S1o, S1t.
  - intros i. destruct (decide (N.to_nat i < num D2 m)) as [Hi|Hi].
    + by rewrite !Rw by done.
    + rewrite (Out V2), (OutM V2) by (cbn; lia). done.
  - intros i H0 H1. destruct (decide (N.to_nat i < num D1 m)) as [Hi|Hi].
    + by rewrite Rw by done.
    + rewrite (Out R12), (OutM R12) by (cbn; lia). done.
  - intros s Hs l Hl. assert (Hs' : exists c, c < 2 /\ N.to_nat s = num D1 m4 + c) by (destruct Hs; [exists 0|exists 1]; lia).
    destruct Hs' as (c & Hc & ->). destruct (Inh c Hc) as (l' & I1 & I2). cbn [src tgt] in I1, I2. rewrite I2.
    rewrite (gr_row _ _ _ G) in I1 by done. rewrite Nat2N.id, I1 in Hl. injection Hl as <-.
    do 2 f_equal. rewrite N2. by rewrite Nat.add_0_r.
  - intros i. destruct (decide (N.to_nat i < num D2 m)) as [Hi|Hi].
    + rewrite <- (gr_upd _ _ _ G D2 (N.to_nat i) Hi).
      assert (Hi4 : N.to_nat i < num D2 m4) by lia. assert (Hi' : N.to_nat i < num D2 m') by lia.
      destruct (getters_ok m4 R4) as (_ & _ & _ & _ & _ & _ & U4 & _). destruct (getters_ok m' R') as (_ & _ & _ & _ & _ & _ & U' & _).
      destruct (U4 D2 _ Hi4) as [b4 B4]. destruct (U' D2 _ Hi') as [b' B']. rewrite B4, B'.
      apply eq_true_iff_eq. split; intros ->.
      * apply hasupdateds_replaced in B' as [j Hj]; [|done]. apply Fu in Hj; [|done]. destruct Hj as [Hj|[? _]]; [|done].
        assert (X : HasUpdateds D2 (N.to_nat i) m4 = Ok true) by (apply hasupdateds_replaced; eauto). congruence.
      * apply hasupdateds_replaced in B4 as [j Hj]; [|done].
        assert (X : HasUpdateds D2 (N.to_nat i) m' = Ok true) by (apply hasupdateds_replaced; [done|]; exists j; apply Fu; auto). congruence.
    + destruct (rr_of m Hr) as [a0 [_ Ra]]. destruct (rr_of m' R') as [a' [_ Ra']].
      rewrite (g_hasupdateds _ _ Ra), (g_hasupdateds _ _ Ra'). unfold look.
      rewrite (lookup_ge_None_2 (am_cells a0 D2)) by (rewrite (g_num _ _ Ra) in Hi; unfold anum in Hi; lia).
      rewrite (lookup_ge_None_2 (am_cells a' D2)); [done|].
      assert (num D2 m' = length (am_cells a' D2)) by (by rewrite (g_num _ _ Ra')). lia.
Qed.
