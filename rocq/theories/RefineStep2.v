(** * Replacing polygons in the store. *)
From Coq Require Import QArith Qcanon.
From Verif Require Import Base BaseProof CsrModel MeshModel MeshSpec MeshRep MeshHist MeshProof8 MeshProof9 MeshProofA MeshProofB MeshProofF MeshProg
  UtilModel UtilSpec UtilProofD UtilProofH RefineModel RefineSpec RefineView RefineSplit RefineReplace RefineStep.
From Coq Require Import ZifyBool ZifyNat ZifyN.
Local Open Scope nat_scope.

Lemma row_out m r i : reachable m -> num (src r) m <= i -> RelRow r i m = Abort.
Proof.
  intros R Hi. destruct (rr_of m R) as [a [_ Ra]]. rewrite (g_row _ _ Ra). unfold look.
  rewrite (g_num _ _ Ra) in Hi. by rewrite (lookup_ge_None_2 (am_cells a (src r)) i Hi).
Qed.

(** Replaced cells, before and after. *)
Lemma updated_same m m' d i : reachable m -> reachable m' -> i < num d m -> i < num d m' ->
  (forall j, replaced_by d m' i j <-> replaced_by d m i j) -> HasUpdateds d i m' = HasUpdateds d i m.
Proof.
  intros R R' Hi Hi' E.
  destruct (getters_ok m R) as (_ & _ & _ & _ & _ & _ & U & _). destruct (getters_ok m' R') as (_ & _ & _ & _ & _ & _ & U' & _).
  destruct (U d i Hi) as [b B]. destruct (U' d i Hi') as [b' B']. rewrite B, B'. f_equal.
  apply eq_true_iff_eq. split; intros ->.
  - apply hasupdateds_replaced in B' as [j Hj]; [|done]. apply E in Hj.
    assert (X : HasUpdateds d i m = Ok true) by (apply hasupdateds_replaced; eauto). congruence.
  - apply hasupdateds_replaced in B as [j Hj]; [|done]. apply E in Hj.
    assert (X : HasUpdateds d i m' = Ok true) by (apply hasupdateds_replaced; eauto). congruence.
Qed.

Lemma list_find_ext_fmap {A B} (f : A -> B) (Q : B -> Prop) `{!forall x, Decision (Q x)} (l : list A) :
  list_find Q (f <$> l) = prod_map id f <$> list_find (fun x => Q (f x)) l.
Proof. rewrite list_find_fmap. done. Qed.

Lemma split_view m c subs :
  reachable m -> active D2 m c = true -> subs <> [] ->
  Forall (fun s => all_below (num D0 m) (s.*1) /\ all_below (num D1 m) (s.*2)) subs ->
  exists m', SplitCell2D c subs m = Ok (m', seq (num D2 m) (length subs)) /\ reachable m' /\
    replaced (N.of_nat c) subs (view_of m) (view_of m') /\
    (forall i, va (view_of m') D1 i = va (view_of m) D1 i) /\ num D1 m' = num D1 m /\ num D0 m' = num D0 m /\
    (forall i, Cell0DCoordinates i m' = Cell0DCoordinates i m) /\
    (forall i, RelRow R12 i m' = match RelRow R12 i m with
                                 | Ok l => Ok (redirect (N.of_nat c) (N.of_nat (num D2 m)) subs (N.of_nat i) <$> l)
                                 | x => x
                                 end) /\
    (forall i, Cell1DOrigin i m' = Cell1DOrigin i m /\ Cell1DEnd i m' = Cell1DEnd i m).
Proof.
  intros Hr Ha Hne Hs. pose proof (active_num m D2 c Hr Ha) as Hc.
  destruct (split_polygon m c subs Hr Hc Hs) as (m' & E & R' & Fr & Ch & Sub & _ & _ & Red & Rows).
  exists m'. split; [done|]. split; [done|].
  destruct Fr as (_ & Fn & _ & Fa & Fc & Fe & _ & _ & Fu).
  pose proof (Fn D0) as M0. rewrite decide_False in M0 by done.
  pose proof (Fn D1) as M1. rewrite decide_False in M1 by done.
  pose proof (Fn D2) as M2. rewrite decide_True in M2 by done.
  destruct (rr_of m Hr) as [a0 [_ Ra]]. destruct (rr_of m' R') as [a' [_ Ra']].
  assert (Len : forall d, num d m = length (am_cells a0 d)) by (intros d; by rewrite (g_num _ _ Ra)).
  assert (Len' : forall d, num d m' = length (am_cells a' d)) by (intros d; by rewrite (g_num _ _ Ra')).
  assert (Coo : forall i, Cell0DCoordinates i m' = Cell0DCoordinates i m).
  { intros i. destruct (decide (i < num D0 m)) as [Hi|Hi]; [by apply Fc|].
    rewrite (g_coord _ _ Ra), (g_coord _ _ Ra'). unfold look.
    rewrite (lookup_ge_None_2 (am_cells a0 D0)) by (specialize (Len D0); lia).
    by rewrite (lookup_ge_None_2 (am_cells a' D0)) by (specialize (Len' D0); lia). }
  assert (End : forall i, Cell1DOrigin i m' = Cell1DOrigin i m /\ Cell1DEnd i m' = Cell1DEnd i m).
  { intros i. destruct (decide (i < num D1 m)) as [Hi|Hi]; [by apply Fe|].
    rewrite (g_origin _ _ Ra), (g_origin _ _ Ra'), (g_end _ _ Ra), (g_end _ _ Ra'). unfold look.
    rewrite (lookup_ge_None_2 (am_cells a0 D1)) by (specialize (Len D1); lia).
    by rewrite (lookup_ge_None_2 (am_cells a' D1)) by (specialize (Len' D1); lia). }
  assert (Rrow : forall i, RelRow R12 i m' = match RelRow R12 i m with
                                 | Ok l => Ok (redirect (N.of_nat c) (N.of_nat (num D2 m)) subs (N.of_nat i) <$> l)
                                 | x => x
                                 end).
  { intros i. destruct (decide (i < num D1 m)) as [Hi|Hi].
    - destruct (Red i Hi) as (l & -> & ->). cbn [tgt]. f_equal. apply list_fmap_ext. intros k q _. unfold redirect.
      rewrite list_find_fmap. destruct (list_find _ subs) as [[j row]|]; cbn; [|done].
      case_match; [|done]. lia.
    - rewrite !row_out by (cbn; lia || done). done. }
  assert (Act : forall d i, d <> D2 -> active d m' i = active d m i).
  { intros d i Hd. destruct (decide (i < num d m)) as [Hi|Hi].
    - unfold active. rewrite Fa by done. by rewrite decide_False by naive_solver.
    - rewrite !active_ge; [done|done|lia|done|]. rewrite (Fn d), decide_False by done. lia. }
  split_and!; [|intros i; cbn; by apply Act|lia|lia|done|done|done].
  split; cbn [view_of vn va ve vp vr vu].
  - lia.
  - lia.
  - lia.
  - intros i. by apply Act.
  - intros i. by rewrite Act.
  - intros i Hi. apply active_num in Hi; [lia|done].
  - intros i _. by apply Act.
  - intros i. case_decide as Ei; [|case_decide as Ej].
    + subst i. rewrite Nat2N.id. unfold active. rewrite Fa by done. by rewrite decide_True.
    + unfold active. destruct (Ch (N.to_nat i - num D2 m)) as (_ & A & _); [lia|].
      replace (num D2 m + (N.to_nat i - num D2 m)) with (N.to_nat i) in A by lia. by rewrite A.
    + destruct (decide (N.to_nat i < num D2 m)) as [Hi|Hi].
      * unfold active. rewrite Fa by done. rewrite decide_False; [done|]. intros [_ X]. apply Ei. lia.
      * rewrite !active_ge; [done|done|lia|done|lia].
  - intros i Hi. apply active_num in Hi; [lia|done].
  - intros i _. by destruct (End (N.to_nat i)) as [-> ->].
  - intros i Hi. rewrite !Rows by (done || cbn; lia). done.
  - intros j row Hj. replace (N.to_nat (N.of_nat (num D2 m) + N.of_nat j)) with (num D2 m + j) by lia.
    destruct (Sub j row Hj) as (-> & -> & _). rewrite !fmap_length, Nat.eqb_refl. by rewrite zip_fst_snd.
  - intros i l _ Hl. rewrite Rrow. rewrite N2Nat.id. destruct (RelRow R12 (N.to_nat i) m); [|done..]. by injection Hl as ->.
  - intros i Hi Hne'. rewrite (updated_same m m' D2); [done|done|done|lia|lia|]. intros j. rewrite Fu by lia.
    split; [|auto]. intros [?|(_ & X & _)]; [done|]. exfalso. apply Hne'. lia.
  - rewrite Nat2N.id. assert (X : HasUpdateds D2 c m' = Ok true); [|by rewrite X].
    apply hasupdateds_replaced; [done|]. exists (num D2 m). apply Fu; [done|]. right. split_and!; [done..|lia|].
    destruct subs; [done|]. cbn. lia.
  - intros i Hi. destruct (Ch (N.to_nat i - num D2 m)) as (_ & _ & _ & A); [lia|].
    replace (num D2 m + (N.to_nat i - num D2 m)) with (N.to_nat i) in A by lia. by rewrite A.
Qed.

(** ** The new edge and its two polygons *)
Lemma cut_view m c o t A B f :
  reachable m -> active D2 m c = true -> f = N.of_nat (num D1 m) ->
  Forall (fun s => all_below (num D0 m) (s.*1) /\ all_below (S (num D1 m)) (s.*2)) [A; B] ->
  forall m1 m2 m3 m4 m5, CellAppend D1 1 m = Ok (m1, num D1 m) -> Cell1DInsertExtremes (num D1 m) o t m1 = Ok m2 ->
    SetMarker D1 (num D1 m) 0%N m2 = Ok m3 -> SetState D1 (num D1 m) true m3 = Ok m4 -> RelInitOne R12 (num D1 m) 2 m4 = Ok m5 ->
    (N.of_nat (num D2 m) < UINT_MAX)%N ->
  exists m6 m7 m', SplitCell2D c [A; B] m5 = Ok (m6, [num D2 m; S (num D2 m)]) /\
    RelInsert R12 (num D1 m) 0 (N.of_nat (S (num D2 m))) m6 = Ok m7 /\
    RelInsert R12 (num D1 m) 1 (N.of_nat (num D2 m)) m7 = Ok m' /\
    reachable m' /\ replaced (N.of_nat c) [A; B] (view_of m) (view_of m') /\
    va (view_of m') D1 f = true /\ ve (view_of m') f = Some (o, t) /\
    vr (view_of m') f = Some [N.of_nat (S (num D2 m)); N.of_nat (num D2 m)] /\ num D1 m' = S (num D1 m) /\ num D0 m' = num D0 m /\
    (forall i, Cell0DCoordinates i m' = Cell0DCoordinates i m).
Proof.
  intros Hr Ha -> Hs m1 m2 m3 m4 m5 E1 E2 E3 E4 E5 Hsm.
  destruct (new_edge m o t 0%N Hr) as (m1' & m2' & m3' & m4' & m5' & F1 & F2 & F3 & F4 & F5 & R5 & G & Ae & Oe & Te & Re).
  assert (m1' = m1) as -> by congruence. assert (m2' = m2) as -> by congruence. assert (m3' = m3) as -> by congruence.
  assert (m4' = m4) as -> by congruence. assert (m5' = m5) as -> by congruence. clear F1 F2 F3 F4 F5 E1 E2 E3 E4 E5.
  pose proof (gr_num _ _ _ G D0) as N0. rewrite decide_False in N0 by done.
  pose proof (gr_num _ _ _ G D1) as N1. rewrite decide_True in N1 by done.
  pose proof (gr_num _ _ _ G D2) as N2. rewrite decide_False in N2 by done.
  pose proof (active_num m D2 c Hr Ha) as Hc.
  destruct (split_view m5 c [A; B] R5) as (m6 & E6 & R6 & Rp & A1 & K1 & K0 & Coo & Rrow & End); [|done| |].
  { unfold active. rewrite (gr_act _ _ _ G) by done. done. }
  { eapply Forall_impl; [exact Hs|]. cbn. intros s [X Y]. rewrite N0, N1, Nat.add_0_r. split; [done|].
    by replace (num D1 m + 1) with (S (num D1 m)) by lia. }
  cbn [length] in E6. rewrite seq2, N2, Nat.add_0_r in E6.
  set (f := num D1 m) in *.
  pose proof (rp_n2 _ _ _ _ Rp) as K2. cbn in K2.
  assert (Rf : RelRow R12 f m6 = Ok [UINT_MAX; UINT_MAX]).
  { rewrite Rrow, Re. f_equal. unfold redirect. destruct (list_find _ _) as [[j row]|]; [|done].
    rewrite !fmap_cons. assert (X : (UINT_MAX =? N.of_nat c)%N = false) by (apply N.eqb_neq; lia). by rewrite X. }
  destruct (rr_of m6 R6) as [a6 Ha6]. pose proof (rr_aeq _ _ _ Ha6 (amap_keep a6)) as Hk6.
  assert (Hf6 : f < num D1 m6) by lia.
  destruct (lookup_lt_is_Some_2 (am_cells a6 D1) f) as [xf Hxf].
  { pose proof (g_num _ _ (proj2 Ha6) D1) as X. unfold anum in X. lia. }
  assert (Lf : ac_rel xf R12 = [UINT_MAX; UINT_MAX]).
  { rewrite (g_row _ _ (proj2 Ha6)) in Rf. unfold look in Rf. cbn [src] in Rf. rewrite Hxf in Rf. by injection Rf. }
  destruct (does_Insert keep a6 R12 f 0 (N.of_nat (S (num D2 m))) xf Hxf) with (m := m6) as (m7 & E7 & H7).
  { cbn. unfold keep. rewrite Lf. cbn. lia. }
  { pose proof (g_num _ _ (proj2 Ha6) D2) as X. unfold tgt. rewrite <- X. lia. }
  { done. }
  set (K := also keep (src R12) f (fun y => with_row R12 (<[0:=N.of_nat (S (num D2 m))]> (ac_rel y R12)) y)) in *.
  destruct (does_Insert K a6 R12 f 1 (N.of_nat (num D2 m)) xf Hxf) with (m := m7) as (m' & E8 & H8); [| |exact H7|].
  { unfold K. unfold also. rewrite decide_True by done. cbn. unfold upd_fun. rewrite decide_True by done. unfold keep. rewrite Lf. cbn. lia. }
  { pose proof (g_num _ _ (proj2 Ha6) D2) as X. unfold tgt. rewrite <- X. lia. }
  exists m6, m7, m'. split; [done|]. split; [done|]. split; [done|]. split; [apply H8|].
  destruct (insert_ok m6 R12 f 0 _ m7 R6 E7) as ((old & O1 & _ & _ & O2) & B7 & V7 & _).
  destruct (insert_ok m7 R12 f 1 _ m' (proj1 H7) E8) as ((old' & O3 & _ & _ & O4) & B8 & V8 & _).
  rewrite Rf in O1. injection O1 as <-. rewrite O2 in O3. injection O3 as <-. cbn in O4.
  destruct V7 as (V7n & V7c & V7e & V7a & V7u & _). destruct V8 as (V8n & V8c & V8e & V8a & V8u & _).
  assert (Rn : forall r i, (r, i) <> (R12, f) -> RelRow r i m' = RelRow r i m6).
  { intros r i Hne. by rewrite B8, B7. }
  assert (An : forall d i, active d m' i = active d m6 i).
  { intros d i. unfold active. destruct (V8a d i) as [_ ->]. by destruct (V7a d i) as [_ ->]. }
  assert (Nn : forall d, num d m' = num d m6) by (intros d; by rewrite V8n, V7n).
  assert (En : forall i, Cell1DOrigin i m' = Cell1DOrigin i m5 /\ Cell1DEnd i m' = Cell1DEnd i m5).
  { intros i. destruct (V8e i) as [-> ->]. destruct (V7e i) as [-> ->]. apply End. }
  assert (Un : forall d i, HasUpdateds d i m' = HasUpdateds d i m6) by (intros d i; by rewrite V8u, V7u).
  assert (Coo' : forall i, Cell0DCoordinates i m' = Cell0DCoordinates i m).
  { intros i. rewrite V8c, V7c, Coo. destruct (decide (i < num D0 m)) as [Hi|Hi]; [by apply (gr_coord _ _ _ G)|].
    destruct (rr_of m Hr) as [a0 [_ Ra]]. destruct (rr_of m5 R5) as [a' [_ Ra']].
    rewrite (g_coord _ _ Ra), (g_coord _ _ Ra'). unfold look.
    pose proof (g_num _ _ Ra D0). pose proof (g_num _ _ Ra' D0). unfold anum in *.
    rewrite (lookup_ge_None_2 (am_cells a0 D0)) by lia. by rewrite (lookup_ge_None_2 (am_cells a' D0)) by lia. }
  destruct Rp as [P1 P2 P3 P4 P5 P6 P7 P8 P9 P10 P11 P12 P13 P14 P15 P16].
  assert (An5 : forall d i, i < num d m -> active d m5 i = active d m i).
  { intros d i Hi. unfold active. by rewrite (gr_act _ _ _ G). }
  cbn [view_of vn va ve vp vr vu] in *.
  split_and!.
  - split; cbn [view_of vn va ve vp vr vu].
    + rewrite Nn. lia.
    + rewrite Nn. lia.
    + rewrite Nn. cbn. lia.
    + intros i. rewrite An, P4. destruct (decide (N.to_nat i < num D0 m)) as [Hi|Hi]; [by apply An5|].
      rewrite !active_ge; [done|done|lia|done|lia].
    + intros i Hi. rewrite An. apply P5. rewrite An5; [done|]. by apply active_num in Hi.
    + intros i Hi. rewrite Nn. apply P6. by rewrite <- An.
    + intros i Hi. rewrite An, P7 by lia. apply An5. lia.
    + intros i. rewrite An, P8, Nn. case_decide; [done|]. rewrite N2, Nat.add_0_r. case_decide; [done|].
      destruct (decide (N.to_nat i < num D2 m)) as [Hi|Hi]; [by apply An5|].
      rewrite !active_ge; [done|done|lia|done|lia].
    + intros i Hi. rewrite Nn. apply P9. by rewrite <- An.
    + intros i Hi. destruct (En (N.to_nat i)) as [-> ->]. by destruct (gr_ends _ _ _ G (N.to_nat i)) as [-> ->]; [lia|].
    + intros i Hi. rewrite !Rn by done. rewrite P11 by lia. by rewrite !(gr_row _ _ _ G) by (cbn; lia).
    + intros j row Hj. rewrite !Rn by done. rewrite <- (P12 j row Hj). by rewrite N2, Nat.add_0_r.
    + intros i l Hi Hl. rewrite Rn by (intros [= X]; lia). rewrite (P13 i l); [|lia|].
      * by rewrite N2, Nat.add_0_r.
      * by rewrite (gr_row _ _ _ G) by (cbn; lia).
    + intros i Hi Hne. rewrite Un. rewrite P14 by lia. by rewrite (gr_upd _ _ _ G) by lia.
    + by rewrite Un.
    + intros i Hi. rewrite Un. apply P16. rewrite Nn in Hi. lia.
  - rewrite Nat2N.id, An. specialize (A1 (N.of_nat f)). cbn in A1. rewrite Nat2N.id in A1. rewrite A1. unfold active. by rewrite Ae.
  - rewrite Nat2N.id. destruct (En f) as [-> ->]. by rewrite Oe, Te.
  - rewrite Nat2N.id. rewrite O4. done.
  - rewrite Nn. lia.
  - rewrite Nn. lia.
  - done.
Qed.
