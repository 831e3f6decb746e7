(** * Undoing the split of an edge. *)
From Coq Require Import QArith Qcanon.
From Verif Require Import Base BaseProof CsrModel MeshModel MeshSpec MeshRep MeshHist MeshProof8 MeshProof9 MeshProofA MeshProofB MeshProofF MeshProg
  UtilModel UtilSpec UtilProofD UtilProofH RefineModel RefineSpec RefineView RefineSplit RefineReplace RefineStep RefineStep2.
From Coq Require Import ZifyBool ZifyNat ZifyN.
Local Open Scope nat_scope.

Definition below (n0 n1 : nat) (l : list (N * N)) : Prop := forall v e, (v, e) ∈ l -> (v < N.of_nat n0)%N /\ (e < N.of_nat n1)%N.

(** Only the first [n0] vertices and [n1] edges are left. *)
Record cutback (n0 n1 : nat) (m m' : mesh) : Prop := {
  cb_reach : reachable m';
  cb_num0 : num D0 m' = n0;
  cb_num1 : num D1 m' = n1;
  cb_num2 : num D2 m' = num D2 m;
  cb_le0 : n0 <= num D0 m;
  cb_le1 : n1 <= num D1 m;
  cb_act0 : forall i, i < n0 -> active D0 m' i = active D0 m i;
  cb_act1 : forall i, i < n1 -> active D1 m' i = active D1 m i;
  cb_act2 : forall i, active D2 m' i = active D2 m i;
  cb_row : forall i, i < n1 -> RelRow R12 i m' = RelRow R12 i m;
  cb_poly : forall i l, polygon m i l -> below n0 n1 l -> polygon m' i l;
  cb_ends : forall i o t, i < n1 -> Cell1DOrigin i m = Ok o -> Cell1DEnd i m = Ok t -> (o < N.of_nat n0)%N -> (t < N.of_nat n0)%N ->
    Cell1DOrigin i m' = Ok o /\ Cell1DEnd i m' = Ok t;
  cb_upd : forall i, HasUpdateds D2 i m' = HasUpdateds D2 i m;
  cb_coord : forall i, i < n0 -> Cell0DCoordinates i m' = Cell0DCoordinates i m
}.

Lemma below_mono n0 n1 n0' n1' l : n0 <= n0' -> n1 <= n1' -> below n0 n1 l -> below n0' n1' l.
Proof. intros H0 H1 H v e M. apply H in M. lia. Qed.

Lemma cutback_trans n0 n1 n0' n1' m m' m'' : cutback n0 n1 m m' -> cutback n0' n1' m' m'' -> cutback n0' n1' m m''.
Proof.
  intros A B. pose proof (cb_le0 _ _ _ _ B) as L0. pose proof (cb_le1 _ _ _ _ B) as L1. rewrite (cb_num0 _ _ _ _ A) in L0. rewrite (cb_num1 _ _ _ _ A) in L1.
  split.
  - apply (cb_reach _ _ _ _ B).
  - apply (cb_num0 _ _ _ _ B).
  - apply (cb_num1 _ _ _ _ B).
  - rewrite (cb_num2 _ _ _ _ B). apply (cb_num2 _ _ _ _ A).
  - pose proof (cb_le0 _ _ _ _ A). lia.
  - pose proof (cb_le1 _ _ _ _ A). lia.
  - intros i Hi. rewrite (cb_act0 _ _ _ _ B) by done. apply (cb_act0 _ _ _ _ A). lia.
  - intros i Hi. rewrite (cb_act1 _ _ _ _ B) by done. apply (cb_act1 _ _ _ _ A). lia.
  - intros i. rewrite (cb_act2 _ _ _ _ B). apply (cb_act2 _ _ _ _ A).
  - intros i Hi. rewrite (cb_row _ _ _ _ B) by done. apply (cb_row _ _ _ _ A). lia.
  - intros i l H Hl. apply (cb_poly _ _ _ _ B); [|done]. apply (cb_poly _ _ _ _ A); [done|]. by eapply below_mono; [| |exact Hl].
  - intros i o t Hi Ho Ht Lo Lt. apply (cb_ends _ _ _ _ B); [done| | |done|done]; apply (cb_ends _ _ _ _ A i o t); (done || lia).
  - intros i. rewrite (cb_upd _ _ _ _ B). apply (cb_upd _ _ _ _ A).
  - intros i Hi. rewrite (cb_coord _ _ _ _ B) by done. apply (cb_coord _ _ _ _ A). lia.
Qed.

Lemma cutback_refl m : reachable m -> cutback (num D0 m) (num D1 m) m m.
Proof. intros R. by split. Qed.

Lemma moved_same d i d' j : d' <> d \/ j < i -> moved d i d' j = j.
Proof.
  intros H. unfold moved. case_decide as E; [|done]. unfold new_number. destruct (Nat.ltb_spec j i); [done|]. destruct H; [done|lia].
Qed.

(** The last vertex or the last edge is removed. *)
Lemma remove_last m d i : reachable m -> num d m = S i -> d = D0 \/ d = D1 ->
  exists m', CellRemove d i m = Ok m' /\ cutback (num D0 m - if decide (d = D0) then 1 else 0) (num D1 m - if decide (d = D1) then 1 else 0) m m'.
Proof.
  intros R Hn Hd. destruct (rr_of m R) as [a Ra]. pose proof (proj2 Ra) as Rp.
  destruct (rr_step m a (ORemove d i) (aremove d i a) Ra) as (m' & E & Ra').
  { done. }
  { cbn. rewrite decide_True; [done|]. rewrite <- (g_num _ _ Rp). lia. }
  cbn in E. exists m'. split; [done|]. pose proof (proj1 Ra') as R'.
  destruct (remove_num m d i m' R E) as (_ & Nd & Ne).
  assert (N0 : num D0 m' = num D0 m - if decide (d = D0) then 1 else 0).
  { destruct (decide (d = D0)) as [->|H]; [done|]. rewrite Ne by congruence. lia. }
  assert (N1 : num D1 m' = num D1 m - if decide (d = D1) then 1 else 0).
  { destruct (decide (d = D1)) as [->|H]; [done|]. rewrite Ne by congruence. lia. }
  assert (N2 : num D2 m' = num D2 m) by (apply Ne; by destruct Hd; subst).
  assert (Lt : forall d' j, j < num d' m' -> d' <> d \/ j < i).
  { intros d' j Hj. destruct (decide (d' = d)) as [->|H]; [right|by left]. lia. }
  assert (Act : forall d' j, j < num d' m' -> active d' m' j = active d' m j).
  { intros d' j Hj. apply Lt in Hj. unfold active. destruct (remove_attributes m d i m' d' j R E) as (_ & H & _); [destruct Hj; [by left|right; lia]|].
    rewrite (moved_same d i d' j Hj) in H. by rewrite H. }
  assert (Dn : D2 <> d) by (by destruct Hd; subst).
  split; [done|done|done|done|lia|lia|..].
  - intros j Hj. apply Act. by rewrite N0.
  - intros j Hj. apply Act. by rewrite N1.
  - intros j. destruct (decide (j < num D2 m')) as [L|L]; [by apply Act|]. by rewrite (active_ge m D2 j R), (active_ge m' D2 j R') by lia.
  - intros j Hj. rewrite <- N1 in Hj. pose proof (Lt D1 j Hj) as Hj'.
    destruct (RelRow R12 j m) as [l| | | |] eqn:El.
    2-5: exfalso; rewrite (g_row _ _ Rp) in El; unfold look in El; cbn [src] in El; destruct (am_cells a D1 !! j) as [y|] eqn:Ey; [done|];
         apply lookup_ge_None in Ey; assert (num D1 m' <= num D1 m) by lia; rewrite (g_num _ _ Rp) in *; unfold anum in *; lia.
    destruct (remove_row_obs m d i m' R12 j R E) with (l := l) as (l' & E' & Len & H); [cbn [src]; destruct Hj'; [by left|right; lia]|done|].
    cbn [src] in E'. rewrite (moved_same d i D1 j Hj') in E'. rewrite E'. f_equal. apply list_eq. intros k.
    destruct (l !! k) as [v|] eqn:Ek.
    + destruct (H k v Ek) as (H1 & _). apply H1. left. cbn. done.
    + apply lookup_ge_None. apply lookup_ge_None in Ek. lia.
  - intros j l [Pv Pe] Hb. assert (Hj : D2 <> d \/ j <> i) by (by left).
    split.
    + destruct (remove_row_obs m d i m' V2 j R E) with (l := l.*1) as (l' & E' & Len & H); [exact Hj|done|].
      cbn [src] in E'. rewrite (moved_same d i D2 j) in E' by (by left). rewrite E'. f_equal. apply list_eq. intros k.
      destruct (l.*1 !! k) as [v|] eqn:Ek; [|apply lookup_ge_None; apply lookup_ge_None in Ek; lia].
      destruct (H k v Ek) as (H1 & H2 & _). cbn [tgt] in H1, H2. destruct (decide (d = D0)) as [->|Hd0].
      * assert ((v < N.of_nat i)%N).
        { apply elem_of_list_lookup_2 in Ek. apply elem_of_list_fmap in Ek as ([v' e'] & -> & M). apply Hb in M as [M _]. cbn. rewrite Hn in M. lia. }
        rewrite H2; [|done|done|lia]. f_equal. unfold new_numberN. by destruct (N.ltb_spec v (N.of_nat i)); [|lia].
      * apply H1. left. congruence.
    + destruct (remove_row_obs m d i m' E2 j R E) with (l := l.*2) as (l' & E' & Len & H); [exact Hj|done|].
      cbn [src] in E'. rewrite (moved_same d i D2 j) in E' by (by left). rewrite E'. f_equal. apply list_eq. intros k.
      destruct (l.*2 !! k) as [v|] eqn:Ek; [|apply lookup_ge_None; apply lookup_ge_None in Ek; lia].
      destruct (H k v Ek) as (H1 & H2 & _). cbn [tgt] in H1, H2. destruct (decide (d = D1)) as [->|Hd0].
      * assert ((v < N.of_nat i)%N).
        { apply elem_of_list_lookup_2 in Ek. apply elem_of_list_fmap in Ek as ([v' e'] & -> & M). apply Hb in M as [_ M]. cbn. rewrite Hn in M. lia. }
        rewrite H2; [|done|done|lia]. f_equal. unfold new_numberN. by destruct (N.ltb_spec v (N.of_nat i)); [|lia].
      * apply H1. left. congruence.
  - intros j o t Hj Ho Ht Lo Lt'. rewrite <- N1 in Hj. pose proof (Lt D1 j Hj) as Hj'.
    destruct (remove_extremes m d i m' j R E) as [H1 H2]; [destruct Hj'; [left; congruence|right; lia]|].
    rewrite (moved_same d i D1 j Hj') in H1, H2. rewrite Ho in H1. rewrite Ht in H2. rewrite H1, H2. cbn.
    destruct (decide (d = D0)) as [->|Hd0]; [|done]. unfold new_numberN. rewrite Hn in Lo, Lt'. rewrite !(decide_False (P := _ = N.of_nat i)) by lia.
    destruct (N.ltb_spec o (N.of_nat i)); [|lia]. destruct (N.ltb_spec t (N.of_nat i)); [|lia]. done.
  - intros j. destruct (decide (j < num D2 m)) as [L|L].
    + apply updated_same; [done|done|done|lia|]. intros q.
      pose proof (remove_replaced m d i m' D2 j q R E (or_introl Dn) (or_introl Dn)) as X. by rewrite !moved_same in X by (by left).
    + unfold HasUpdateds. rewrite N2. by destruct (Nat.ltb_spec j (num D2 m)).
  - intros j Hj. rewrite <- N0 in Hj. pose proof (Lt D0 j Hj) as Hj'.
    destruct (remove_attributes m d i m' D0 j R E) as (_ & _ & H & _); [destruct Hj'; [by left|right; lia]|].
    rewrite (moved_same d i D0 j Hj') in H. by apply H.
Qed.

(** An edge is made active again. *)
Lemma set_active m e : reachable m -> e < num D1 m ->
  exists m', SetState D1 e true m = Ok m' /\ reachable m' /\ (forall d, num d m' = num d m) /\
    (forall d i, active d m' i = if decide (d = D1 /\ i = e) then true else active d m i) /\
    (forall r i, RelRow r i m' = RelRow r i m) /\ (forall i, Cell1DOrigin i m' = Cell1DOrigin i m) /\ (forall i, Cell1DEnd i m' = Cell1DEnd i m) /\
    (forall d i, HasUpdateds d i m' = HasUpdateds d i m) /\ (forall i, Cell0DCoordinates i m' = Cell0DCoordinates i m).
Proof.
  intros R He. destruct (rr_of m R) as [a Ra]. pose proof (proj2 Ra) as Rp. rewrite (g_num _ _ Rp) in He.
  destruct (does_State keep a D1 e true He m (rr_aeq _ _ _ Ra (amap_keep a))) as (m' & E & [R' Rp']).
  exists m'. split; [done|]. split; [done|].
  assert (L : forall B d i (f : acell -> B), (forall x, f (with_act true x) = f x) -> look (amap (also keep D1 e (with_act true)) a) d i f = look a d i f).
  { intros B d i f Hf. unfold look. rewrite amap_lookup. destruct (am_cells a d !! i) as [x|]; [|done]. cbn. unfold also. case_decide; [by rewrite Hf|done]. }
  split_and!.
  - intros d. by rewrite (g_num _ _ Rp), (g_num _ _ Rp'), amap_num.
  - intros d i. unfold active. rewrite (g_active _ _ Rp), (g_active _ _ Rp'). unfold look. rewrite amap_lookup.
    case_decide as D.
    + destruct D as [-> ->]. destruct (lookup_lt_is_Some_2 (am_cells a D1) e He) as [x ->]. cbn. unfold also. by rewrite decide_True.
    + destruct (am_cells a d !! i) as [x|]; [|done]. cbn. unfold also. by rewrite decide_False.
  - intros r i. rewrite (g_row _ _ Rp), (g_row _ _ Rp'). by apply L.
  - intros i. rewrite (g_origin _ _ Rp), (g_origin _ _ Rp'). by apply L.
  - intros i. rewrite (g_end _ _ Rp), (g_end _ _ Rp'). by apply L.
  - intros d i. rewrite (g_hasupdateds _ _ Rp), (g_hasupdateds _ _ Rp'). by apply L.
  - intros i. rewrite (g_coord _ _ Rp), (g_coord _ _ Rp'). by apply L.
Qed.

(** ** Meshes with the same active cells *)
Record same (V V' : view) : Prop := {
  sa_n : forall d, d <> D3 -> vn V' d = vn V d;
  sa_va : forall d i, d <> D3 -> va V' d i = va V d i;
  sa_lt3 : forall i, va V' D3 i = true -> (i < vn V' D3)%N;
  sa_ve : forall i, va V D1 i = true -> ve V' i = ve V i;
  sa_vp : forall i, va V D2 i = true -> vp V' i = vp V i;
  sa_vr : forall i, va V D1 i = true -> vr V' i = vr V i;
  sa_vu : forall i, va V D2 i = true -> vu V' i = vu V i
}.

Lemma same_inv V V' : inv ∅ V -> same V V' -> inv ∅ V'.
Proof.
  intros I H.
  assert (Sl : forall p x, slot ∅ V p x -> slot ∅ V' p x).
  { intros p x [A B]. split.
    - intros c l Hc Hl. rewrite (sa_va _ _ H) in Hc by done. rewrite (sa_vp _ _ H) in Hl by done. by apply A.
    - destruct B as [B|(l & Hc & Hl & M)]; [by left|right]. exists l. rewrite (sa_va _ _ H) by done. by rewrite (sa_vp _ _ H). }
  split.
  - intros d i. destruct (decide (d = D3)) as [->|Hd]; [apply (sa_lt3 _ _ H)|]. rewrite (sa_va _ _ H), (sa_n _ _ H) by done. apply (i_lt _ _ I).
  - rewrite (sa_n _ _ H) by done. apply (i_small _ _ I).
  - intros c Hc. rewrite (sa_va _ _ H) in Hc by done. destruct (i_poly _ _ I c Hc) as (U & l & Hl & G).
    split; [by rewrite (sa_vu _ _ H)|]. exists l. split; [by rewrite (sa_vp _ _ H)|].
    eapply good_mono; [| | |exact G].
    + intros v. by rewrite (sa_va _ _ H).
    + intros v e _. by rewrite (sa_va _ _ H).
    + intros v e M. apply (sa_ve _ _ H). by apply (gd_act _ _ G v e).
  - intros e He. rewrite (sa_va _ _ H) in He by done. destruct (i_edge _ _ I e He) as (a & b & r & l & E1 & E2' & S1' & S2').
    exists a, b, r, l. rewrite (sa_ve _ _ H), (sa_vr _ _ H) by done. split_and!; [done|done|by apply Sl|by apply Sl].
  - intros e x Hx. by rewrite lookup_empty in Hx.
Qed.

(** ** Edges have been split *)
Record over (E : list N) (V V' : view) : Prop := {
  ov_n0 : (vn V D0 <= vn V' D0)%N;
  ov_n1 : (vn V D1 <= vn V' D1)%N;
  ov_n2 : vn V' D2 = vn V D2;
  ov_va0 : forall i, (i < vn V D0)%N -> va V' D0 i = va V D0 i;
  ov_va1 : forall i, (i < vn V D1)%N -> i ∉ E -> va V' D1 i = va V D1 i;
  ov_va2 : forall i, va V' D2 i = va V D2 i;
  ov_ve : forall i, (i < vn V D1)%N -> ve V' i = ve V i;
  ov_vr : forall i, (i < vn V D1)%N -> vr V' i = vr V i;
  ov_vp : forall i, vp V' i = vp V i;
  ov_vu : forall i, vu V' i = vu V i
}.

Lemma over_split e w s0 s1 a b V V' : edge_split e w s0 s1 a b V V' -> over [e] V V'.
Proof.
  intros H. split.
  - rewrite (es_n0 _ _ _ _ _ _ _ _ H). lia.
  - rewrite (es_n1 _ _ _ _ _ _ _ _ H). lia.
  - apply (es_n2 _ _ _ _ _ _ _ _ H).
  - intros i Hi. rewrite (es_va0 _ _ _ _ _ _ _ _ H). rewrite decide_False; [done|]. rewrite (es_w _ _ _ _ _ _ _ _ H). lia.
  - intros i Hi Hn. rewrite (es_va1 _ _ _ _ _ _ _ _ H). rewrite elem_of_list_singleton in Hn. rewrite decide_False by done.
    rewrite decide_False; [done|]. rewrite (es_s0 _ _ _ _ _ _ _ _ H), (es_s1 _ _ _ _ _ _ _ _ H). lia.
  - apply (es_va2 _ _ _ _ _ _ _ _ H).
  - intros i Hi. apply (es_ve _ _ _ _ _ _ _ _ H); [rewrite (es_s0 _ _ _ _ _ _ _ _ H)|rewrite (es_s1 _ _ _ _ _ _ _ _ H)]; lia.
  - intros i Hi. apply (es_vr _ _ _ _ _ _ _ _ H); [rewrite (es_s0 _ _ _ _ _ _ _ _ H)|rewrite (es_s1 _ _ _ _ _ _ _ _ H)]; lia.
  - apply (es_vp _ _ _ _ _ _ _ _ H).
  - apply (es_vu _ _ _ _ _ _ _ _ H).
Qed.

Lemma over_trans E E' V V' V'' : over E V V' -> over E' V' V'' -> over (E ++ E') V V''.
Proof.
  intros A B. pose proof (ov_n0 _ _ _ A). pose proof (ov_n1 _ _ _ A). pose proof (ov_n0 _ _ _ B). pose proof (ov_n1 _ _ _ B). split.
  - lia.
  - lia.
  - rewrite (ov_n2 _ _ _ B). apply (ov_n2 _ _ _ A).
  - intros i Hi. rewrite (ov_va0 _ _ _ B) by lia. by apply (ov_va0 _ _ _ A).
  - intros i Hi [N1 N2]%not_elem_of_app. rewrite (ov_va1 _ _ _ B) by (done || lia). by apply (ov_va1 _ _ _ A).
  - intros i. rewrite (ov_va2 _ _ _ B). apply (ov_va2 _ _ _ A).
  - intros i Hi. rewrite (ov_ve _ _ _ B) by lia. by apply (ov_ve _ _ _ A).
  - intros i Hi. rewrite (ov_vr _ _ _ B) by lia. by apply (ov_vr _ _ _ A).
  - intros i. rewrite (ov_vp _ _ _ B). apply (ov_vp _ _ _ A).
  - intros i. rewrite (ov_vu _ _ _ B). apply (ov_vu _ _ _ A).
Qed.

(** The new cells have been removed, the edges of [E] are not active yet. *)
Record back (E : list N) (V V' : view) : Prop := {
  bk_n : forall d, d <> D3 -> vn V' d = vn V d;
  bk_va : forall d i, d <> D3 -> d <> D1 \/ i ∉ E -> va V' d i = va V d i;
  bk_lt3 : forall i, va V' D3 i = true -> (i < vn V' D3)%N;
  bk_ve : forall i, va V D1 i = true -> ve V' i = ve V i;
  bk_vp : forall i, va V D2 i = true -> vp V' i = vp V i;
  bk_vr : forall i, va V D1 i = true -> vr V' i = vr V i;
  bk_vu : forall i, va V D2 i = true -> vu V' i = vu V i
}.

Lemma back_same V V' : back [] V V' -> same V V'.
Proof. intros []. split; try done. intros d i Hd. apply bk_va0; [done|]. right. by apply not_elem_of_nil. Qed.

Lemma cut_back E m mk mc : reachable m -> inv ∅ (view_of m) -> ends (view_of m) -> over E (view_of m) (view_of mk) -> cutback (num D0 m) (num D1 m) mk mc ->
  back E (view_of m) (view_of mc).
Proof.
  intros R I En O C. split.
  - intros d Hd. destruct d; cbn; [|..|done].
    + by rewrite (cb_num0 _ _ _ _ C).
    + by rewrite (cb_num1 _ _ _ _ C).
    + rewrite (cb_num2 _ _ _ _ C). exact (ov_n2 _ _ _ O).
  - intros d i Hd Hi. cbn. destruct d; [| | |done].
    + destruct (decide (N.to_nat i < num D0 m)) as [L|L].
      * rewrite (cb_act0 _ _ _ _ C) by done. apply (ov_va0 _ _ _ O). cbn. lia.
      * rewrite !active_ge; try done; [lia|apply (cb_reach _ _ _ _ C)|]. rewrite (cb_num0 _ _ _ _ C). lia.
    + destruct Hi as [?|Hi]; [done|]. destruct (decide (N.to_nat i < num D1 m)) as [L|L].
      * rewrite (cb_act1 _ _ _ _ C) by done. apply (ov_va1 _ _ _ O); [cbn; lia|done].
      * rewrite !active_ge; try done; [lia|apply (cb_reach _ _ _ _ C)|]. rewrite (cb_num1 _ _ _ _ C). lia.
    + rewrite (cb_act2 _ _ _ _ C). apply (ov_va2 _ _ _ O).
  - intros i Hi. cbn in *. apply active_num in Hi; [lia|apply (cb_reach _ _ _ _ C)].
  - intros i Hi. destruct (i_edge _ _ I i Hi) as (a & b & r & l & E1 & _ & S1' & S2').
    assert (Hlt : (i < vn (view_of m) D1)%N) by (by apply (i_lt _ _ I)).
    destruct (En i a b Hi E1) as [Ea Eb]. rewrite E1. apply ve_ends. rewrite <- (ov_ve _ _ _ O i Hlt) in E1. apply ve_ends in E1 as [Eo Et].
    apply (cb_ends _ _ _ _ C); [cbn in Hlt; lia|done|done|..].
    + apply (i_lt _ _ I D0) in Ea. exact Ea.
    + apply (i_lt _ _ I D0) in Eb. exact Eb.
  - intros i Hi. destruct (i_poly _ _ I i Hi) as (_ & l & Hl & G). rewrite Hl. apply vp_polygon. apply (cb_poly _ _ _ _ C).
    + apply vp_polygon. by rewrite (ov_vp _ _ _ O).
    + rewrite virt_none in G by (intros; apply lookup_empty). intros v e M. apply (gd_act _ _ G) in M as [M1 M2].
      apply (i_lt _ _ I D0) in M1. apply (i_lt _ _ I D1) in M2. by cbn in *.
  - intros i Hi. apply (i_lt _ _ I) in Hi. rewrite <- (ov_vr _ _ _ O i Hi). cbn in *. by rewrite (cb_row _ _ _ _ C) by lia.
  - intros i Hi. rewrite <- (ov_vu _ _ _ O i). cbn. by rewrite (cb_upd _ _ _ _ C).
Qed.

Lemma back_set e E m m1 : reachable m1 -> va (view_of m) D1 (N.of_nat e) = true -> back (N.of_nat e :: E) (view_of m) (view_of m1) ->
  exists m', SetState D1 e true m1 = Ok m' /\ reachable m' /\ back E (view_of m) (view_of m') /\
    (forall i, Cell0DCoordinates i m' = Cell0DCoordinates i m1).
Proof.
  intros R He B. pose proof (bk_n _ _ _ B D1 ltac:(done)) as Nn.
  destruct (decide (e < num D1 m1)) as [Hlt|Hlt].
  2:{ exfalso. cbn in Nn, He. rewrite Nat2N.id in He. unfold active, IsActive in He. destruct (Nat.ltb_spec e (num D1 m)) as [L|L]; [lia|]. by cbn in He. }
  destruct (set_active m1 e R Hlt) as (m' & E' & R' & Sn & Sa & Sr & So & St & Su & Sc). exists m'. split_and!; [done|done| |done].
  split.
  - intros d Hd. cbn. rewrite Sn. by apply (bk_n _ _ _ B).
  - intros d i Hd Hi. cbn. rewrite Sa. case_decide as D.
    + destruct D as [-> D]. assert (i = N.of_nat e) as -> by lia. symmetry. exact He.
    + apply (bk_va _ _ _ B); [done|]. destruct Hi as [Hi|Hi]; [by left|]. destruct (decide (d = D1)) as [->|]; [right|by left].
      apply not_elem_of_cons. split; [|done]. intros ->. apply D. split; [done|lia].
  - intros i. cbn. rewrite Sa, Sn. rewrite decide_False by (by intros [? _]). apply (bk_lt3 _ _ _ B).
  - intros i Hi. cbn. rewrite So, St. by apply (bk_ve _ _ _ B).
  - intros i Hi. cbn. rewrite !Sr. by apply (bk_vp _ _ _ B).
  - intros i Hi. cbn. rewrite !Sr. by apply (bk_vr _ _ _ B).
  - intros i Hi. cbn. rewrite !Su. by apply (bk_vu _ _ _ B).
Qed.

(** ** The two ways to undo *)
Section undo.
Context (m : mesh) (R : reachable m) (I : inv ∅ (view_of m)) (En : ends (view_of m)).

Lemma undo_one e o t m1 :
  reachable m1 -> edge_split (N.of_nat e) (N.of_nat (num D0 m)) (N.of_nat (num D1 m)) (N.of_nat (S (num D1 m))) o t (view_of m) (view_of m1) ->
  exists m', remove_split e (num D0 m, [num D1 m; S (num D1 m)]) m1 = Ok m' /\ reachable m' /\ same (view_of m) (view_of m') /\
    (forall i, i < num D0 m -> Cell0DCoordinates i m' = Cell0DCoordinates i m1).
Proof.
  intros R1 Es. pose proof (es_n0 _ _ _ _ _ _ _ _ Es) as N0. pose proof (es_n1 _ _ _ _ _ _ _ _ Es) as N1. cbn in N0, N1.
  destruct (remove_last m1 D1 (S (num D1 m)) R1) as (m2 & E2 & C2); [lia|by right|]. rewrite decide_False, decide_True in C2 by done.
  destruct (remove_last m2 D1 (num D1 m)) as (m3 & E3 & C3); [apply (cb_reach _ _ _ _ C2)|rewrite (cb_num1 _ _ _ _ C2); lia|by right|].
  rewrite decide_False, decide_True in C3 by done.
  destruct (remove_last m3 D0 (num D0 m)) as (m4 & E4 & C4); [apply (cb_reach _ _ _ _ C3)|rewrite (cb_num0 _ _ _ _ C3), (cb_num0 _ _ _ _ C2); lia|by left|].
  rewrite decide_True, decide_False in C4 by done.
  rewrite (cb_num0 _ _ _ _ C3), (cb_num1 _ _ _ _ C3), (cb_num0 _ _ _ _ C2), (cb_num1 _ _ _ _ C2) in C4.
  pose proof (cutback_trans _ _ _ _ _ _ _ C2 (cutback_trans _ _ _ _ _ _ _ C3 C4)) as C.
  replace (num D0 m1 - 0 - 0 - 1) with (num D0 m) in C by lia. replace (num D1 m1 - 1 - 1 - 0) with (num D1 m) in C by lia.
  pose proof (cut_back _ m m1 m4 R I En (over_split _ _ _ _ _ _ _ _ Es) C) as B.
  destruct (back_set e [] m m4) as (m' & E5 & R' & B' & Co); [apply (cb_reach _ _ _ _ C)|apply (es_act _ _ _ _ _ _ _ _ Es)|done|].
  exists m'. split_and!; [|done|by apply back_same|].
  - unfold remove_split. cbn [fst snd]. rewrite (vget_Ok [num D1 m; S (num D1 m)] 1 (S (num D1 m)) eq_refl). cbn [mbind outcome_bind]. rewrite E2. cbn [mbind outcome_bind].
    rewrite (vget_Ok [num D1 m; S (num D1 m)] 0 (num D1 m) eq_refl). cbn [mbind outcome_bind]. rewrite E3. cbn [mbind outcome_bind]. rewrite E4. cbn [mbind outcome_bind]. done.
  - intros i Hi. rewrite Co. by apply (cb_coord _ _ _ _ C).
Qed.

Lemma undo_two e1 e2 o1 t1 o2 t2 m1 m2 :
  reachable m2 -> va (view_of m) D1 (N.of_nat e2) = true ->
  edge_split (N.of_nat e1) (N.of_nat (num D0 m)) (N.of_nat (num D1 m)) (N.of_nat (S (num D1 m))) o1 t1 (view_of m) (view_of m1) ->
  edge_split (N.of_nat e2) (N.of_nat (num D0 m1)) (N.of_nat (num D1 m1)) (N.of_nat (S (num D1 m1))) o2 t2 (view_of m1) (view_of m2) ->
  exists m3 m4 m5 m6 m7 m8 m9 m', CellRemove D1 (S (num D1 m1)) m2 = Ok m3 /\ CellRemove D1 (num D1 m1) m3 = Ok m4 /\
    CellRemove D1 (S (num D1 m)) m4 = Ok m5 /\ CellRemove D1 (num D1 m) m5 = Ok m6 /\
    CellRemove D0 (num D0 m1) m6 = Ok m7 /\ CellRemove D0 (num D0 m) m7 = Ok m8 /\
    SetState D1 e2 true m8 = Ok m9 /\ SetState D1 e1 true m9 = Ok m' /\ reachable m' /\ same (view_of m) (view_of m') /\
    (forall i, i < num D0 m -> Cell0DCoordinates i m' = Cell0DCoordinates i m2).
Proof.
  intros R2 A2 Es1 Es2. pose proof (es_n0 _ _ _ _ _ _ _ _ Es1) as N0. pose proof (es_n1 _ _ _ _ _ _ _ _ Es1) as N1. cbn in N0, N1.
  pose proof (es_n0 _ _ _ _ _ _ _ _ Es2) as M0. pose proof (es_n1 _ _ _ _ _ _ _ _ Es2) as M1. cbn in M0, M1.
  destruct (remove_last m2 D1 (S (num D1 m1)) R2) as (m3 & E3 & C3); [lia|by right|]. rewrite decide_False, decide_True in C3 by done.
  destruct (remove_last m3 D1 (num D1 m1)) as (m4 & E4 & C4); [apply (cb_reach _ _ _ _ C3)|rewrite (cb_num1 _ _ _ _ C3); lia|by right|].
  rewrite decide_False, decide_True in C4 by done. pose proof (cutback_trans _ _ _ _ _ _ _ C3 C4) as K4.
  rewrite (cb_num0 _ _ _ _ C3), (cb_num1 _ _ _ _ C3) in K4.
  destruct (remove_last m4 D1 (S (num D1 m))) as (m5 & E5 & C5); [apply (cb_reach _ _ _ _ C4)|rewrite (cb_num1 _ _ _ _ K4); lia|by right|].
  rewrite decide_False, decide_True in C5 by done. pose proof (cutback_trans _ _ _ _ _ _ _ K4 C5) as K5.
  rewrite (cb_num0 _ _ _ _ K4), (cb_num1 _ _ _ _ K4) in K5.
  destruct (remove_last m5 D1 (num D1 m)) as (m6 & E6 & C6); [apply (cb_reach _ _ _ _ C5)|rewrite (cb_num1 _ _ _ _ K5); lia|by right|].
  rewrite decide_False, decide_True in C6 by done. pose proof (cutback_trans _ _ _ _ _ _ _ K5 C6) as K6.
  rewrite (cb_num0 _ _ _ _ K5), (cb_num1 _ _ _ _ K5) in K6.
  destruct (remove_last m6 D0 (num D0 m1)) as (m7 & E7 & C7); [apply (cb_reach _ _ _ _ C6)|rewrite (cb_num0 _ _ _ _ K6); lia|by left|].
  rewrite decide_True, decide_False in C7 by done. pose proof (cutback_trans _ _ _ _ _ _ _ K6 C7) as K7.
  rewrite (cb_num0 _ _ _ _ K6), (cb_num1 _ _ _ _ K6) in K7.
  destruct (remove_last m7 D0 (num D0 m)) as (m8 & E8 & C8); [apply (cb_reach _ _ _ _ C7)|rewrite (cb_num0 _ _ _ _ K7); lia|by left|].
  rewrite decide_True, decide_False in C8 by done. pose proof (cutback_trans _ _ _ _ _ _ _ K7 C8) as C.
  rewrite (cb_num0 _ _ _ _ K7), (cb_num1 _ _ _ _ K7) in C.
  match type of C with cutback ?a ?b _ _ => replace a with (num D0 m) in C by lia; replace b with (num D1 m) in C by lia end.
  pose proof (cut_back _ m m2 m8 R I En (over_trans _ _ _ _ _ (over_split _ _ _ _ _ _ _ _ Es1) (over_split _ _ _ _ _ _ _ _ Es2)) C) as B.
  cbn [app] in B.
  assert (B0 : back [N.of_nat e2; N.of_nat e1] (view_of m) (view_of m8)).
  { destruct B. split; try done. intros d i Hd Hi. apply bk_va0; [done|]. destruct Hi as [Hi|Hi]; [by left|right]. set_solver. }
  destruct (back_set e2 [N.of_nat e1] m m8) as (m9 & E9 & R9 & B9 & Co9); [apply (cb_reach _ _ _ _ C)|done|done|].
  destruct (back_set e1 [] m m9) as (m' & E' & R' & B' & Co); [done|apply (es_act _ _ _ _ _ _ _ _ Es1)|done|].
  exists m3, m4, m5, m6, m7, m8, m9, m'. split_and!; try done; [by apply back_same|].
  intros i Hi. rewrite Co, Co9. by apply (cb_coord _ _ _ _ C).
Qed.
End undo.
