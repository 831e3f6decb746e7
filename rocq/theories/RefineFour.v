(** * The four ways to split a polygon. *)
From Coq Require Import QArith Qcanon.
From Verif Require Import Base BaseProof QcTac FillModel GeoModel MapModel PointModel PolyModel CsrModel MeshModel MeshSpec MeshRep MeshHist MeshProof8 MeshProof9 MeshProofF MeshProg
  UtilModel UtilSpec UtilProofD RefineModel RefineSpec RefineView RefineSplit RefineReplace RefineCut RefineStep RefineStep2 RefineWalk.
From Coq Require Import ZifyBool ZifyNat ZifyN.
Local Open Scope nat_scope.

Lemma rot_trans l k j : rot l k -> rot k j -> rot l j.
Proof.
  intros (x & y & -> & ->) (x' & y' & E & ->). apply app_eq_inv in E as [(z & -> & ->)|(z & -> & ->)].
  - exists (x ++ x'), z. by rewrite !app_assoc.
  - exists z, (y' ++ y). by rewrite !app_assoc.
Qed.

Lemma rot_swap l k j : rot l (k ++ j) -> rot l (j ++ k).
Proof. intros H. eapply rot_trans; [exact H|]. by exists k, j. Qed.

Lemma half_0 (d : bool) (s0 s1 : nat) : half d [s0; s1] 0 = Ok (if d then N.of_nat s0 else N.of_nat s1).
Proof. by destruct d. Qed.
Lemma half_1 (d : bool) (s0 s1 : nat) : half d [s0; s1] 1 = Ok (if d then N.of_nat s1 else N.of_nat s0).
Proof. by destruct d. Qed.

(** The pending edge at position [q] of the polygon [rl]: the halves are [s], [d] tells whether the polygon runs along it. *)
Record pending_at (P : gmap N pend) (rl : list (N * N)) (q : nat) (w : nat) (s : list nat) (d : bool) (v e : N) (x : pend) : Prop := {
  pe_at : rl !! q = Some (v, e);
  pe_P : P !! e = Some x;
  pe_w : pw x = N.of_nat w;
  pe_s : exists s0 s1, s = [s0; s1] /\ p0 x = N.of_nat s0 /\ p1 x = N.of_nat s1;
  pe_d : d = bool_decide (v = pa x)
}.

Lemma pending_expand P rl q w s d v e x : pending_at P rl q w s d v e x ->
  exists h0 h1, half d s 0 = Ok h0 /\ half d s 1 = Ok h1 /\ expand P (v, e) = [(v, h0); (N.of_nat w, h1)].
Proof.
  intros [H1 H2 H3 (s0 & s1 & -> & H4 & H5) ->]. rewrite half_0, half_1.
  eexists _, _. split; [done|]. split; [done|]. unfold expand. cbn. rewrite H2. unfold expand1. rewrite H3, H4, H5.
  by case_bool_decide; case_decide.
Qed.

Lemma seq_join a k n : a + k = n -> seq 0 a ++ seq a k = seq 0 n.
Proof. intros <-. by rewrite seq_app. Qed.

Lemma walk_shift1 n a q k k2 : (a + k) mod n = q ->
  (fun i => (q + 1 + i) mod n) <$> seq 0 k2 = (fun i => (a + i) mod n) <$> seq (k + 1) k2.
Proof.
  intros E. rewrite <- (Nat.add_0_r (k + 1)), <- fmap_add_seq, <- list_fmap_compose. apply list_fmap_ext. intros _ i _. cbn.
  rewrite <- !Nat.add_assoc. by apply mod_chain.
Qed.

Section four.
Context (A : arith) (P : gmap N pend) (m : mesh) (c : nat) (rl : list (N * N)).
Context (R : reachable m) (I : inv P (view_of m)) (Ac : active D2 m c = true) (Hrl : vp (view_of m) (N.of_nat c) = Some rl).
Context (Hsm : (N.of_nat (num D2 m) + 2 <= UINT_MAX)%N).
Notation n := (length rl).

Local Lemma rows : RelRow V2 c m = Ok (rl.*1) /\ RelRow E2 c m = Ok (rl.*2).
Proof. pose proof Hrl as H. apply vp_polygon in H. by rewrite Nat2N.id in H. Qed.

Local Lemma at_v i v e : rl !! i = Some (v, e) -> RelGet V2 c i m = Ok v.
Proof. intros H. eapply row_get; [done|apply rows|]. by rewrite list_lookup_fmap, H. Qed.

Local Lemma vs_at f : Forall (fun i => i < n) f -> vertices_at c f m = Ok ((pick rl f).*1).
Proof. intros H. unfold vertices_at. rewrite pick_fmap. apply get_all; [done|apply rows|]. by rewrite fmap_length. Qed.

Local Lemma es_at f m5 : reachable m5 -> RelRow E2 c m5 = Ok (rl.*2) -> Forall (fun i => i < n) f -> edges_at c f m5 = Ok ((pick rl f).*2).
Proof. intros R5 H5 H. unfold edges_at. rewrite pick_fmap. apply get_all; [done|done|]. by rewrite fmap_length. Qed.

Local Lemma start_pick from k v e : from < n -> rl !! from = Some (v, e) -> 0 < k ->
  start (pick rl ((fun i => (from + i) mod n) <$> seq 0 k)) 0 = v.
Proof.
  intros Hf Hv Hk. destruct k as [|k]; [lia|]. cbn. rewrite Nat.add_0_r, Nat.mod_small by done. unfold pick. cbn. by rewrite Hv.
Qed.

Local Lemma get (i : nat) : i < n -> exists v e, rl !! i = Some (v, e).
Proof. intros H. destruct (lookup_lt_is_Some_2 rl i H) as [[v e] Hx]. by exists v, e. Qed.

(** Positions without a pending edge are left alone. *)
Local Lemma virt_pick f : (forall i v e, i ∈ f -> rl !! i = Some (v, e) -> P !! e = None) -> virt P (pick rl f) = pick rl f.
Proof.
  intros H. apply virt_none. intros v e M. unfold pick in M. apply elem_of_list_omap in M as (i & Mi & Hi). by eapply H.
Qed.

Local Lemma pick_one q p : rl !! q = Some p -> pick rl [q] = [p].
Proof. intros H. unfold pick. cbn. by rewrite H. Qed.

Lemma four_none from to m' f cells :
  (forall i v e, rl !! i = Some (v, e) -> P !! e = None) ->
  SplitPolygon_NoNewVertices A c n from to m = Ok (m', Split f cells) ->
  exists l1 l2, rot (virt P rl) (l1 ++ l2) /\ was_cut P c l1 l2 f cells m m'.
Proof.
  intros Hno E. unfold SplitPolygon_NoNewVertices in E.
  apply bind_ok in E as (fs & W1 & E). apply bind_ok in E as (ss & W2 & E).
  apply walk_ok in W1 as (Hn & Hto & k1 & K1 & -> & T1 & M1). apply walk_ok in W2 as (_ & Hfrom & k2 & K2 & -> & T2 & M2).
  destruct (get from Hfrom) as (va' & ea & Hva). destruct (get to Hto) as (vb & eb & Hvb).
  set (f1 := (fun i => (from + i) mod n) <$> seq 0 k1) in *. set (f2 := (fun i => (to + i) mod n) <$> seq 0 k2) in *.
  assert (F1 : Forall (fun i => i < n) f1) by (by apply mods_lt). assert (F2 : Forall (fun i => i < n) f2) by (by apply mods_lt).
  destruct (decide (from = to)) as [<-|Hne].
  { exfalso. assert (k1 = 0) as -> by (destruct k1 as [|k1]; [done|]; exfalso; apply (M1 0); [lia|]; rewrite Nat.add_0_r; by apply Nat.mod_small).
    unfold split_by_edge in E. rewrite (vs_at f1 F1) in E. cbn [mbind outcome_bind] in E. rewrite (at_v from va' ea Hva) in E. cbn [mbind outcome_bind] in E.
    apply bind_ok in E as (b0 & A0 & E). destruct b0; [|done]. apply area_three in A0. cbn in A0. lia. }
  assert (Hk : k1 + k2 = n).
  { assert (X : (from + (k1 + k2)) mod n = from) by (rewrite <- T2 at 2; symmetry; by apply mod_chain).
    apply mod_back in X as [t X]; [|done]. assert (0 < k1) by (destruct k1; [|lia]; rewrite Nat.add_0_r, Nat.mod_small in T1 by done; done).
    destruct t as [|[|t]]; [lia|lia|]. nia. }
  assert (Hall : f1 ++ f2 = (fun i => (from + i) mod n) <$> seq 0 n).
  { unfold f2. rewrite (walk_shift n from to k1 k2 T1). unfold f1. by rewrite <- fmap_app, (seq_join k1 k2 n Hk). }
  exists (pick rl f1), (pick rl f2).
  assert (Hrot : rot (virt P rl) (pick rl f1 ++ pick rl f2)).
  { rewrite <- pick_app, Hall. rewrite <- (virt_pick ((fun i => (from + i) mod n) <$> seq 0 n)) by (intros i v e _; by apply Hno).
    apply virt_rot, pick_all. done. }
  split; [done|].
  eapply (split_by_edge_cut A P m c rl (pick rl f1) (pick rl f2)) with (b := vb) (a := va'); [done..| | | | | | | | |done|exact E].
  - by apply (at_v to vb eb).
  - intros Hl. symmetry. apply (start_pick to k2 vb eb Hto Hvb). destruct k2; [done|lia].
  - by apply (at_v from va' ea).
  - intros Hl. symmetry. apply (start_pick from k1 va' ea Hfrom Hva). destruct k1; [done|lia].
  - cbn. rewrite (vs_at f1 F1). cbn. by rewrite (at_v to vb eb Hvb).
  - cbn. rewrite (vs_at f2 F2). cbn. by rewrite (at_v from va' ea Hva).
  - intros e m5 R5 H5. cbv beta. by rewrite (es_at f1 m5 R5 H5 F1).
  - intros e m5 R5 H5. cbv beta. by rewrite (es_at f2 m5 R5 H5 F2).
Qed.

(** The positions of a walk from one after [q]. *)
Local Lemma after (q i : nat) : (q + 1 + i) mod n = (q + (1 + i)) mod n.
Proof. f_equal. lia. Qed.

Lemma four_to from q w s d v e x m' f cells :
  pending_at P rl q w s d v e x ->
  (forall i v e, i <> q -> rl !! i = Some (v, e) -> P !! e = None) ->
  SplitPolygon_NewVertexTo A c n from q w s d m = Ok (m', Split f cells) ->
  exists l1 l2, rot (virt P rl) (l1 ++ l2) /\ was_cut P c l1 l2 f cells m m'.
Proof.
  intros Hp Hno E. destruct (pending_expand _ _ _ _ _ _ _ _ _ Hp) as (h0 & h1 & Hh0 & Hh1 & Hx). pose proof (pe_at _ _ _ _ _ _ _ _ _ Hp) as Hq.
  unfold SplitPolygon_NewVertexTo in E.
  apply bind_ok in E as (fs & W1 & E). apply bind_ok in E as (ss & W2 & E).
  apply walk_ok in W1 as (Hn & Hto & k1 & K1 & -> & T1 & M1). apply walk_ok in W2 as (_ & Hfrom & k2 & K2 & -> & T2 & M2).
  destruct (get from Hfrom) as (va' & ea & Hva).
  set (f1 := (fun i => (from + i) mod n) <$> seq 0 k1) in *. set (f2 := (fun i => (q + 1 + i) mod n) <$> seq 0 k2) in *.
  assert (F1 : Forall (fun i => i < n) f1) by (by apply mods_lt). assert (F2 : Forall (fun i => i < n) f2) by (by apply mods_lt).
  assert (X : (from + (k1 + (1 + k2))) mod n = from) by (rewrite <- T2 at 2; rewrite after; symmetry; by apply mod_chain).
  assert (Hk : k1 + (1 + k2) = n).
  { apply mod_back in X as [t X]; [|done]. destruct t as [|[|t]]; [lia|lia|]. nia. }
  assert (Hall : f1 ++ [q] ++ f2 = (fun i => (from + i) mod n) <$> seq 0 n).
  { unfold f2. rewrite (walk_shift1 n from q k1 k2 T1), app_assoc. unfold f1. rewrite <- (seq_join (k1 + 1) k2 n) by lia.
    rewrite fmap_app. f_equal. rewrite <- (seq_join k1 1 (k1 + 1)) by done. rewrite fmap_app. f_equal. cbn. by rewrite T1. }
  assert (N1 : forall i, i ∈ f1 -> i <> q).
  { intros i (j & -> & Mj)%elem_of_list_fmap. apply M1. apply elem_of_seq in Mj. lia. }
  assert (N2 : forall i, i ∈ f2 -> i <> q).
  { intros i (j & -> & Mj)%elem_of_list_fmap Hj. apply elem_of_seq in Mj. rewrite after in Hj. apply mod_back in Hj as [t Hj]; [|done].
    destruct t as [|[|t]]; [lia|lia|nia]. }
  assert (V1 : virt P (pick rl f1) = pick rl f1) by (apply virt_pick; intros i v' e' Mi; apply Hno; by apply N1).
  assert (V2' : virt P (pick rl f2) = pick rl f2) by (apply virt_pick; intros i v' e' Mi; apply Hno; by apply N2).
  exists (pick rl f1 ++ [(v, h0)]), ((N.of_nat w, h1) :: pick rl f2).
  assert (Hrot : rot (virt P rl) ((pick rl f1 ++ [(v, h0)]) ++ (N.of_nat w, h1) :: pick rl f2)).
  { replace ((pick rl f1 ++ [(v, h0)]) ++ (N.of_nat w, h1) :: pick rl f2) with (virt P (pick rl (f1 ++ [q] ++ f2))).
    - rewrite Hall. apply virt_rot, pick_all. done.
    - rewrite !pick_app, (pick_one q _ Hq), !virt_app, V1, V2'. rewrite virt_cons, Hx. change (virt P []) with (@nil (N * N)). by rewrite <- !app_assoc. }
  split; [done|].
  assert (Ha : va' = start (pick rl f1 ++ [(v, h0)]) 0).
  { rewrite start_app. destruct k1 as [|k1].
    - cbn. rewrite Nat.add_0_r, Nat.mod_small in T1 by done. rewrite T1, Hq in Hva. by injection Hva as -> _.
    - unfold f1. rewrite (start_ne _ _ 0); [symmetry; apply (start_pick from (S k1) va' ea); [done|done|lia]|].
      intros Hl. apply (f_equal length) in Hl. rewrite pick_length, fmap_length, seq_length in Hl by done. done. }
  eapply (split_by_edge_cut A P m c rl _ _) with (b := N.of_nat w) (a := va'); [done..| | | | | | | | |done|exact E].
  - done.
  - done.
  - by apply (at_v from va' ea).
  - done.
  - cbn. rewrite (vs_at f1 F1). cbn. rewrite (at_v q v e Hq). cbn. rewrite fmap_app. by rewrite <- app_assoc.
  - cbn. rewrite (vs_at f2 F2). cbn. by rewrite (at_v from va' ea Hva).
  - intros g m5 R5 H5. cbv beta. rewrite (es_at f1 m5 R5 H5 F1). cbn. rewrite Hh0. cbn. rewrite fmap_app. by rewrite <- app_assoc.
  - intros g m5 R5 H5. cbv beta. rewrite Hh1. cbn. by rewrite (es_at f2 m5 R5 H5 F2).
Qed.

Lemma four_from q to w s d v e x m' f cells :
  pending_at P rl q w s d v e x ->
  (forall i v e, i <> q -> rl !! i = Some (v, e) -> P !! e = None) ->
  SplitPolygon_NewVertexFrom A c n q to w s d m = Ok (m', Split f cells) ->
  exists l1 l2, rot (virt P rl) (l1 ++ l2) /\ was_cut P c l1 l2 f cells m m'.
Proof.
  intros Hp Hno E. destruct (pending_expand _ _ _ _ _ _ _ _ _ Hp) as (h0 & h1 & Hh0 & Hh1 & Hx). pose proof (pe_at _ _ _ _ _ _ _ _ _ Hp) as Hq.
  unfold SplitPolygon_NewVertexFrom in E.
  apply bind_ok in E as (fs & W1 & E). apply bind_ok in E as (ss & W2 & E).
  apply walk_ok in W1 as (Hn & Hto & k1 & K1 & -> & T1 & M1). apply walk_ok in W2 as (_ & Hfrom & k2 & K2 & -> & T2 & M2).
  destruct (get to Hto) as (vb & eb & Hvb).
  set (f1 := (fun i => (q + 1 + i) mod n) <$> seq 0 k1) in *. set (f2 := (fun i => (to + i) mod n) <$> seq 0 k2) in *.
  assert (F1 : Forall (fun i => i < n) f1) by (by apply mods_lt). assert (F2 : Forall (fun i => i < n) f2) by (by apply mods_lt).
  assert (X : (to + (k2 + (1 + k1))) mod n = to) by (rewrite <- T1 at 2; rewrite after; symmetry; by apply mod_chain).
  assert (Hk : k2 + (1 + k1) = n).
  { apply mod_back in X as [t X]; [|done]. destruct t as [|[|t]]; [lia|lia|]. nia. }
  assert (Hall : f2 ++ [q] ++ f1 = (fun i => (to + i) mod n) <$> seq 0 n).
  { unfold f1. rewrite (walk_shift1 n to q k2 k1 T2), app_assoc. unfold f2. rewrite <- (seq_join (k2 + 1) k1 n) by lia.
    rewrite fmap_app. f_equal. rewrite <- (seq_join k2 1 (k2 + 1)) by done. rewrite fmap_app. f_equal. cbn. by rewrite T2. }
  assert (N2 : forall i, i ∈ f2 -> i <> q).
  { intros i (j & -> & Mj)%elem_of_list_fmap. apply M2. apply elem_of_seq in Mj. lia. }
  assert (N1 : forall i, i ∈ f1 -> i <> q).
  { intros i (j & -> & Mj)%elem_of_list_fmap Hj. apply elem_of_seq in Mj. rewrite after in Hj. apply mod_back in Hj as [t Hj]; [|done].
    destruct t as [|[|t]]; [lia|lia|nia]. }
  assert (V1 : virt P (pick rl f1) = pick rl f1) by (apply virt_pick; intros i v' e' Mi; apply Hno; by apply N1).
  assert (V2' : virt P (pick rl f2) = pick rl f2) by (apply virt_pick; intros i v' e' Mi; apply Hno; by apply N2).
  exists ((N.of_nat w, h1) :: pick rl f1), (pick rl f2 ++ [(v, h0)]).
  assert (Hrot : rot (virt P rl) (((N.of_nat w, h1) :: pick rl f1) ++ pick rl f2 ++ [(v, h0)])).
  { apply rot_swap. replace ((pick rl f2 ++ [(v, h0)]) ++ (N.of_nat w, h1) :: pick rl f1) with (virt P (pick rl (f2 ++ [q] ++ f1))).
    - rewrite Hall. apply virt_rot, pick_all. done.
    - rewrite !pick_app, (pick_one q _ Hq), !virt_app, V1, V2'. rewrite virt_cons, Hx. change (virt P []) with (@nil (N * N)). by rewrite <- !app_assoc. }
  split; [done|].
  assert (Hb : vb = start (pick rl f2 ++ [(v, h0)]) 0).
  { rewrite start_app. destruct k2 as [|k2].
    - cbn. rewrite Nat.add_0_r, Nat.mod_small in T2 by done. rewrite T2, Hq in Hvb. by injection Hvb as -> _.
    - unfold f2. rewrite (start_ne _ _ 0); [symmetry; apply (start_pick to (S k2) vb eb); [done|done|lia]|].
      intros Hl. apply (f_equal length) in Hl. rewrite pick_length, fmap_length, seq_length in Hl by done. done. }
  eapply (split_by_edge_cut A P m c rl _ _) with (b := vb) (a := N.of_nat w); [done..| | | | | | | | |done|exact E].
  - by apply (at_v to vb eb).
  - done.
  - done.
  - done.
  - cbn. rewrite (vs_at f1 F1). cbn. by rewrite (at_v to vb eb Hvb).
  - cbn. rewrite (vs_at f2 F2). cbn. rewrite (at_v q v e Hq). cbn. rewrite fmap_app. by rewrite <- app_assoc.
  - intros g m5 R5 H5. cbv beta. rewrite Hh1. cbn. by rewrite (es_at f1 m5 R5 H5 F1).
  - intros g m5 R5 H5. cbv beta. rewrite (es_at f2 m5 R5 H5 F2). cbn. rewrite Hh0. cbn. rewrite fmap_app. by rewrite <- app_assoc.
Qed.

Lemma four_both q1 q2 w1 w2 s1 s2 d1 d2 v1 v2 e1 e2 x1 x2 m' f cells :
  pending_at P rl q1 w1 s1 d1 v1 e1 x1 -> pending_at P rl q2 w2 s2 d2 v2 e2 x2 -> q1 <> q2 ->
  (forall i v e, i <> q1 -> i <> q2 -> rl !! i = Some (v, e) -> P !! e = None) ->
  SplitPolygon_NewVertices A c n q1 q2 w1 w2 s1 s2 d1 d2 m = Ok (m', Split f cells) ->
  exists l1 l2, rot (virt P rl) (l1 ++ l2) /\ was_cut P c l1 l2 f cells m m'.
Proof.
  intros Hp1 Hp2 Hne Hno E.
  destruct (pending_expand _ _ _ _ _ _ _ _ _ Hp1) as (g0 & g1 & Hg0 & Hg1 & Hx1). pose proof (pe_at _ _ _ _ _ _ _ _ _ Hp1) as Hq1.
  destruct (pending_expand _ _ _ _ _ _ _ _ _ Hp2) as (h0 & h1 & Hh0 & Hh1 & Hx2). pose proof (pe_at _ _ _ _ _ _ _ _ _ Hp2) as Hq2.
  unfold SplitPolygon_NewVertices in E.
  apply bind_ok in E as (fs & W1 & E). apply bind_ok in E as (ss & W2 & E).
  apply walk_ok in W1 as (Hn & Hto & k1 & K1 & -> & T1 & M1). apply walk_ok in W2 as (_ & Hfrom & k2 & K2 & -> & T2 & M2).
  set (f1 := (fun i => (q1 + 1 + i) mod n) <$> seq 0 k1) in *. set (f2 := (fun i => (q2 + 1 + i) mod n) <$> seq 0 k2) in *.
  assert (F1 : Forall (fun i => i < n) f1) by (by apply mods_lt). assert (F2 : Forall (fun i => i < n) f2) by (by apply mods_lt).
  assert (T1' : (q1 + (1 + k1)) mod n = q2) by (by rewrite <- after).
  assert (X : (q1 + ((1 + k1) + (1 + k2))) mod n = q1).
  { rewrite <- T2 at 2. rewrite after. symmetry. by apply mod_chain. }
  assert (B1 : 1 + k1 <> n).
  { intros H. rewrite H in T1'. rewrite <- (Nat.mul_1_l n) in T1' at 1. rewrite Nat.mod_add, Nat.mod_small in T1' by lia. done. }
  assert (B2 : 1 + k2 <> n).
  { intros H. rewrite after, H in T2. rewrite <- (Nat.mul_1_l n) in T2 at 1. rewrite Nat.mod_add, Nat.mod_small in T2 by lia. done. }
  assert (Hk : 1 + k1 + (1 + k2) = n).
  { apply mod_back in X as [t X]; [|done]. destruct t as [|[|t]]; [lia|lia|]. nia. }
  assert (Hall : [q1] ++ f1 ++ [q2] ++ f2 = (fun i => (q1 + i) mod n) <$> seq 0 n).
  { unfold f2. rewrite (walk_shift1 n q1 q2 (1 + k1) k2 T1'). rewrite <- (seq_join (1 + k1 + 1) k2 n) by lia.
    rewrite fmap_app, !app_assoc. f_equal. rewrite <- (seq_join (1 + k1) 1 (1 + k1 + 1)) by done. rewrite fmap_app. f_equal.
    - rewrite <- (seq_join 1 k1 (1 + k1)) by done. rewrite fmap_app. f_equal; [cbn; by rewrite Nat.add_0_r, Nat.mod_small|].
      unfold f1. apply (walk_shift1 n q1 q1 0). rewrite Nat.add_0_r. by apply Nat.mod_small.
    - change (seq (1 + k1) 1) with [1 + k1]. rewrite list_fmap_singleton. by rewrite T1'. }
  assert (N1 : forall i, i ∈ f1 -> i <> q1 /\ i <> q2).
  { intros i (j & -> & Mj)%elem_of_list_fmap. apply elem_of_seq in Mj. split; [|by apply M1; lia].
    intros Hj. rewrite after in Hj. apply mod_back in Hj as [t Hj]; [|done]. destruct t as [|[|t]]; [lia|lia|nia]. }
  assert (N2 : forall i, i ∈ f2 -> i <> q1 /\ i <> q2).
  { intros i (j & -> & Mj)%elem_of_list_fmap. apply elem_of_seq in Mj. split; [by apply M2; lia|].
    intros Hj. rewrite after in Hj. apply mod_back in Hj as [t Hj]; [|done]. destruct t as [|[|t]]; [lia|lia|nia]. }
  assert (V1 : virt P (pick rl f1) = pick rl f1) by (apply virt_pick; intros i v' e' Mi; destruct (N1 i Mi); by apply Hno).
  assert (V2' : virt P (pick rl f2) = pick rl f2) by (apply virt_pick; intros i v' e' Mi; destruct (N2 i Mi); by apply Hno).
  exists ((N.of_nat w1, g1) :: pick rl f1 ++ [(v2, h0)]), ((N.of_nat w2, h1) :: pick rl f2 ++ [(v1, g0)]).
  assert (Hrot : rot (virt P rl) (((N.of_nat w1, g1) :: pick rl f1 ++ [(v2, h0)]) ++ (N.of_nat w2, h1) :: pick rl f2 ++ [(v1, g0)])).
  { replace (((N.of_nat w1, g1) :: pick rl f1 ++ [(v2, h0)]) ++ (N.of_nat w2, h1) :: pick rl f2 ++ [(v1, g0)])
      with (((N.of_nat w1, g1) :: pick rl f1 ++ [(v2, h0); (N.of_nat w2, h1)] ++ pick rl f2) ++ [(v1, g0)])
      by (cbn; by rewrite <- !app_assoc).
    apply rot_swap.
    replace ([(v1, g0)] ++ (N.of_nat w1, g1) :: pick rl f1 ++ [(v2, h0); (N.of_nat w2, h1)] ++ pick rl f2)
      with (virt P (pick rl ([q1] ++ f1 ++ [q2] ++ f2))).
    - rewrite Hall. apply virt_rot, pick_all. done.
    - rewrite !pick_app, (pick_one q1 _ Hq1), (pick_one q2 _ Hq2), !virt_app, V1, V2'. rewrite !virt_cons, Hx1, Hx2. done. }
  split; [done|].
  eapply (split_by_edge_cut A P m c rl _ _) with (b := N.of_nat w2) (a := N.of_nat w1); [done..| | | | | | | | |done|exact E].
  - done.
  - done.
  - done.
  - done.
  - cbn. rewrite (vs_at f1 F1). cbn. rewrite (at_v q2 v2 e2 Hq2). cbn. rewrite fmap_app. by rewrite <- app_assoc.
  - cbn. rewrite (vs_at f2 F2). cbn. rewrite (at_v q1 v1 e1 Hq1). cbn. rewrite fmap_app. by rewrite <- app_assoc.
  - intros g m5 R5 H5. cbv beta. rewrite Hg1. cbn. rewrite (es_at f1 m5 R5 H5 F1). cbn. rewrite Hh0. cbn. rewrite fmap_app. by rewrite <- app_assoc.
  - intros g m5 R5 H5. cbv beta. rewrite Hh1. cbn. rewrite (es_at f2 m5 R5 H5 F2). cbn. rewrite Hg0. cbn. rewrite fmap_app. by rewrite <- app_assoc.
Qed.
End four.
