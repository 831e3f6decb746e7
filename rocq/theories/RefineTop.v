(** * One step of the refinement of a polygonal mesh. *)
From Coq Require Import QArith Qcanon.
From Verif Require Import Base BaseProof QcTac FillModel GeoModel MapModel PointModel PolyModel CsrModel MeshModel MeshSpec MeshRep MeshHist MeshProof8 MeshProof9 MeshProofE MeshProofF MeshProg
  UtilModel UtilSpec UtilProofD RefineModel RefineSpec RefineView RefineSplit RefineReplace RefineCut RefineStep RefineStep2 RefineWalk RefineFour RefineUndo RefineMove RefineNeigh RefineConf.
From Coq Require Import ZifyBool ZifyNat ZifyN.
Local Open Scope nat_scope.

(** ** Edges of good polygons *)
Lemma good_ends V l v e a b : good V l -> (v, e) ∈ l -> ve V e = Some (a, b) -> va V D0 a = true /\ va V D0 b = true.
Proof.
  intros G M E. destruct (linked_at V l _ v e (gd_link _ _ G) M) as (u & J & Hu).
  assert (Av : va V D0 v = true) by (by apply (gd_act _ _ G v e)).
  assert (Au : va V D0 u = true).
  { destruct Hu as [->|[e' Me]]; [|by apply (gd_act _ _ G u e')]. pose proof (gd_len _ _ G). destruct l as [|[v1 e1] l]; [cbn in *; lia|].
    apply (gd_act _ _ G v1 e1). apply elem_of_list_here. }
  destruct J as [J|J]; rewrite E in J; injection J as -> ->; done.
Qed.

Lemma good_ne V l q v e a b : good V l -> l !! q = Some (v, e) -> ve V e = Some (a, b) -> a <> b.
Proof.
  intros G Hq E. pose proof (gd_len _ _ G) as L. pose proof (lookup_lt_Some _ _ _ Hq) as Lq.
  destruct (lookup_lt_is_Some_2 l ((q + 1) mod length l)) as [[w e'] Hw]; [apply Nat.mod_upper_bound; lia|].
  assert (J : joined V e v w) by (eapply linked_mod; [apply (gd_link _ _ G)|done|done]).
  assert (Hne : v <> w).
  { intros ->. assert (X : q = (q + 1) mod length l).
    { eapply (NoDup_lookup (l.*1)); [apply (gd_vs _ _ G)| |]; rewrite list_lookup_fmap; [by rewrite Hq|by rewrite Hw]. }
    destruct (decide (q + 1 < length l)) as [Hl|Hl]; [rewrite Nat.mod_small in X by done; lia|].
    replace (q + 1) with (length l) in X by lia. rewrite Nat.mod_same in X by lia. lia. }
  destruct J as [J|J]; rewrite E in J; injection J as -> ->; congruence.
Qed.

Lemma as_before_refl m : as_before m m.
Proof. by split. Qed.

Lemma same_before m m' : same (view_of m) (view_of m') -> (forall i, i < num D0 m -> Cell0DCoordinates i m' = Cell0DCoordinates i m) -> as_before m m'.
Proof.
  intros Sm Co. split; [|done|..].
  - intros d i Hd. pose proof (sa_n _ _ Sm d Hd) as X. pose proof (sa_va _ _ Sm d (N.of_nat i) Hd) as Y. cbn in X, Y. rewrite Nat2N.id in Y. split; [lia|done].
  - intros e o t l Ae Ho Ht Hl. pose proof (sa_ve _ _ Sm (N.of_nat e)) as X. pose proof (sa_vr _ _ Sm (N.of_nat e)) as Y. cbn in X, Y. rewrite Nat2N.id in X, Y.
    specialize (X Ae). specialize (Y Ae). rewrite Ho, Ht in X. rewrite Hl in Y.
    destruct (Cell1DOrigin e m'), (Cell1DEnd e m'), (RelRow R12 e m'); simplify_eq; done.
  - intros c l Ac Hl. rewrite <- (Nat2N.id c). apply vp_polygon. rewrite (sa_vp _ _ Sm) by (cbn; by rewrite Nat2N.id). apply vp_polygon. by rewrite Nat2N.id.
Qed.

(** ** Split edges *)
Lemma ends_split e w s0 s1 a b V V' : ends V -> (forall d i, va V d i = true -> (i < vn V d)%N) -> edge_split e w s0 s1 a b V V' -> ends V'.
Proof.
  intros En Lt H g a' b' Hg Hab. rewrite (es_va1 _ _ _ _ _ _ _ _ H) in Hg. case_decide as E; [done|].
  destruct (En e a b (es_act _ _ _ _ _ _ _ _ H) (es_ends _ _ _ _ _ _ _ _ H)) as [Aa Ab].
  rewrite !(es_va0 _ _ _ _ _ _ _ _ H). case_decide as D.
  - destruct D as [->|D].
    + rewrite (es_ve0 _ _ _ _ _ _ _ _ H) in Hab. injection Hab as <- <-. split; [by case_decide|by rewrite decide_True].
    + rewrite D, (es_ve1 _ _ _ _ _ _ _ _ H) in Hab. injection Hab as <- <-. split; [by rewrite decide_True|by case_decide].
  - rewrite (es_ve _ _ _ _ _ _ _ _ H) in Hab by naive_solver. destruct (En g a' b' Hg Hab). split; by case_decide.
Qed.

Lemma middle_split A P m e s : reachable m -> inv P (view_of m) -> ends (view_of m) -> active D1 m e = true ->
  SplitCell1D_MiddlePoint A e m = Ok s ->
  exists m1 o t, s = (m1, (num D0 m, [num D1 m; S (num D1 m)])) /\ reachable m1 /\
    edge_split (N.of_nat e) (N.of_nat (num D0 m)) (N.of_nat (num D1 m)) (N.of_nat (S (num D1 m))) o t (view_of m) (view_of m1) /\
    ends (view_of m1) /\ (forall i, i < num D0 m -> Cell0DCoordinates i m1 = Cell0DCoordinates i m) /\
    exists p q, Point A (N.to_nat o) m = Ok p /\ Point A (N.to_nat t) m = Ok q /\
      let c := vscale (Q2Qc (1 # 2)) (vadd p q) in Cell0DCoordinates (num D0 m) m1 = Ok (store A c.1.1, store A c.1.2, store A c.2).
Proof.
  intros R I En Ae E. unfold SplitCell1D_MiddlePoint in E.
  apply bind_ok in E as (o & Eo & E). apply bind_ok in E as (p & Ep & E). apply bind_ok in E as (t & Et & E). apply bind_ok in E as (q & Eq & E).
  cbv zeta in E.
  assert (Hve : ve (view_of m) (N.of_nat e) = Some (o, t)) by (apply ve_ends; by rewrite Nat2N.id).
  assert (Hva : va (view_of m) D1 (N.of_nat e) = true) by (cbn; by rewrite Nat2N.id).
  destruct (En _ _ _ Hva Hve) as [Ao At]. apply (i_lt _ _ I D0) in Ao. apply (i_lt _ _ I D0) in At.
  match type of E with RefineCell1D _ ?x ?y ?z _ = _ => destruct (refine_edge m e o t x y z R Ae Eo Et Ao At) as (m1 & E1 & R1 & Es & C1 & C2) end.
  rewrite E1 in E. injection E as <-. exists m1, o, t. split_and!; try done.
  - eapply ends_split; [done|apply (i_lt _ _ I)|done].
  - by exists p, q.
Qed.

(** ** The cut *)
Definition ready_but (c : N) (P : gmap N pend) (directions : list (list bool)) (V : view) (e : N) (x : pend) : Prop :=
  forall y l p v, y <> c -> va V D2 y = true -> vp V y = Some l -> l !! p = Some (v, e) ->
    (exists ds, directions !! N.to_nat y = Some ds /\ ds !! p = Some (bool_decide (v = pa x))) /\
    (forall u g, (u, g) ∈ l -> g <> e -> P !! g = None).

Section cut.
Context (P : gmap N pend) (c : nat) (rl l1 l2 : list (N * N)) (f : nat) (cells : list nat) (m m' : mesh).
Context (R : reachable m) (I : inv P (view_of m)) (Ac : active D2 m c = true) (Hrl : vp (view_of m) (N.of_nat c) = Some rl).
Context (Hrot : rot (virt P rl) (l1 ++ l2)) (W : was_cut P c l1 l2 f cells m m').

Lemma cut_rows j row : [l1 ++ [(start l2 0, N.of_nat f)]; l2 ++ [(start l1 0, N.of_nat f)]] !! j = Some row ->
  forall v e, (v, e) ∈ row -> P !! e = None.
Proof.
  intros Hj v e M. destruct (P !! e) as [x|] eqn:Hx; [|done]. exfalso.
  destruct (i_poly P _ I (N.of_nat c)) as (_ & l0 & Hl0 & G); [cbn; by rewrite Nat2N.id|]. rewrite Hrl in Hl0. injection Hl0 as <-.
  assert (X : (v, e) ∈ l1 ++ l2 \/ e = N.of_nat f).
  { destruct j as [|[|j]]; cbn in Hj; [injection Hj as <-|injection Hj as <-|done]; apply elem_of_app in M as [M|M%elem_of_list_singleton].
    - left. apply elem_of_app. by left.
    - right. by injection M.
    - left. apply elem_of_app. by right.
    - right. by injection M. }
  destruct X as [X| ->].
  - rewrite <- (rot_perm _ _ Hrot) in X. by eapply (pending_out P _ rl e x v I G).
  - destruct (i_pend P _ I _ x Hx) as (_ & L & _). rewrite (wc_edge _ _ _ _ _ _ _ _ W) in L. cbn in L. lia.
Qed.

Lemma cut_settles : settles P (view_of m) (view_of m').
Proof.
  intros y l Hy Hl. destruct (act_cases P _ _ _ _ y I (wc_replaced _ _ _ _ _ _ _ _ W) Hy) as [(B1 & _ & _ & B4)|(j & row & -> & Ej & B)].
  - left. split; [done|]. by rewrite <- B4.
  - right. rewrite B in Hl. injection Hl as <-. by eapply cut_rows.
Qed.

Lemma cut_ready ds e x : P !! e = Some x -> ready_but (N.of_nat c) P ds (view_of m) e x -> ready P ds (view_of m') e x.
Proof.
  intros Hx Rd y l p v Hy Hl Hp. destruct (act_cases P _ _ _ _ y I (wc_replaced _ _ _ _ _ _ _ _ W) Hy) as [(B1 & B2 & _ & B4)|(j & row & -> & Ej & B)].
  - rewrite B4 in Hl. by apply (Rd y l p v).
  - exfalso. rewrite B in Hl. injection Hl as <-. apply elem_of_list_lookup_2 in Hp. rewrite (cut_rows j row Ej v e Hp) in Hx. done.
Qed.

Lemma cut_gone : active D2 m' c = false.
Proof.
  pose proof (rp_va2 _ _ _ _ (wc_replaced _ _ _ _ _ _ _ _ W) (N.of_nat c)) as X. rewrite decide_True in X by done. cbn in X. by rewrite Nat2N.id in X.
Qed.

Lemma cut_ends : ends (view_of m) -> ends (view_of m').
Proof.
  intros En g a b Hg Hab. pose proof (wc_replaced _ _ _ _ _ _ _ _ W) as Rp. pose proof (wc_inv _ _ _ _ _ _ _ _ W) as I'.
  destruct (decide (g < vn (view_of m) D1)%N) as [L|L].
  - rewrite (rp_old1 _ _ _ _ Rp) in Hg by done. rewrite (rp_ve _ _ _ _ Rp) in Hab by done. rewrite !(rp_va0 _ _ _ _ Rp). by eapply En.
  - assert (g = N.of_nat f) as ->.
    { apply (i_lt _ _ I') in Hg. cbn in Hg, L. rewrite (wc_num1 _ _ _ _ _ _ _ _ W) in Hg. rewrite (wc_edge _ _ _ _ _ _ _ _ W). lia. }
    pose proof (rp_new _ _ _ _ Rp 0 _ eq_refl) as Hnew. cbn [N.of_nat] in Hnew. rewrite N.add_0_r in Hnew.
    assert (Hact : va (view_of m') D2 (vn (view_of m) D2) = true).
    { rewrite (rp_va2 _ _ _ _ Rp). apply active_num in Ac; [|done]. rewrite decide_False by (cbn; lia).
      rewrite decide_True; [done|]. rewrite (rp_n2 _ _ _ _ Rp). cbn. lia. }
    destruct (i_poly _ _ I' _ Hact) as (_ & l0 & Hl0 & G). rewrite Hnew in Hl0. injection Hl0 as <-.
    rewrite virt_none in G by (by apply (cut_rows 0)).
    eapply good_ends; [exact G| |exact Hab]. apply elem_of_app. right. apply elem_of_list_here.
Qed.

Lemma cut_kept v e x : (v, e) ∈ rl -> P !! e = Some x -> kept P m m'.
Proof.
  intros M Hx. pose proof (wc_replaced _ _ _ _ _ _ _ _ W) as Rp. split.
  - intros y l Hy Hl Hn. pose proof (i_lt P _ I D2 y Hy) as Ly. split.
    + rewrite (rp_va2 _ _ _ _ Rp). rewrite decide_False by (intros ->; rewrite Hrl in Hl; injection Hl as <-; rewrite (Hn _ _ M) in Hx; done).
      rewrite decide_False; [done|]. clear - Ly. lia.
    + by rewrite (rp_vp _ _ _ _ Rp).
  - apply (rp_n1 _ _ _ _ Rp).
  - apply (rp_old1 _ _ _ _ Rp).
  - apply (wc_coord _ _ _ _ _ _ _ _ W).
Qed.

Lemma cut_two A m0 m'' : kept P m' m'' -> polygon m0 c rl -> (forall e x, P !! e = Some x -> half_way A m0 m'' e (pw x)) ->
  active D2 m'' c = false -> cut_in_two A m0 m'' c f (num D2 m) (S (num D2 m)).
Proof.
  intros K Hp Hh Hc. pose proof (wc_replaced _ _ _ _ _ _ _ _ W) as Rp. pose proof (active_num _ _ _ R Ac) as Lc.
  assert (New : forall j row, [l1 ++ [(start l2 0, N.of_nat f)]; l2 ++ [(start l1 0, N.of_nat f)]] !! j = Some row ->
    active D2 m'' (num D2 m + j) = true /\ polygon m'' (num D2 m + j) row).
  { intros j row Hj. pose proof (rp_new _ _ _ _ Rp j row Hj) as Hn. pose proof (lookup_lt_Some _ _ _ Hj) as Lj. cbn [length] in Lj.
    destruct (kp_poly _ _ _ K (vn (view_of m) D2 + N.of_nat j)%N row) as [K1 K2]; [|done|by apply (cut_rows j)|].
    - rewrite (rp_va2 _ _ _ _ Rp). rewrite decide_False by (cbn; lia). rewrite decide_True; [done|]. rewrite (rp_n2 _ _ _ _ Rp). cbn. lia.
    - cbn in K1. replace (N.to_nat (N.of_nat (num D2 m) + N.of_nat j)) with (num D2 m + j) in K1 by lia. split; [done|].
      apply vp_polygon in K2. cbn in K2. by replace (N.to_nat (N.of_nat (num D2 m) + N.of_nat j)) with (num D2 m + j) in K2 by lia. }
  destruct (New 0 _ eq_refl) as [A0 B0]. destruct (New 1 _ eq_refl) as [A1 B1]. rewrite Nat.add_0_r in A0, B0. rewrite Nat.add_1_r in A1, B1.
  split_and!; [done..|]. exists rl, (virt P rl), l1, l2, (start l1 0), (start l2 0).
  pose proof (wc_len1 _ _ _ _ _ _ _ _ W) as L1. pose proof (wc_len2 _ _ _ _ _ _ _ _ W) as L2.
  split_and!; [done| |exact Hrot|done|done| | |done|done].
  - clear - Hh. induction rl as [|[v e] l IH]; [constructor|]. rewrite virt_cons. unfold expand. cbn [fst snd].
    destruct (P !! e) as [x|] eqn:Ex; [|by constructor]. unfold expand1. case_decide; cbn [app]; (constructor; [by apply Hh|done]).
  - by destruct l1; [cbn in L1; lia|].
  - by destruct l2; [cbn in L2; lia|].
Qed.
End cut.

(** ** One edge is split *)
Lemma split_pend A P m e s a b : reachable m -> inv P (view_of m) -> ends (view_of m) -> active D1 m e = true ->
  (forall g y, P !! g = Some y -> p0 y <> N.of_nat e /\ p1 y <> N.of_nat e) ->
  ve (view_of m) (N.of_nat e) = Some (a, b) -> a <> b ->
  SplitCell1D_MiddlePoint A e m = Ok s ->
  exists m1, s = (m1, (num D0 m, [num D1 m; S (num D1 m)])) /\ reachable m1 /\ ends (view_of m1) /\
    (forall i, i < num D0 m -> Cell0DCoordinates i m1 = Cell0DCoordinates i m) /\
    edge_split (N.of_nat e) (N.of_nat (num D0 m)) (N.of_nat (num D1 m)) (N.of_nat (S (num D1 m))) a b (view_of m) (view_of m1) /\
    (exists p q, Point A (N.to_nat a) m = Ok p /\ Point A (N.to_nat b) m = Ok q /\
      let c := vscale (Q2Qc (1 # 2)) (vadd p q) in Cell0DCoordinates (num D0 m) m1 = Ok (store A c.1.1, store A c.1.2, store A c.2)) /\
    let P' := <[N.of_nat e := Pend a b (N.of_nat (num D0 m)) (N.of_nat (num D1 m)) (N.of_nat (S (num D1 m)))]> P in
    inv P' (view_of m1) /\ move A (P, m) (P', m1).
Proof.
  intros R I En Ae Hch Hve Hab E. destruct (middle_split A P m e s R I En Ae E) as (m1 & o & t & -> & R1 & Es & En1 & Co & p & q & Ep & Eq & Cw).
  pose proof (es_ends _ _ _ _ _ _ _ _ Es) as X. rewrite Hve in X. injection X as <- <-.
  pose proof (es_act _ _ _ _ _ _ _ _ Es) as Ea. destruct (En _ _ _ Ea Hve) as [Aa Ab].
  assert (I1 : inv (<[N.of_nat e := Pend a b (N.of_nat (num D0 m)) (N.of_nat (num D1 m)) (N.of_nat (S (num D1 m)))]> P) (view_of m1)).
  { by eapply split_inv. }
  exists m1. split_and!; try done; [by exists p, q|]. cbv zeta. split; [done|]. eapply mv_split; try done.
  destruct (P !! N.of_nat e) as [y|] eqn:Ey; [|done]. destruct (i_pend _ _ I _ y Ey) as (F & _). congruence.
Qed.

(** ** All updated edges *)
Lemma update_all A directions c us : forall P m log,
  reachable m -> inv P (view_of m) -> ends (view_of m) -> active D2 m c = false -> (N.of_nat c < N.of_nat (num D2 m))%N ->
  (N.of_nat (num D2 m) + 2 * N.of_nat (length us) <= UINT_MAX)%N ->
  (forall r, r ∈ us -> exists x s0 s1, P !! N.of_nat (re_original r) = Some x /\ pw x = N.of_nat (re_vertex r) /\ re_children r = [s0; s1] /\
     p0 x = N.of_nat s0 /\ p1 x = N.of_nat s1 /\ ready P directions (view_of m) (N.of_nat (re_original r)) x) ->
  NoDup (re_original <$> us) -> (forall g, is_Some (P !! g) -> exists r, r ∈ us /\ g = N.of_nat (re_original r)) ->
  exists m' log', ofold (fun s r =>
           t ← RefinePolygonCell_UpdateNeighbours c (re_original r) (re_vertex r) (re_children r) directions s.1;
           Ok (t.1, s.2 ++ t.2)) us (m, log) = Ok (m', log') /\
    reachable m' /\ inv ∅ (view_of m') /\ ends (view_of m') /\ active D2 m' c = false /\ kept P m m' /\ rtc (move A) (P, m) (∅, m').
Proof.
  induction us as [|r us IH]; intros P m log R I En Ac Hc Hb Hus Hnd Hall.
  - assert (P = ∅) as ->.
    { apply map_eq. intros g. rewrite lookup_empty. destruct (P !! g) eqn:E; [|done]. destruct (Hall g) as (r & M & _); [by eexists|]. by apply elem_of_nil in M. }
    exists m, log. split_and!; try done.
  - destruct (Hus r ltac:(apply elem_of_list_here)) as (x & s0 & s1 & Hx & Hw & Hs & H0 & H1 & Rd).
    destruct (nb_all A P c (re_original r) (re_vertex r) s0 s1 directions x Hx Hw H0 H1 m R I Rd Ac Hc) as
      (m1 & log1 & E1 & R1 & I1 & St & Ac1 & Hc1 & N2 & _ & _ & _ & En1 & Kp & Mv).
    { cbn [length] in Hb. lia. }
    apply NoDup_cons in Hnd as [Hni Hnd].
    destruct (IH (delete (N.of_nat (re_original r)) P) m1 (log ++ log1)) as (m' & log' & E' & R' & I' & En' & Ac' & Kp' & Mv').
    + done.
    + done.
    + by apply En1.
    + done.
    + done.
    + cbn [length] in Hb. lia.
    + intros r' Mr. destruct (Hus r') as (x' & t0 & t1 & Hx' & Hw' & Hs' & H0' & H1' & Rd'); [by apply elem_of_list_further|].
      assert (Hne : N.of_nat (re_original r) <> N.of_nat (re_original r')).
      { intros E. apply Hni. apply elem_of_list_fmap. exists r'. split; [lia|done]. }
      exists x', t0, t1. split_and!; try done; [by rewrite lookup_delete_ne|].
      intros y l p v Hy Hl Hp. destruct (ready_mono _ _ _ _ _ _ Hx' St Rd' y l p v Hy Hl Hp) as [D Al]. split; [done|].
      intros u g M Hg. specialize (Al u g M Hg). by apply lookup_delete_None; right.
    + done.
    + intros g [y Hy]. apply lookup_delete_Some in Hy as [Hne Hy]. destruct (Hall g) as (r' & Mr & ->); [by eexists|].
      exists r'. split; [|done]. apply elem_of_cons in Mr as [->|Mr]; [done|done].
    + exists m', log'. split_and!; try done.
      * cbn [ofold fst snd]. rewrite Hs, E1. cbn [mbind outcome_bind fst snd]. exact E'.
      * eapply kept_trans; [|exact Kp|exact Kp']. intros g Hg. apply lookup_delete_None. by right.
      * by eapply rtc_transitive.
Qed.

(** ** The step *)
Section step.
Context (A : arith) (m : mesh) (c : nat) (rl : list (N * N)) (directions : list (list bool)) (dc : list bool).
Context (R : reachable m) (Hb : (N.of_nat (num D2 m) + 6 <= UINT_MAX)%N) (C : conforming m).
Context (Ac : active D2 m c = true) (Hrl : polygon m c rl).
Context (Hd : forall y l, active D2 m y = true -> polygon m y l -> exists ds, directions !! y = Some ds /\ directions_of m l ds).
Context (Hdc : directions !! c = Some dc).

Local Lemma I0 : inv ∅ (view_of m).
Proof. by apply small_inv; [|lia|]. Qed.
Local Lemma En0 : ends (view_of m).
Proof. by apply small_inv; [|lia|]. Qed.
Local Lemma vp0 : vp (view_of m) (N.of_nat c) = Some rl.
Proof. apply vp_polygon. by rewrite Nat2N.id. Qed.
Local Lemma G0 : good (view_of m) rl.
Proof.
  destruct (i_poly _ _ I0 (N.of_nat c)) as (_ & l & Hl & G); [cbn; by rewrite Nat2N.id|]. rewrite vp0 in Hl. injection Hl as <-. by rewrite virt_empty in G.
Qed.

(** The edge at position [q]. *)
Local Lemma edge_at q v e : rl !! q = Some (v, N.of_nat e) -> active D1 m e = true /\
  exists a b, ve (view_of m) (N.of_nat e) = Some (a, b) /\ a <> b /\ exists d, vat dc q = Ok d /\ d = bool_decide (v = a).
Proof.
  intros Hq. pose proof (elem_of_list_lookup_2 _ _ _ Hq) as M. apply (gd_act _ _ G0) in M as [_ M]. cbn in M. rewrite Nat2N.id in M. split; [done|].
  destruct (i_edge _ _ I0 (N.of_nat e)) as (a & b & _ & _ & Hab & _); [cbn; by rewrite Nat2N.id|]. exists a, b. split; [done|].
  split; [by eapply good_ne; [apply G0| |]|]. destruct (Hd c rl Ac Hrl) as (ds & Hds & Hdir). rewrite Hdc in Hds. injection Hds as <-.
  destruct (Hdir q v (N.of_nat e) Hq) as (d & Hdq & Hiff). exists d. split; [unfold vat; by rewrite Hdq|].
  apply ve_ends in Hab as [Ha _]. rewrite Ha in Hiff. destruct d; case_bool_decide as X; try done.
  - destruct X. symmetry. destruct Hiff as [Hiff _]. specialize (Hiff eq_refl). by injection Hiff.
  - destruct Hiff as [_ Hiff]. rewrite X in Hiff. by specialize (Hiff eq_refl).
Qed.

(** After the edges of [P] have been split. *)
Local Lemma ready_split P mk e x : (forall i, va (view_of mk) D2 i = va (view_of m) D2 i) -> (forall i, vp (view_of mk) i = vp (view_of m) i) ->
  ve (view_of m) e = Some (pa x, pb x) ->
  (forall y l u g, y <> c -> active D2 m y = true -> polygon m y l -> (u, g) ∈ l -> g <> e -> (exists w, (w, e) ∈ l) -> P !! g = None) ->
  ready_but (N.of_nat c) P directions (view_of mk) e x.
Proof.
  intros Hva Hvp Hve Hal y l p v Hy Ay Hl Hp. rewrite Hva in Ay. rewrite Hvp in Hl. cbn in Ay. apply vp_polygon in Hl. split.
  - destruct (Hd _ l Ay Hl) as (ds & Hds & Hdir). exists ds. split; [done|]. destruct (Hdir p v e Hp) as (b & Hb' & Hiff). rewrite Hb'. f_equal.
    apply ve_ends in Hve as [Ho _]. rewrite Ho in Hiff. destruct b; case_bool_decide as X; try done.
    + destruct X. destruct Hiff as [Hiff _]. specialize (Hiff eq_refl). by injection Hiff.
    + destruct Hiff as [_ Hiff]. rewrite X in Hiff. by specialize (Hiff eq_refl).
  - intros u g M Hg. eapply (Hal (N.to_nat y) l u g); try done; [lia|]. exists v. by eapply elem_of_list_lookup_2.
Qed.

Lemma step_none from to m' f cells :
  SplitPolygon_NoNewVertices A c (length rl) from to m = Ok (m', Split f cells) ->
  exists m'' log, UpdateAll c [] directions m' = Ok (m'', log) /\ reachable m'' /\ conforming m'' /\
    (exists a b, cells = [a; b] /\ cut_in_two A m m'' c f a b) /\ rtc (move A) (∅, m) (∅, m'').
Proof.
  intros E. destruct (four_none A ∅ m c rl R I0 Ac vp0 ltac:(lia) from to m' f cells) as (l1 & l2 & Hrot & W); [|done|].
  { intros. apply lookup_empty. }
  exists m', []. split_and!; [done|apply (wc_reach _ _ _ _ _ _ _ _ W)|..].
  - apply inv_conforming; [apply (wc_reach _ _ _ _ _ _ _ _ W)|apply (wc_inv _ _ _ _ _ _ _ _ W)|].
    apply (cut_ends ∅ c rl l1 l2 f cells m m' R I0 Ac vp0 Hrot W), En0.
  - exists (num D2 m), (S (num D2 m)). split; [apply (wc_cells _ _ _ _ _ _ _ _ W)|].
    eapply (cut_two ∅ c rl l1 l2 f cells m m' R I0 Ac vp0 Hrot W A m m'); [apply kept_refl|done| |by apply (cut_gone _ c l1 l2 f cells m m' W)].
    intros e x Hx. by rewrite lookup_empty in Hx.
  - apply rtc_once. eapply mv_cut; [apply I0|exact Ac|apply vp0|exact Hrot|exact W].
Qed.

Lemma step_one e q v s (split : mesh -> outcome (mesh * split_result)) :
  rl !! q = Some (v, N.of_nat e) -> SplitCell1D_MiddlePoint A e m = Ok s ->
  (forall x d, pending_at {[N.of_nat e := x]} rl q s.2.1 s.2.2 d v (N.of_nat e) x -> vat dc q = Ok d ->
     (forall i v' e', i <> q -> rl !! i = Some (v', e') -> ({[N.of_nat e := x]} : gmap N pend) !! e' = None) ->
     reachable s.1 -> inv {[N.of_nat e := x]} (view_of s.1) -> active D2 s.1 c = true -> vp (view_of s.1) (N.of_nat c) = Some rl ->
     (N.of_nat (num D2 s.1) + 2 <= UINT_MAX)%N ->
     forall m' f cells, split s.1 = Ok (m', Split f cells) ->
       exists l1 l2, rot (virt {[N.of_nat e := x]} rl) (l1 ++ l2) /\ was_cut {[N.of_nat e := x]} c l1 l2 f cells s.1 m') ->
  (exists m0, remove_split e s.2 s.1 = Ok m0 /\ reachable m0 /\ conforming m0 /\ as_before m m0 /\ rtc (move A) (∅, m) (∅, m0)) /\
  forall m' f cells, split s.1 = Ok (m', Split f cells) ->
    exists m'' log, UpdateAll c [RefinedEdge s.2.2 e s.2.1 q] directions m' = Ok (m'', log) /\ reachable m'' /\ conforming m'' /\
      (exists a b, cells = [a; b] /\ cut_in_two A m m'' c f a b) /\ rtc (move A) (∅, m) (∅, m'').
Proof.
  intros Hq Es Hsp. destruct (edge_at q v e Hq) as (Ae & a & b & Hve & Hab & d & Hdq & Hdv).
  destruct (split_pend A ∅ m e s a b R I0 En0 Ae) as (m1 & -> & R1 & En1 & Co & Sp & Hm & I1 & Mv); [by intros g y Hg; rewrite lookup_empty in Hg|done..|].
  cbn [fst snd] in *. set (x := Pend a b (N.of_nat (num D0 m)) (N.of_nat (num D1 m)) (N.of_nat (S (num D1 m)))) in *.
  change (<[N.of_nat e := x]> ∅) with ({[N.of_nat e := x]} : gmap N pend) in *.
  split.
  { destruct (undo_one m R I0 En0 e a b m1 R1 Sp) as (m0 & E0 & Rm0 & Sm & Cm). exists m0. split_and!; try done.
    - apply inv_conforming; [done|by eapply same_inv; [apply I0|]|]. intros g a' b' Hg Hab'.
      rewrite (sa_va _ _ Sm) in Hg by done. rewrite (sa_ve _ _ Sm) in Hab' by done. rewrite !(sa_va _ _ Sm) by done. by eapply En0.
    - apply same_before; [done|]. intros i Hi. rewrite Cm by done. by apply Co.
    - apply rtc_once. apply mv_same; [apply I0|done|]. intros i Hi. rewrite Cm by done. by apply Co. }
  intros m' f cells E.
  assert (N2 : num D2 m1 = num D2 m) by (pose proof (es_n2 _ _ _ _ _ _ _ _ Sp) as X; cbn in X; lia).
  assert (A1 : active D2 m1 c = true) by (pose proof (es_va2 _ _ _ _ _ _ _ _ Sp (N.of_nat c)) as X; cbn in X; by rewrite Nat2N.id, Ac in X).
  assert (V1 : vp (view_of m1) (N.of_nat c) = Some rl) by (rewrite (es_vp _ _ _ _ _ _ _ _ Sp); apply vp0).
  destruct (Hsp x d) with (m' := m') (f := f) (cells := cells) as (l1 & l2 & Hrot & W); try done.
  { split; [done|by rewrite lookup_singleton|done|by eexists _, _|done]. }
  { intros i v' e' Hi Hiq. apply lookup_singleton_ne. intros <-. apply Hi.
    eapply (NoDup_lookup (rl.*2)); [apply (gd_es _ _ G0)| |]; rewrite list_lookup_fmap; [by rewrite Hiq|by rewrite Hq]. }
  { rewrite N2. lia. }
  pose proof (wc_reach _ _ _ _ _ _ _ _ W) as R'. pose proof (wc_inv _ _ _ _ _ _ _ _ W) as I'. pose proof (wc_num2 _ _ _ _ _ _ _ _ W) as Nc.
  assert (Rd : ready {[N.of_nat e := x]} directions (view_of m') (N.of_nat e) x).
  { apply (cut_ready _ c rl l1 l2 f cells m1 m' I1 A1 V1 Hrot W); [apply lookup_singleton|]. apply ready_split; [apply (es_va2 _ _ _ _ _ _ _ _ Sp)|apply (es_vp _ _ _ _ _ _ _ _ Sp)|done|].
    intros y l u g _ _ _ _ Hg _. by apply lookup_singleton_ne. }
  destruct (update_all A directions c [RefinedEdge [num D1 m; S (num D1 m)] e (num D0 m) q] {[N.of_nat e := x]} m' []) as (m'' & log & E2 & R2 & I2 & En2 & Ac2 & Kp & Mv2); try done.
  - by apply (cut_ends _ c rl l1 l2 f cells m1 m' R1 I1 A1 V1 Hrot W).
  - by apply (cut_gone _ c l1 l2 f cells m1 m' W).
  - apply active_num in A1; [|done]. lia.
  - cbn [length]. lia.
  - intros r ->%elem_of_list_singleton. cbn. exists x, (num D1 m), (S (num D1 m)). split_and!; try done. by rewrite lookup_singleton.
  - apply NoDup_singleton.
  - intros g [y [<- _]%lookup_singleton_Some]. eexists. split; [apply elem_of_list_here|done].
  - exists m'', log. split_and!; [exact E2|done|by apply inv_conforming| |].
    { exists (num D2 m), (S (num D2 m)). rewrite <- N2. split; [apply (wc_cells _ _ _ _ _ _ _ _ W)|].
      eapply (cut_two _ c rl l1 l2 f cells m1 m' R1 I1 A1 V1 Hrot W A m m''); [exact Kp|done| |done].
      intros g y [<- <-]%lookup_singleton_Some. unfold half_way. rewrite Nat2N.id. split; [done|]. split.
      { destruct (i_pend _ _ I' (N.of_nat e) x) as (F & F' & _); [apply lookup_singleton|]. rewrite <- (kp_edges _ _ _ Kp) in F by done. cbn in F. by rewrite Nat2N.id in F. }
      cbn [pw x]. split; [cbn; lia|]. destruct Hm as (p & q' & Hp & Hq' & Hc). pose proof Hve as [Ho Ht]%ve_ends. rewrite Nat2N.id in Ho, Ht.
      exists a, b, p, q'. split_and!; [done..|]. cbn. rewrite Nat2N.id, (kp_coord _ _ _ Kp), (wc_coord _ _ _ _ _ _ _ _ W). exact Hc. }
    eapply rtc_l; [exact Mv|]. eapply rtc_l; [eapply mv_cut; [exact I1|exact A1|exact V1|exact Hrot|exact W]|]. exact Mv2.
Qed.

Lemma step_two e1 e2 q1 q2 v1 v2 s t d1 d2 :
  rl !! q1 = Some (v1, N.of_nat e1) -> rl !! q2 = Some (v2, N.of_nat e2) -> q1 <> q2 ->
  (forall y l u w, y <> c -> active D2 m y = true -> polygon m y l -> (u, N.of_nat e1) ∈ l -> (w, N.of_nat e2) ∉ l) ->
  SplitCell1D_MiddlePoint A e1 m = Ok s -> SplitCell1D_MiddlePoint A e2 s.1 = Ok t ->
  vat dc q1 = Ok d1 -> vat dc q2 = Ok d2 ->
  (exists m3 m4 m5 m6 m7 m8 m9 m0, (t1 ← vget t.2.2 1; CellRemove D1 t1 t.1) = Ok m3 /\ (t0 ← vget t.2.2 0; CellRemove D1 t0 m3) = Ok m4 /\
    (s1 ← vget s.2.2 1; CellRemove D1 s1 m4) = Ok m5 /\ (s0 ← vget s.2.2 0; CellRemove D1 s0 m5) = Ok m6 /\
    CellRemove D0 t.2.1 m6 = Ok m7 /\ CellRemove D0 s.2.1 m7 = Ok m8 /\
    SetState D1 e2 true m8 = Ok m9 /\ SetState D1 e1 true m9 = Ok m0 /\ reachable m0 /\ conforming m0 /\ as_before m m0 /\ rtc (move A) (∅, m) (∅, m0)) /\
  forall m' f cells, SplitPolygon_NewVertices A c (length rl) q1 q2 s.2.1 t.2.1 s.2.2 t.2.2 d1 d2 t.1 = Ok (m', Split f cells) ->
    exists m'' log, UpdateAll c [RefinedEdge s.2.2 e1 s.2.1 q1; RefinedEdge t.2.2 e2 t.2.1 q2] directions m' = Ok (m'', log) /\
      reachable m'' /\ conforming m'' /\ (exists a b, cells = [a; b] /\ cut_in_two A m m'' c f a b) /\ rtc (move A) (∅, m) (∅, m'').
Proof.
  intros Hq1 Hq2 Hne Hshare Es Et Hd1 Hd2.
  destruct (edge_at q1 v1 e1 Hq1) as (Ae1 & a1 & b1 & Hve1 & Hab1 & d1' & Hdq1 & Hdv1). rewrite Hd1 in Hdq1. injection Hdq1 as <-.
  destruct (edge_at q2 v2 e2 Hq2) as (Ae2 & a2 & b2 & Hve2 & Hab2 & d2' & Hdq2 & Hdv2). rewrite Hd2 in Hdq2. injection Hdq2 as <-.
  assert (Hee : e1 <> e2).
  { intros ->. apply Hne. eapply (NoDup_lookup (rl.*2)); [apply (gd_es _ _ G0)| |]; rewrite list_lookup_fmap; [by rewrite Hq1|by rewrite Hq2]. }
  destruct (split_pend A ∅ m e1 s a1 b1 R I0 En0 Ae1) as (m1 & -> & R1 & En1 & Co1 & Sp1 & Hm1 & I1 & Mv1); [by intros g y Hg; rewrite lookup_empty in Hg|done..|].
  cbn [fst snd] in *. set (x1 := Pend a1 b1 (N.of_nat (num D0 m)) (N.of_nat (num D1 m)) (N.of_nat (S (num D1 m)))) in *.
  change (<[N.of_nat e1 := x1]> ∅) with ({[N.of_nat e1 := x1]} : gmap N pend) in *.
  pose proof (active_num m D1 e2 R Ae2) as Le2.
  assert (Ae2' : active D1 m1 e2 = true).
  { pose proof (es_va1 _ _ _ _ _ _ _ _ Sp1 (N.of_nat e2)) as X. rewrite decide_False in X by lia. rewrite decide_False in X by lia. cbn in X. by rewrite Nat2N.id, Ae2 in X. }
  destruct (split_pend A {[N.of_nat e1 := x1]} m1 e2 t a2 b2 R1 I1 En1 Ae2') as (m2 & -> & R2 & En2 & Co2 & Sp2 & Hm2 & I2 & Mv2).
  { intros g y [<- <-]%lookup_singleton_Some. cbn. lia. }
  { rewrite (es_ve _ _ _ _ _ _ _ _ Sp1) by lia. done. }
  { done. }
  { done. }
  cbn [fst snd] in *. set (x2 := Pend a2 b2 (N.of_nat (num D0 m1)) (N.of_nat (num D1 m1)) (N.of_nat (S (num D1 m1)))) in *.
  set (P := <[N.of_nat e2 := x2]> {[N.of_nat e1 := x1]}) in *.
  assert (P2 : P !! N.of_nat e2 = Some x2) by apply lookup_insert.
  assert (P1 : P !! N.of_nat e1 = Some x1) by (unfold P; rewrite lookup_insert_ne by lia; apply lookup_singleton).
  assert (Pn : forall g, g <> N.of_nat e1 -> g <> N.of_nat e2 -> P !! g = None).
  { intros g H1 H2. unfold P. rewrite lookup_insert_ne by done. by apply lookup_singleton_ne. }
  split.
  { destruct (undo_two m R I0 En0 e1 e2 a1 b1 a2 b2 m1 m2 R2) as (m3 & m4 & m5 & m6 & m7 & m8 & m9 & m0 & F1 & F2 & F3 & F4 & F5 & F6 & F7 & F8 & Rm0 & Sm & Cm);
      [cbn; by rewrite Nat2N.id|done|done|].
    exists m3, m4, m5, m6, m7, m8, m9, m0. split_and!; try done.
    - apply inv_conforming; [done|by eapply same_inv; [apply I0|]|]. intros g a' b' Hg Hab'.
      rewrite (sa_va _ _ Sm) in Hg by done. rewrite (sa_ve _ _ Sm) in Hab' by done. rewrite !(sa_va _ _ Sm) by done. by eapply En0.
    - apply same_before; [done|]. intros i Hi. rewrite Cm by done. rewrite Co2; [by apply Co1|].
      pose proof (es_n0 _ _ _ _ _ _ _ _ Sp1) as X. cbn in X. lia.
    - apply rtc_once. apply mv_same; [apply I0|done|]. intros i Hi. rewrite Cm by done. rewrite Co2; [by apply Co1|].
      pose proof (es_n0 _ _ _ _ _ _ _ _ Sp1) as X. cbn in X. lia. }
  intros m' f cells E.
  assert (N2 : num D2 m2 = num D2 m) by (pose proof (es_n2 _ _ _ _ _ _ _ _ Sp1) as X; pose proof (es_n2 _ _ _ _ _ _ _ _ Sp2) as Y; cbn in X, Y; lia).
  assert (Va : forall i, va (view_of m2) D2 i = va (view_of m) D2 i) by (intros i; rewrite (es_va2 _ _ _ _ _ _ _ _ Sp2); apply (es_va2 _ _ _ _ _ _ _ _ Sp1)).
  assert (Vp : forall i, vp (view_of m2) i = vp (view_of m) i) by (intros i; rewrite (es_vp _ _ _ _ _ _ _ _ Sp2); apply (es_vp _ _ _ _ _ _ _ _ Sp1)).
  assert (A2 : active D2 m2 c = true) by (pose proof (Va (N.of_nat c)) as X; cbn in X; by rewrite Nat2N.id, Ac in X).
  assert (V2' : vp (view_of m2) (N.of_nat c) = Some rl) by (rewrite Vp; apply vp0).
  destruct (four_both A P m2 c rl R2 I2 A2 V2' ltac:(lia) q1 q2 (num D0 m) (num D0 m1) [num D1 m; S (num D1 m)] [num D1 m1; S (num D1 m1)] d1 d2
              v1 v2 (N.of_nat e1) (N.of_nat e2) x1 x2 m' f cells) as (l1 & l2 & Hrot & W); try done.
  { split; [done|done|done|by eexists _, _|done]. }
  { split; [done|done|done|by eexists _, _|done]. }
  { intros i v' e' Hi1 Hi2 Hi. apply Pn; intros ->.
    - apply Hi1. eapply (NoDup_lookup (rl.*2)); [apply (gd_es _ _ G0)| |]; rewrite list_lookup_fmap; [by rewrite Hi|by rewrite Hq1].
    - apply Hi2. eapply (NoDup_lookup (rl.*2)); [apply (gd_es _ _ G0)| |]; rewrite list_lookup_fmap; [by rewrite Hi|by rewrite Hq2]. }
  pose proof (wc_reach _ _ _ _ _ _ _ _ W) as R'. pose proof (wc_inv _ _ _ _ _ _ _ _ W) as I'. pose proof (wc_num2 _ _ _ _ _ _ _ _ W) as Nc.
  assert (Rd1 : ready P directions (view_of m') (N.of_nat e1) x1).
  { apply (cut_ready _ c rl l1 l2 f cells m2 m' I2 A2 V2' Hrot W); [done|]. apply ready_split; [done..|].
    intros y l u g Hy Ay Hl M Hg [w Mw]. apply Pn; [done|]. intros ->. by eapply (Hshare y l w u). }
  assert (Rd2 : ready P directions (view_of m') (N.of_nat e2) x2).
  { apply (cut_ready _ c rl l1 l2 f cells m2 m' I2 A2 V2' Hrot W); [done|]. apply ready_split; [done..|].
    intros y l u g Hy Ay Hl M Hg [w Mw]. apply Pn; [|done]. intros ->. by eapply (Hshare y l u w). }
  destruct (update_all A directions c [RefinedEdge [num D1 m; S (num D1 m)] e1 (num D0 m) q1; RefinedEdge [num D1 m1; S (num D1 m1)] e2 (num D0 m1) q2] P m' [])
    as (m'' & log & E2 & R3 & I3 & En3 & Ac3 & Kp & Mv3); try done.
  - by apply (cut_ends _ c rl l1 l2 f cells m2 m' R2 I2 A2 V2' Hrot W).
  - by apply (cut_gone _ c l1 l2 f cells m2 m' W).
  - apply active_num in A2; [|done]. lia.
  - cbn [length]. lia.
  - intros r [-> | ->%elem_of_list_singleton]%elem_of_cons; cbn.
    + exists x1, (num D1 m), (S (num D1 m)). split_and!; done.
    + exists x2, (num D1 m1), (S (num D1 m1)). split_and!; done.
  - cbn. apply NoDup_cons. split; [|apply NoDup_singleton]. by intros ?%elem_of_list_singleton.
  - intros g [y Hy]. destruct (decide (g = N.of_nat e1)) as [->|H1].
    { eexists. split; [apply elem_of_list_here|done]. }
    destruct (decide (g = N.of_nat e2)) as [->|H2].
    { eexists. split; [apply elem_of_list_further, elem_of_list_here|done]. }
    by rewrite (Pn g H1 H2) in Hy.
  - exists m'', log. split_and!; [exact E2|done|by apply inv_conforming| |].
    { exists (num D2 m), (S (num D2 m)). rewrite <- N2. split; [apply (wc_cells _ _ _ _ _ _ _ _ W)|].
      eapply (cut_two _ c rl l1 l2 f cells m2 m' R2 I2 A2 V2' Hrot W A m m''); [exact Kp|done| |done].
      pose proof (es_n0 _ _ _ _ _ _ _ _ Sp1) as N0. cbn in N0.
      intros g y Hy. destruct (decide (g = N.of_nat e1)) as [->|Hg1]; [|destruct (decide (g = N.of_nat e2)) as [->|Hg2]; [|by rewrite (Pn g Hg1 Hg2) in Hy]].
      + rewrite P1 in Hy. injection Hy as <-. unfold half_way. rewrite Nat2N.id. split; [done|]. split.
        { destruct (i_pend _ _ I' (N.of_nat e1) x1 P1) as (F & F' & _). rewrite <- (kp_edges _ _ _ Kp) in F by done. cbn in F. by rewrite Nat2N.id in F. }
        cbn [pw x1]. split; [cbn; lia|]. destruct Hm1 as (p & q' & Hp & Hq' & Hc). pose proof Hve1 as [Ho Ht]%ve_ends. rewrite Nat2N.id in Ho, Ht.
        exists a1, b1, p, q'. split_and!; [done..|]. cbn. rewrite Nat2N.id, (kp_coord _ _ _ Kp), (wc_coord _ _ _ _ _ _ _ _ W), Co2 by lia. exact Hc.
      + rewrite P2 in Hy. injection Hy as <-. unfold half_way. rewrite Nat2N.id. split; [done|]. split.
        { destruct (i_pend _ _ I' (N.of_nat e2) x2 P2) as (F & F' & _). rewrite <- (kp_edges _ _ _ Kp) in F by done. cbn in F. by rewrite Nat2N.id in F. }
        cbn [pw x2]. split; [cbn; lia|]. destruct Hm2 as (p & q' & Hp & Hq' & Hc). pose proof Hve2 as [Ho Ht]%ve_ends. rewrite Nat2N.id in Ho, Ht.
        destruct (En0 (N.of_nat e2) a2 b2) as [La Lb]; [cbn; by rewrite Nat2N.id|done|].
        apply active_num in La; [|done]. apply active_num in Lb; [|done].
        unfold Point in Hp, Hq'. rewrite Co1 in Hp by done. rewrite Co1 in Hq' by done.
        exists a2, b2, p, q'. split_and!; [done..|]. cbn. rewrite Nat2N.id, (kp_coord _ _ _ Kp), (wc_coord _ _ _ _ _ _ _ _ W). exact Hc. }
    eapply rtc_l; [exact Mv1|]. eapply rtc_l; [exact Mv2|]. eapply rtc_l; [eapply mv_cut; [exact I2|exact A2|exact V2'|exact Hrot|exact W]|]. exact Mv3.
Qed.
End step.

(** ** The refinement of one polygon *)
Lemma no_split A c o t vs0 vs1 es0 es1 m m' : split_by_edge A c o t vs0 vs1 es0 es1 m = Ok (m', NoSplit) -> m' = m.
Proof.
  unfold split_by_edge. intros E. apply bind_ok in E as (v0 & _ & E). apply bind_ok in E as (b0 & _ & E). destruct b0; cbn [negb] in E; [|by injection E as <-].
  apply bind_ok in E as (v1 & _ & E). apply bind_ok in E as (b1 & _ & E). destruct b1; cbn [negb] in E; [|by injection E as <-].
  apply bind_ok in E as (a & _ & E). apply bind_ok in E as (p & _ & E). apply bind_ok in E as (b & _ & E). apply bind_ok in E as (q & _ & E).
  destruct (norm_zero _ _ _); [by injection E as <-|]. exfalso. repeat (apply bind_ok in E as (? & _ & E); cbv zeta in E). done.
Qed.

Definition refined (A : arith) (c : nat) (directions : list (list bool)) (m m' : mesh) (r : refine_result) : Prop :=
  match r with
  | Successfull _ _ updated f cells => exists m'' log, UpdateAll c updated directions m' = Ok (m'', log) /\
      reachable m'' /\ conforming m'' /\ (exists a b, cells = [a; b] /\ cut_in_two A m m'' c f a b) /\ rtc (move A) (∅, m) (∅, m'')
  | _ => reachable m' /\ conforming m' /\ as_before m m' /\ rtc (move A) (∅, m) (∅, m')
  end.

Lemma refine_polygon A m c rl is_triangle is_unaligned vs k dc directions extend m' r :
  reachable m -> (N.of_nat (num D2 m) + 6 <= UINT_MAX)%N -> conforming m -> active D2 m c = true -> polygon m c rl -> length vs = length rl ->
  (exists v, rl !! ei_index (cr_inter_one k) = Some (v, N.of_nat (cr_one k))) ->
  (exists v, rl !! ei_index (cr_inter_two k) = Some (v, N.of_nat (cr_two k))) ->
  ei_index (cr_inter_one k) <> ei_index (cr_inter_two k) ->
  (forall y l, active D2 m y = true -> polygon m y l -> exists ds, directions !! y = Some ds /\ directions_of m l ds) ->
  directions !! c = Some dc ->
  (forall y l u w, y <> c -> active D2 m y = true -> polygon m y l -> (u, N.of_nat (cr_one k)) ∈ l -> (w, N.of_nat (cr_two k)) ∉ l) ->
  RefinePolygonCell_ByDirection A c is_triangle is_unaligned vs k dc extend m = Ok (m', r) ->
  refined A c directions m m' r.
Proof.
  intros R Hb C Ac Hrl Hn [v1 Hone] [v2 Htwo] Hne Hd Hdc Hshare E. unfold RefinePolygonCell_ByDirection in E. cbv zeta in E. rewrite Hn in E.
  assert (Hsame : refined A c directions m m QualityCheckFailed) by (split_and!; [done|done|apply as_before_refl|apply rtc_refl]).
  destruct (extend && negb is_unaligned && _) eqn:Eext; [by injection E as <- <-|]. clear Eext.
  apply bind_ok in E as (st & _ & E). destruct st as [[[| | |] [from to]]|]; [| | | |done].
  - apply bind_ok in E as (al & _ & E). destruct al.
    { destruct (extend && _); [by injection E as <- <-|done]. }
    apply bind_ok in E as ([m1 sr] & E1 & E). cbn [fst snd] in E. destruct sr as [|f cells].
    + injection E as <- <-.
      unfold SplitPolygon_NoNewVertices in E1. apply bind_ok in E1 as (? & _ & E1). apply bind_ok in E1 as (? & _ & E1).
      by apply no_split in E1 as ->.
    + injection E as <- <-. by eapply (step_none A m c rl).
  - destruct (bool_decide _); [by injection E as <- <-|]. destruct (ei_type (cr_inter_one k)); try done.
    apply bind_ok in E as (al & _ & E). apply bind_ok in E as (bl & _ & E). destruct bl; [done|].
    set (to' := if al && _ then _ else _) in E. clearbody to'.
    apply bind_ok in E as (s & Es & E). apply bind_ok in E as (d & Ed & E). apply bind_ok in E as ([m1 sr] & E1 & E). cbn [fst snd] in E.
    destruct (step_one A m c rl directions dc R Hb C Ac Hrl Hd Hdc (cr_one k) (ei_index (cr_inter_one k)) v1 s
                (SplitPolygon_NewVertexFrom A c (length rl) (ei_index (cr_inter_one k)) to' s.2.1 s.2.2 d)) as [Hundo Hgo]; [done|done| |].
    { intros x d' Hp Hd' Hno R1 I1 A1 V1 Hs m2 f cells E2. rewrite Ed in Hd'. injection Hd' as <-.
      eapply (four_from A _ s.1 c rl R1 I1 A1 V1 Hs); [exact Hp|exact Hno|exact E2]. }
    destruct sr as [|f cells].
    + apply bind_ok in E as (m2 & E2 & [= <- <-]). destruct Hundo as (m0 & E0 & H0).
      unfold SplitPolygon_NewVertexFrom in E1. apply bind_ok in E1 as (? & _ & E1). apply bind_ok in E1 as (? & _ & E1). apply no_split in E1 as ->.
      rewrite E0 in E2. by injection E2 as <-.
    + injection E as <- <-. by eapply Hgo.
  - destruct (bool_decide _); [by injection E as <- <-|]. destruct (ei_type (cr_inter_two k)); try done.
    apply bind_ok in E as (al & _ & E). apply bind_ok in E as (bl & _ & E). destruct bl; [done|].
    set (from' := if al && _ then _ else _) in E. clearbody from'.
    apply bind_ok in E as (s & Es & E). apply bind_ok in E as (d & Ed & E). apply bind_ok in E as ([m1 sr] & E1 & E). cbn [fst snd] in E.
    destruct (step_one A m c rl directions dc R Hb C Ac Hrl Hd Hdc (cr_two k) (ei_index (cr_inter_two k)) v2 s
                (SplitPolygon_NewVertexTo A c (length rl) from' (ei_index (cr_inter_two k)) s.2.1 s.2.2 d)) as [Hundo Hgo]; [done|done| |].
    { intros x d' Hp Hd' Hno R1 I1 A1 V1 Hs m2 f cells E2. rewrite Ed in Hd'. injection Hd' as <-.
      eapply (four_to A _ s.1 c rl R1 I1 A1 V1 Hs); [exact Hp|exact Hno|exact E2]. }
    destruct sr as [|f cells].
    + apply bind_ok in E as (m2 & E2 & [= <- <-]). destruct Hundo as (m0 & E0 & H0).
      unfold SplitPolygon_NewVertexTo in E1. apply bind_ok in E1 as (? & _ & E1). apply bind_ok in E1 as (? & _ & E1). apply no_split in E1 as ->.
      rewrite E0 in E2. by injection E2 as <-.
    + injection E as <- <-. by eapply Hgo.
  - destruct (ei_type (cr_inter_one k)), (ei_type (cr_inter_two k)); try done.
    apply bind_ok in E as (s & Es & E). apply bind_ok in E as (t & Et & E). apply bind_ok in E as (d1 & Ed1 & E). apply bind_ok in E as (d2 & Ed2 & E).
    apply bind_ok in E as ([m1 sr] & E1 & E). cbn [fst snd] in E.
    destruct (step_two A m c rl directions dc R Hb C Ac Hrl Hd Hdc (cr_one k) (cr_two k) (ei_index (cr_inter_one k)) (ei_index (cr_inter_two k)) v1 v2 s t d1 d2)
      as [Hundo Hgo]; [done..|].
    destruct sr as [|f cells].
    + destruct Hundo as (m3 & m4 & m5 & m6 & m7 & m8 & m9 & m0 & F3 & F4 & F5 & F6 & F7 & F8 & F9 & F0 & H0).
      unfold SplitPolygon_NewVertices in E1. apply bind_ok in E1 as (? & _ & E1). apply bind_ok in E1 as (? & _ & E1). apply no_split in E1 as ->.
      apply bind_ok in E as (t1 & G1 & E). rewrite G1 in F3. cbn [mbind outcome_bind] in F3. rewrite F3 in E. cbn [mbind outcome_bind] in E.
      apply bind_ok in E as (t0 & G2 & E). rewrite G2 in F4. cbn [mbind outcome_bind] in F4. rewrite F4 in E. cbn [mbind outcome_bind] in E.
      apply bind_ok in E as (s1 & G3 & E). rewrite G3 in F5. cbn [mbind outcome_bind] in F5. rewrite F5 in E. cbn [mbind outcome_bind] in E.
      apply bind_ok in E as (s0 & G4 & E). rewrite G4 in F6. cbn [mbind outcome_bind] in F6. rewrite F6 in E. cbn [mbind outcome_bind] in E.
      rewrite F7 in E. cbn [mbind outcome_bind] in E. rewrite F8 in E. cbn [mbind outcome_bind] in E. rewrite F9 in E. cbn [mbind outcome_bind] in E.
      rewrite F0 in E. cbn [mbind outcome_bind] in E. by injection E as <- <-.
    + injection E as <- <-. by eapply Hgo.
Qed.
