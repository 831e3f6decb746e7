(** * The walks around a polygon and the split by an edge. *)
From Coq Require Import QArith Qcanon.
From Verif Require Import Base BaseProof QcTac FillModel GeoModel MapModel PointModel PolyModel CsrModel MeshModel MeshSpec MeshRep MeshHist MeshProof8 MeshProof9 MeshProofF MeshProg
  UtilModel UtilSpec UtilProofD RefineModel RefineSpec RefineView RefineSplit RefineReplace RefineCut RefineStep RefineStep2.
From Coq Require Import ZifyBool ZifyNat ZifyN.
Local Open Scope nat_scope.

(** ** Walks *)
Lemma walk_loop_ok n from to fuel : forall v l, walk_loop n from to v fuel = Ok l ->
  exists k, l = (fun i => (from + i) mod n) <$> seq v k /\ (from + (v + k)) mod n = to /\ forall j, j < k -> (from + (v + j)) mod n <> to.
Proof.
  induction fuel as [|fuel IH]; intros v l E; [done|]. cbn in E. destruct (Nat.eqb_spec ((from + v) mod n) to) as [H|H].
  - injection E as <-. exists 0. split_and!; [done|by rewrite Nat.add_0_r|lia].
  - apply bind_ok in E as (l' & E & [= <-]). destruct (IH (S v) l' E) as (k & -> & H1 & H2). exists (S k). split_and!.
    + done.
    + by replace (v + S k) with (S v + k) by lia.
    + intros [|j] Hj; [by rewrite Nat.add_0_r|]. replace (v + S j) with (S v + j) by lia. apply H2. lia.
Qed.

Lemma walk_ok n from to l : walk n from to = Ok l ->
  0 < n /\ to < n /\ exists k, k < n /\ l = (fun i => (from + i) mod n) <$> seq 0 k /\ (from + k) mod n = to /\ forall j, j < k -> (from + j) mod n <> to.
Proof.
  unfold walk. destruct (Nat.eqb_spec n 0) as [|Hn]; [done|]. intros E. apply walk_loop_ok in E as (k & -> & H1 & H2). cbn in H1, H2.
  split; [lia|]. split; [subst to; by apply Nat.mod_upper_bound|]. exists k. split_and!; [|done..].
  destruct (decide (k < n)) as [|Hk]; [done|]. exfalso. apply (H2 (k - n)); [lia|]. rewrite <- H1.
  replace (from + k) with (from + (k - n) + 1 * n) by lia. by rewrite Nat.mod_add.
Qed.

Lemma mod_back n a k : a < n -> (a + k) mod n = a -> exists q, k = q * n.
Proof.
  intros Ha E. exists ((a + k) / n). pose proof (Nat.div_mod (a + k) n ltac:(lia)). lia.
Qed.

Lemma mod_chain n a b i k : (a + k) mod n = b -> (b + i) mod n = (a + (k + i)) mod n.
Proof.
  intros <-. destruct (decide (n = 0)) as [->|Hn]; [cbn; lia|]. rewrite Nat.add_mod_idemp_l by done. f_equal. lia.
Qed.

Lemma walk_shift n a b k k2 : (a + k) mod n = b ->
  (fun i => (b + i) mod n) <$> seq 0 k2 = (fun i => (a + i) mod n) <$> seq k k2.
Proof.
  intros E. rewrite <- (Nat.add_0_r k), <- fmap_add_seq, <- list_fmap_compose. apply list_fmap_ext. intros _ i _. cbn. by apply mod_chain.
Qed.

(** Picking positions of a list. *)
Definition pick {A} (l : list A) (f : list nat) : list A := omap (fun i => l !! i) f.

Lemma pick_app {A} (l : list A) f s : pick l (f ++ s) = pick l f ++ pick l s.
Proof. apply omap_app. Qed.

Lemma pick_length {A} (l : list A) f : Forall (fun i => i < length l) f -> length (pick l f) = length f.
Proof.
  induction 1 as [|i f Hi Hf IH]; [done|]. unfold pick. cbn. destruct (lookup_lt_is_Some_2 l i Hi) as [x ->]. cbn. f_equal. exact IH.
Qed.
Lemma pick_lookup {A} (l : list A) f k : Forall (fun i => i < length l) f -> pick l f !! k = f !! k ≫= fun i => l !! i.
Proof.
  intros H. revert k. induction H as [|i f Hi Hf IH]; intros k; [done|]. unfold pick. cbn.
  destruct (lookup_lt_is_Some_2 l i Hi) as [x Hx]. rewrite Hx. destruct k as [|k]; cbn; [done|]. apply IH.
Qed.
Lemma pick_fmap {A B} (g : A -> B) (l : list A) f : g <$> pick l f = pick (g <$> l) f.
Proof.
  induction f as [|i f IH]; [done|]. unfold pick. cbn. rewrite list_lookup_fmap.
  destruct (l !! i); cbn; [f_equal|]; exact IH.
Qed.

Lemma mods_lt n from l : 0 < n -> Forall (fun i => i < n) ((fun i => (from + i) mod n) <$> l).
Proof. intros Hn. apply Forall_fmap, Forall_true. intros i. by apply Nat.mod_upper_bound; lia. Qed.

Lemma pick_all (l : list (N * N)) from : 0 < length l ->
  rot l (pick l ((fun i => (from + i) mod length l) <$> seq 0 (length l))).
Proof.
  intros Hn. set (k := from mod length l). exists (take k l), (drop k l). split; [by rewrite take_drop|].
  assert (Hk : k < length l) by (apply Nat.mod_upper_bound; lia).
  apply list_eq. intros i. rewrite pick_lookup by (by apply mods_lt).
  destruct (decide (i < length l)) as [Hi|Hi].
  - rewrite list_lookup_fmap, lookup_seq_lt by done. cbn.
    assert (E : (from + i) mod length l = (k + i) mod length l). { unfold k. rewrite Nat.add_mod_idemp_l by lia. done. }
    rewrite E. destruct (decide (k + i < length l)) as [H|H].
    + rewrite Nat.mod_small by done. rewrite lookup_app_l by (rewrite drop_length; lia). by rewrite lookup_drop.
    + rewrite lookup_app_r by (rewrite drop_length; lia). rewrite drop_length, lookup_take by lia.
      replace (k + i) with ((k + i - length l) + 1 * length l) by lia. rewrite Nat.mod_add by lia. rewrite Nat.mod_small by lia. f_equal. lia.
  - rewrite list_lookup_fmap, lookup_seq_ge by lia. cbn. symmetry. apply lookup_ge_None_2. rewrite app_length, take_length, drop_length. lia.
Qed.

(** ** Reading the polygon *)
Lemma get_row m r i k row v : reachable m -> RelRow r i m = Ok row -> RelGet r i k m = Ok v -> row !! k = Some v.
Proof.
  intros R. destruct (rr_of m R) as [a [_ Ra]]. rewrite (g_row _ _ Ra), (g_get _ _ Ra). unfold look.
  destruct (am_cells a (src r) !! i) as [x|]; [|done]. intros [= <-]. unfold row_of. by destruct (ac_rel x r !! k); [intros [= ->]|].
Qed.
Lemma row_get m r i k row v : reachable m -> RelRow r i m = Ok row -> row !! k = Some v -> RelGet r i k m = Ok v.
Proof.
  intros R. destruct (rr_of m R) as [a [_ Ra]]. rewrite (g_row _ _ Ra), (g_get _ _ Ra). unfold look.
  destruct (am_cells a (src r) !! i) as [x|]; [|done]. intros [= <-]. unfold row_of. by intros ->.
Qed.
Lemma get_all m r c f row : reachable m -> RelRow r c m = Ok row -> Forall (fun i => i < length row) f ->
  omapM (fun i => RelGet r c i m) f = Ok (pick row f).
Proof.
  intros R E. induction 1 as [|i f Hi Hf IH]; [done|]. cbn. destruct (lookup_lt_is_Some_2 row i Hi) as [x Hx].
  rewrite (row_get m r c i row x R E Hx). cbn. rewrite IH. cbn. unfold pick. cbn. by rewrite Hx.
Qed.

(** ** Three corners *)
Lemma omapM_length {A B} (f : A -> outcome B) l k : omapM f l = Ok k -> length k = length l.
Proof.
  revert k. induction l as [|x l IH]; intros k E; cbn in E; [by injection E as <-|].
  apply bind_ok in E as (y & _ & E). apply bind_ok in E as (k' & E & [= <-]). cbn. f_equal. by apply IH.
Qed.

Lemma area_three A ids m : IsAreaPositive A ids m = Ok true -> 3 <= length ids.
Proof.
  unfold IsAreaPositive. intros E. apply bind_ok in E as (ps & E1 & E). apply omapM_length in E1. rewrite <- E1.
  apply bind_ok in E as (u & _ & E). cbv zeta in E.
  set (vs := (fun p : vec3 => (p.1.1, p.1.2, 0%Qc)) <$> ps) in E. assert (Lv : length vs = length ps) by apply fmap_length.
  apply bind_ok in E as (un & E2 & E). apply bind_ok in E as (us & E3 & E). apply bind_ok in E as (tr & E4 & _).
  apply omapM_length in E3. unfold PolygonTriangulationByFirstVertex in E4. cbv zeta in E4.
  apply bind_ok in E4 as (q & E4 & _). destruct (2 <? length us) eqn:L; [|done].
  unfold UnalignedPoints in E2. cbv zeta in E2. apply bind_ok in E2 as (q' & E2' & E2).
  unfold vec3 in *. destruct (length vs =? 2) eqn:L2.
  - injection E2 as <-. cbn in E3. lia.
  - injection E2 as <-. rewrite E3 in L. pose proof (filter_length (fun p => PointIsAligned (geo A) (vnth vs (if p =? 0 then length vs - 1 else p - 1)) (vnth vs p) (vnth vs ((p + 1) mod length vs)) = false) (seq 0 (length vs))) as F.
    rewrite seq_length in F. lia.
Qed.

Lemma all_below_elem n l : all_below n l <-> forall v, v ∈ l -> (v < N.of_nat n)%N.
Proof. unfold all_below. by rewrite Forall_forall. Qed.

Lemma zip_chain (l : list (N * N)) v f : zip (l.*1 ++ [v]) (l.*2 ++ [f]) = l ++ [(v, f)].
Proof. rewrite zip_with_app by (by rewrite !fmap_length). cbn. f_equal. apply zip_fst_snd. Qed.

Lemma replaced_num c subs V V' : replaced c subs V V' -> (vn V' D2 = vn V D2 + N.of_nat (length subs))%N.
Proof. apply rp_n2. Qed.

(** What a successful split has done. *)
Record was_cut (P : gmap N pend) (c : nat) (l1 l2 : list (N * N)) (f : nat) (cells : list nat) (m m' : mesh) : Prop := {
  wc_reach : reachable m';
  wc_edge : f = num D1 m;
  wc_cells : cells = [num D2 m; S (num D2 m)];
  wc_num1 : num D1 m' = S (num D1 m);
  wc_num0 : num D0 m' = num D0 m;
  wc_num2 : num D2 m' = 2 + num D2 m;
  wc_coord : forall i, Cell0DCoordinates i m' = Cell0DCoordinates i m;
  wc_replaced : replaced (N.of_nat c) [l1 ++ [(start l2 0, N.of_nat f)]; l2 ++ [(start l1 0, N.of_nat f)]] (view_of m) (view_of m');
  wc_len1 : 2 <= length l1;
  wc_len2 : 2 <= length l2;
  wc_inv : inv P (view_of m')
}.

Lemma split_by_edge_cut A P m c rl l1 l2 o t vs0 vs1 es0 es1 a b m' f cells :
  reachable m -> inv P (view_of m) -> active D2 m c = true -> vp (view_of m) (N.of_nat c) = Some rl -> rot (virt P rl) (l1 ++ l2) ->
  o m = Ok b -> (l2 <> [] -> b = start l2 0) -> t m = Ok a -> (l1 <> [] -> a = start l1 0) ->
  vs0 m = Ok (l1.*1 ++ [b]) -> vs1 m = Ok (l2.*1 ++ [a]) ->
  (forall e m5, reachable m5 -> RelRow E2 c m5 = Ok (rl.*2) -> es0 e m5 = Ok (l1.*2 ++ [e])) ->
  (forall e m5, reachable m5 -> RelRow E2 c m5 = Ok (rl.*2) -> es1 e m5 = Ok (l2.*2 ++ [e])) ->
  (N.of_nat (num D2 m) + 2 <= UINT_MAX)%N ->
  split_by_edge A c o t vs0 vs1 es0 es1 m = Ok (m', Split f cells) -> was_cut P c l1 l2 f cells m m'.
Proof.
  intros R I Ac Hrl Hrot Ho Hb Ht Ha Hv0 Hv1 He0 He1 Hsm E. unfold split_by_edge in E.
  rewrite Hv0 in E. cbn [mbind outcome_bind] in E. apply bind_ok in E as (b0 & A0 & E). destruct b0; [|done]. cbn [negb] in E.
  rewrite Hv1 in E. cbn [mbind outcome_bind] in E. apply bind_ok in E as (b1 & A1 & E). destruct b1; [|done]. cbn [negb] in E.
  apply area_three in A0, A1. rewrite app_length, fmap_length in A0, A1. cbn in A0, A1.
  assert (L1 : l1 <> []) by (intros ->; cbn in A0; lia). assert (L2 : l2 <> []) by (intros ->; cbn in A1; lia).
  rewrite (Hb L2) in *. rewrite (Ha L1) in *. clear Ha Hb a b.
  rewrite Ho in E. cbn [mbind outcome_bind] in E. apply bind_ok in E as (p & _ & E). rewrite Ht in E. cbn [mbind outcome_bind] in E.
  apply bind_ok in E as (q & _ & E). destruct (norm_zero _ _ _); [done|].
  destruct (new_edge m (start l2 0) (start l1 0) 0%N R) as (m1 & m2 & m3 & m4 & m5 & F1 & F2 & F3 & F4 & F5 & R5 & G & _ & _ & _ & _).
  rewrite F1 in E. cbn [mbind outcome_bind fst snd] in E. rewrite F2 in E. cbn [mbind outcome_bind] in E.
  rewrite F3 in E. cbn [mbind outcome_bind] in E. rewrite F4 in E. cbn [mbind outcome_bind] in E. rewrite F5 in E. cbn [mbind outcome_bind] in E.
  pose proof (active_num m D2 c R Ac) as Hc. pose proof Hrl as Hpoly. apply vp_polygon in Hpoly. rewrite Nat2N.id in Hpoly. destruct Hpoly as [PV PE].
  assert (PE5 : RelRow E2 c m5 = Ok (rl.*2)) by (by rewrite (gr_row _ _ _ G)).
  rewrite (He0 _ _ R5 PE5), (He1 _ _ R5 PE5) in E. cbn [mbind outcome_bind] in E. rewrite !zip_chain in E.
  set (nf := num D1 m) in *. set (fA := l1 ++ [(start l2 0, N.of_nat nf)]) in *. set (fB := l2 ++ [(start l1 0, N.of_nat nf)]) in *.
  assert (W : good (view_of m) (l1 ++ l2)).
  { destruct (i_poly _ _ I (N.of_nat c)) as (_ & k & Hk & Gk); [cbn; by rewrite Nat2N.id|]. rewrite Hrl in Hk. injection Hk as <-. by eapply rot_good. }
  assert (Bnd : forall v e, (v, e) ∈ l1 ++ l2 -> (v < N.of_nat (num D0 m))%N /\ (e < N.of_nat (num D1 m))%N).
  { intros v e M. destruct (gd_act _ _ W v e M) as [B1 B2]. split; by apply (i_lt _ _ I) in B1, B2. }
  assert (St : forall k : list (N * N), k <> [] -> exists e, (start k 0, e) ∈ k).
  { intros [|[v e] k] Hk; [done|]. exists e. apply elem_of_list_here. }
  destruct (St l1 L1) as [ea Hea]. destruct (St l2 L2) as [eb Heb].
  assert (Below : Forall (fun s => all_below (num D0 m) (s.*1) /\ all_below (S nf) (s.*2)) [fA; fB]).
  { assert (B1 : forall v e, (v, e) ∈ l1 -> (v < N.of_nat (num D0 m))%N /\ (e < N.of_nat nf)%N) by (intros v e M; apply Bnd, elem_of_app; by left).
    assert (B2 : forall v e, (v, e) ∈ l2 -> (v < N.of_nat (num D0 m))%N /\ (e < N.of_nat nf)%N) by (intros v e M; apply Bnd, elem_of_app; by right).
    constructor; [|constructor; [|constructor]]; unfold fA, fB; rewrite !fmap_app; split; apply all_below_elem; intros v;
      rewrite elem_of_app; cbn; rewrite elem_of_list_singleton; intros [M| ->];
      try (apply elem_of_list_fmap in M as ([v' e'] & -> & M); cbn; (apply B1 in M || apply B2 in M); lia); try lia.
    - by apply (B2 _ eb). - by apply (B1 _ ea). }
  destruct (cut_view m c (start l2 0) (start l1 0) fA fB (N.of_nat nf) R Ac eq_refl Below m1 m2 m3 m4 m5 F1 F2 F3 F4 F5) as
    (m6 & m7 & m8 & E6 & E7 & E8 & R8 & Rp & Af & Ef & Rf & K1 & K0 & Coo); [lia|]. fold nf in E7, E8.
  rewrite E6 in E. cbn [mbind outcome_bind fst snd] in E. rewrite (vget_Ok [num D2 m; S (num D2 m)] 1 (S (num D2 m)) eq_refl) in E.
  cbn [mbind outcome_bind] in E. rewrite E7 in E. cbn [mbind outcome_bind] in E.
  rewrite (vget_Ok [num D2 m; S (num D2 m)] 0 (num D2 m) eq_refl) in E. cbn [mbind outcome_bind] in E. rewrite E8 in E. cbn [mbind outcome_bind] in E.
  injection E as <- <- <-.
  pose proof (rp_n2 _ _ _ _ Rp) as K2. cbn in K2.
  assert (Inv : inv P (view_of m8)).
  { eapply (cut_inv P (view_of m) (view_of m8) (N.of_nat c) rl l1 l2 (N.of_nat nf) I Rp); try done.
    - cbn. by rewrite Nat2N.id.
    - unfold fA in *. rewrite app_length. cbn. lia.
    - unfold fB in *. rewrite app_length. cbn. lia.
    - cbn. lia.
    - rewrite Rf. cbn. do 2 f_equal. lia.
    - cbn. lia. }
  split; [done|done|done|done|done|lia|done|done|lia|lia|done].
Qed.
