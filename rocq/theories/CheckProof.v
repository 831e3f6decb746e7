(** * The checks of plane meshes: what they accept. *)
From Coq Require Import QArith Qcanon.
From Coq Require Import ZifyBool ZifyNat ZifyN.
From stdpp Require Import sorting.
From Verif Require Import Base BaseProof QcTac FillModel GeoModel MapModel PointModel PointSpec PolyModel HullModel CsrModel MeshModel
  MeshSpec MeshRep MeshHist MeshProof4 MeshProof MeshProof8 MeshProof9 MeshProofE UtilSpec RefineModel RefineSpec CheckModel CheckSpec.
Local Open Scope nat_scope.

Lemma each_ok {X} (f : X -> outcome unit) l : each f l = Ok tt <-> forall x, x ∈ l -> f x = Ok tt.
Proof.
  unfold each. induction l as [|x l IH]; cbn.
  - split; [|done]. intros _ x H. by apply elem_of_nil in H.
  - rewrite bind_ok. split.
    + intros ([] & E & F) y Y. apply elem_of_cons in Y as [-> |Y]; [done|]. by apply IH.
    + intros H. exists tt. split; [apply H; by left|]. apply IH. intros y Y. apply H. by right.
Qed.
Lemma when_ok b x : when b x = Ok tt <-> (b = true -> x = Ok tt).
Proof. destruct b; cbn; split; auto. done. Qed.
Lemma seq_bind_ok (x : outcome unit) {B} (y : outcome B) b : (x;; y) = Ok b <-> x = Ok tt /\ y = Ok b.
Proof. rewrite bind_ok. split; [intros ([] & ? & ?); done|]. intros [? ?]. by exists tt. Qed.
Lemma elem_above i j n : j ∈ above i n <-> i < j < n.
Proof. unfold above. rewrite elem_of_seq. lia. Qed.
Lemma req b : require b = Ok tt <-> b = true.
Proof. apply require_ok. Qed.

Section mesh.
Context (m : mesh) (RM : reachable m).

Lemma row_some r i : i < num (src r) m -> exists l, RelRow r i m = Ok l.
Proof.
  intros L. destruct (reachable_rep m RM) as [a H]. rewrite (g_row _ _ H). rewrite (g_num _ _ H) in L. unfold look, anum in *.
  destruct (lookup_lt_is_Some_2 _ _ L) as [x X]. rewrite X. eauto.
Qed.
Lemma row_lt r i l : RelRow r i m = Ok l -> i < num (src r) m.
Proof.
  destruct (reachable_rep m RM) as [a H]. rewrite (g_row _ _ H), (g_num _ _ H). unfold look, anum.
  destruct (am_cells a (src r) !! i) eqn:E; [|done]. intros _. by eapply lookup_lt_Some.
Qed.
Lemma number_row r i l : RelRow r i m = Ok l -> RelNumber r i m = Ok (N.of_nat (length l)).
Proof.
  destruct (reachable_rep m RM) as [a H]. rewrite (g_row _ _ H), (g_count _ _ H). unfold look.
  destruct (am_cells a (src r) !! i) eqn:E; [|done]. by intros [= <-].
Qed.
Lemma get_row r i k l : RelRow r i m = Ok l -> RelGet r i k m = match l !! k with Some v => Ok v | None => Abort end.
Proof.
  destruct (reachable_rep m RM) as [a H]. rewrite (g_row _ _ H), (g_get _ _ H). unfold look.
  destruct (am_cells a (src r) !! i) eqn:E; [|done]. by intros [= <-].
Qed.
Lemma ends_some e : e < num D1 m -> exists o t, ends m e o t.
Proof.
  intros L. destruct (reachable_rep m RM) as [a H]. unfold ends. rewrite (g_origin _ _ H), (g_end _ _ H).
  rewrite (g_num _ _ H) in L. unfold look, anum in *. destruct (lookup_lt_is_Some_2 _ _ L) as [x X]. rewrite X. eauto.
Qed.
Lemma ends_lt e o t : ends m e o t -> e < num D1 m.
Proof.
  intros [E _]. revert E. unfold Cell1DOrigin. destruct (e <? num D1 m) eqn:L; [intros _; lia|done].
Qed.
Lemma joins_lt f o t : joins m (N.of_nat f) o t -> f < num D1 m.
Proof. unfold joins. rewrite Nat2N.id. intros [E|E]; [apply (ends_lt f o t)|apply (ends_lt f t o)]; exact E. Qed.
Lemma by_extremes_inv o t x : Cell1DByExtremes o t m = Ok x -> exists_in D0 m o /\ exists_in D0 m t.
Proof.
  unfold Cell1DByExtremes, exists_in. rewrite !seq_bind_ok, !req. lia.
Qed.
Lemma by_extremes o t : exists_in D0 m o -> exists_in D0 m t ->
  exists f, Cell1DByExtremes o t m = Ok f /\ f <= num D1 m /\
    (forall g, g < f -> ~ ends m g o t) /\ (f < num D1 m -> ends m f o t).
Proof.
  unfold exists_in. intros O T. destruct (by_extremes_spec m (N.to_nat o) (N.to_nat t) RM) as (f & E & L & H & K); [lia|lia|].
  rewrite !N2Nat.id in *. by exists f.
Qed.

(** ** Edges *)

Lemma edge_ok e : e < num D1 m -> check_edge e m = Ok tt -> exists o t, ends m e o t /\ exists_in D0 m o /\ exists_in D0 m t /\ o <> t /\
  (forall f, f < e -> ~ ends m f o t) /\ (forall f, ~ ends m f t o) /\ (forall f, e < f -> ~ ends m f o t).
Proof.
  intros L H. destruct (ends_some e L) as (o & t & O & T). unfold check_edge in H. rewrite O in H. cbn [mbind outcome_bind] in H.
  rewrite T in H. cbn [mbind outcome_bind] in H.
  apply bind_ok in H as (x & X & H). rewrite seq_bind_ok, req in H. destruct H as [E1 H].
  apply bind_ok in H as (y & Y & H). rewrite seq_bind_ok, req in H. destruct H as [E2 H].
  destruct (by_extremes_inv _ _ _ X) as [EO ET].
  destruct (by_extremes o t EO ET) as (f & F & LF & F1 & F2). destruct (by_extremes t o ET EO) as (g & G & LG & G1 & G2).
  assert (f = e) as -> by (rewrite X in F; injection F as ->; lia). assert (g = num D1 m) as -> by (rewrite Y in G; injection G as ->; lia).
  exists o, t. split; [done|]. split; [done|]. split; [done|].
  assert (forall f, ~ ends m f t o) as K.
  { intros f Q. apply (G1 f); [by eapply ends_lt|done]. }
  split; [intros ->; by apply (K e)|]. split; [done|]. split; [done|].
  intros f LT Q. rewrite each_ok in H. specialize (H f). rewrite elem_above in H.
  specialize (H ltac:(split; [done|by eapply ends_lt])). destruct Q as [QO QT]. unfold check_two_edges in H.
  rewrite O, T, QO, QT in H. cbn [mbind outcome_bind] in H. rewrite !N.eqb_refl in H. done.
Qed.
Lemma edges_iff : each (fun e => check_edge e m) (seq 0 (num D1 m)) = Ok tt <-> forall e, e < num D1 m -> good_edge m e.
Proof.
  rewrite each_ok. split.
  - intros H e L. specialize (H e). rewrite elem_of_seq in H. destruct (edge_ok e L) as (o & t & E & O & T & N & H1 & H2 & H3); [apply H; lia|].
    exists o, t. do 4 (split; [done|]). intros f NE [J|J]; rewrite Nat2N.id in J.
    + destruct (decide (f < e)) as [LT|GE]; [by apply (H1 f)|]. apply (H3 f); [lia|done].
    + by apply (H2 f).
  - intros H e EL. apply elem_of_seq in EL. destruct (H e) as (o & t & [O T] & EO & ET & N & U); [lia|].
    assert (forall f, f <> e -> ~ ends m f o t) as U1 by (intros f NE Q; apply (U f NE); left; rewrite Nat2N.id; exact Q).
    assert (forall f, ~ ends m f t o) as U2.
    { intros f Q. destruct (decide (f = e)) as [-> |NE].
      - destruct Q as [QO _]. rewrite O in QO. congruence.
      - apply (U f NE). right. rewrite Nat2N.id. exact Q. }
    unfold check_edge. rewrite O. cbn [mbind outcome_bind]. rewrite T. cbn [mbind outcome_bind].
    destruct (by_extremes o t EO ET) as (f & F & LF & F1 & F2). destruct (by_extremes t o ET EO) as (g & G & LG & G1 & G2).
    rewrite F. cbn [mbind outcome_bind].
    assert (f = e) as ->.
    { destruct (decide (f = e)) as [|NE]; [done|]. exfalso. destruct (decide (f < num D1 m)) as [LT|GE].
      - by apply (U1 f NE), F2.
      - apply (F1 e); [lia|done]. }
    rewrite Nat.eqb_refl. cbn [require mbind outcome_bind]. rewrite G. cbn [mbind outcome_bind].
    assert (g = num D1 m) as ->.
    { destruct (decide (g < num D1 m)) as [LT|GE]; [|lia]. exfalso. by apply (U2 g), G2. }
    rewrite Nat.eqb_refl. cbn [require mbind outcome_bind]. apply each_ok. intros f FA. apply elem_above in FA.
    destruct (ends_some f) as (o' & t' & [O' T']); [lia|]. unfold check_two_edges. rewrite O, T, O', T'. cbn [mbind outcome_bind].
    rewrite seq_bind_ok, !req. split.
    + destruct (N.eqb_spec o o') as [<-|]; [|done]. destruct (N.eqb_spec t t') as [<-|]; [|done]. exfalso. apply (U1 f); [lia|done].
    + destruct (N.eqb_spec t o') as [<-|]; [|done]. destruct (N.eqb_spec o t') as [<-|]; [|done]. exfalso. by apply (U2 f).
Qed.

(** ** Looking for an edge of a polygon *)

Lemma find_inv o t es p x : find_edge_in m o t es p = Ok x ->
  p <= x <= p + length es /\ (forall k e, k < x - p -> es !! k = Some e -> exists_in D1 m e /\ ~ ends m (N.to_nat e) o t) /\
  (forall e, es !! (x - p) = Some e -> exists_in D1 m e /\ ends m (N.to_nat e) o t).
Proof.
  assert (length (mext m) = 2 * num D1 m) as LEN.
  { destruct (reachable_rep m RM) as [a H].
    rewrite (r_ext _ _ H), (uniform_concat_length 2) by apply (r_geo _ _ H D1). rewrite fmap_length, (g_num _ _ H). done. }
  revert p. induction es as [|e es IH]; intros p; cbn [find_edge_in].
  - intros [= <-]. split; [cbn; lia|]. split; intros; by rewrite lookup_nil in *.
  - intros H. apply bind_ok in H as (a & EA & H). apply bind_ok in H as (b & EB & H).
    unfold ext_unchecked in EA, EB. destruct (e <? N.of_nat (length (mext m)))%N eqn:LE; [|done].
    rewrite vget_ok in EA, EB. pose proof (lookup_lt_Some _ _ _ EB) as LB.
    assert (exists_in D1 m e) as EX by (unfold exists_in; lia).
    assert (ends m (N.to_nat e) a b) as EN.
    { unfold ends, Cell1DOrigin, Cell1DEnd. rewrite !require_true by lia. rewrite Nat.add_0_r in EA. split; by apply vget_Ok. }
    destruct ((a =? o)%N && (b =? t)%N) eqn:Q.
    + injection H as <-. assert (a = o) as -> by lia. assert (b = t) as -> by lia. cbn [length]. split; [lia|]. rewrite Nat.sub_diag.
      split; [intros k e' K; lia|]. cbn. by intros e' [= <-].
    + apply IH in H as (L & H1 & H2). cbn [length]. split; [lia|]. split.
      * intros [|k] e' K E'; cbn in E'.
        -- injection E' as <-. split; [done|]. intros [A B]. destruct EN as [EN1 EN2]. rewrite EN1 in A. rewrite EN2 in B. injection A as ->. injection B as ->. lia.
        -- apply (H1 k e'); [lia|done].
      * destruct (x - p) as [|d] eqn:D; [lia|]. cbn. intros e' E'. apply H2. replace (x - S p) with d by lia. done.
Qed.
Lemma find_row c o t es x : RelRow E2 c m = Ok es -> FindEdgeByExtremes E2 c o t m = Ok x ->
  x <= length es /\ (forall k e, k < x -> es !! k = Some e -> exists_in D1 m e /\ ~ ends m (N.to_nat e) o t) /\
  (forall e, es !! x = Some e -> exists_in D1 m e /\ ends m (N.to_nat e) o t).
Proof.
  intros R H. unfold FindEdgeByExtremes in H. rewrite R in H. cbn [mbind outcome_bind] in H. apply find_inv in H as (L & H1 & H2).
  rewrite Nat.sub_0_r in H1, H2. split; [lia|]. done.
Qed.
Lemma find_some c o t es : RelRow E2 c m = Ok es -> Forall (exists_in D1 m) es -> exists x, FindEdgeByExtremes E2 c o t m = Ok x /\
  x <= length es /\ (forall k e, k < x -> es !! k = Some e -> ~ ends m (N.to_nat e) o t) /\
  (forall e, es !! x = Some e -> ends m (N.to_nat e) o t).
Proof.
  intros R F. destruct (find_edge_in_spec m o t es 0 RM F) as (x & E & L & H1 & H2). exists x.
  unfold FindEdgeByExtremes. rewrite R. cbn [mbind outcome_bind]. done.
Qed.

(** ** Sides *)

Lemma good_edge_ends e o t f : (forall e, e < num D1 m -> good_edge m e) -> ends m e o t ->
  (ends m f o t -> f = e) /\ ~ ends m f t o /\ o <> t.
Proof.
  intros G E. destruct (G e) as (o' & t' & E' & _ & _ & N & U); [by eapply ends_lt|].
  assert (o' = o /\ t' = t) as [-> ->] by (destruct E as [E1 E2], E' as [E3 E4]; split; congruence).
  split; [|split; [|done]].
  - intros F. destruct (decide (f = e)) as [|NE]; [done|]. exfalso. apply (U f NE). left. by rewrite Nat2N.id.
  - intros F. destruct (decide (f = e)) as [-> |NE].
    + destruct F as [F _], E as [E _]. congruence.
    + apply (U f NE). right. by rewrite Nat2N.id.
Qed.

Lemma sides_ok c vs es : RelRow V2 c m = Ok vs -> RelRow E2 c m = Ok es -> check_sides c m = Ok tt ->
  NoDup es /\ Forall (exists_in D1 m) es /\
  forall k e v w, es !! k = Some e -> vs !! k = Some v -> vs !! ((k + 1) mod length es) = Some w -> joins m e v w.
Proof.
  intros RV RE H. unfold check_sides in H. rewrite (number_row _ _ _ RE) in H. cbn [mbind outcome_bind] in H. rewrite Nat2N.id in H.
  rewrite each_ok in H.
  assert (forall k e, es !! k = Some e -> exists v w, vs !! k = Some v /\ vs !! ((k + 1) mod length es) = Some w /\
    exists_in D1 m e /\
    ((ends m (N.to_nat e) v w /\ forall j f, j < k -> es !! j = Some f -> ~ ends m (N.to_nat f) v w) \/
     (ends m (N.to_nat e) w v /\ forall j f, j < k -> es !! j = Some f -> ~ ends m (N.to_nat f) w v))) as K.
  { intros k e E. specialize (H k). rewrite elem_of_seq in H. pose proof (lookup_lt_Some _ _ _ E) as L.
    specialize (H ltac:(lia)). unfold check_side in H. rewrite !(get_row _ _ _ _ RV) in H.
    destruct (vs !! k) as [v|] eqn:V; [|done]. cbn [mbind outcome_bind] in H.
    destruct (vs !! ((k + 1) mod length es)) as [w|] eqn:W; [|done]. cbn [mbind outcome_bind] in H.
    apply bind_ok in H as (x & X & H). apply bind_ok in H as (y & Y & H). rewrite req in H. exists v, w. split; [done|]. split; [done|].
    destruct (find_row _ _ _ _ _ RE X) as (LX & X1 & X2). destruct (find_row _ _ _ _ _ RE Y) as (LY & Y1 & Y2).
    assert (x = k \/ y = k) as [-> | ->] by lia.
    - destruct (X2 e E) as [EX EN]. split; [done|]. left. split; [done|]. intros j f LJ EJ. by apply (X1 j f).
    - destruct (Y2 e E) as [EX EN]. split; [done|]. right. split; [done|]. intros j f LJ EJ. by apply (Y1 j f). }
  split; [|split].
  - apply NoDup_alt. assert (forall i j e, i < j -> es !! i = Some e -> es !! j = Some e -> False) as Q.
    { intros i j e L I J. destruct (K j e J) as (v & w & _ & _ & _ & [[E U]|[E U]]); by apply (U i e). }
    intros i j e I J. destruct (decide (i < j)) as [|GE]; [exfalso; by apply (Q i j e)|]. destruct (decide (j < i)); [exfalso; by apply (Q j i e)|lia].
  - apply Forall_forall. intros e EE. apply elem_of_list_lookup in EE as [k E]. destruct (K k e E) as (v & w & _ & _ & EX & _). done.
  - intros k e v w E V W. destruct (K k e E) as (v' & w' & V' & W' & _ & [[EN _]|[EN _]]).
    + rewrite V in V'. rewrite W in W'. injection V' as <-. injection W' as <-. left. exact EN.
    + rewrite V in V'. rewrite W in W'. injection V' as <-. injection W' as <-. right. exact EN.
Qed.
Lemma sides_iff c : (forall e, e < num D1 m -> good_edge m e) -> balanced m -> c < num D2 m ->
  check_sides c m = Ok tt <-> good_sides m c.
Proof.
  intros G B L. destruct (row_some V2 c L) as [vs RV]. destruct (row_some E2 c L) as [es RE]. split.
  - intros H. destruct (sides_ok c vs es RV RE H) as (ND & F & J). by exists vs, es.
  - intros (vs' & es' & RV' & RE' & ND & F & J). rewrite RV in RV'. rewrite RE in RE'. injection RV' as <-. injection RE' as <-.
    pose proof (B c vs es RV RE) as LE.
    unfold check_sides. rewrite (number_row _ _ _ RE). cbn [mbind outcome_bind]. rewrite Nat2N.id. apply each_ok. intros k KL.
    apply elem_of_seq in KL. unfold check_side. rewrite !(get_row _ _ _ _ RV).
    destruct (lookup_lt_is_Some_2 vs k) as [v V]; [lia|].
    destruct (lookup_lt_is_Some_2 vs ((k + 1) mod length es)) as [w W]; [rewrite LE; apply Nat.mod_upper_bound; lia|].
    destruct (lookup_lt_is_Some_2 es k) as [e E]; [lia|]. rewrite V, W. cbn [mbind outcome_bind].
    destruct (find_some c v w es RE F) as (x & X & LX & X1 & X2). destruct (find_some c w v es RE F) as (y & Y & LY & Y1 & Y2).
    rewrite X. cbn [mbind outcome_bind]. rewrite Y. cbn [mbind outcome_bind]. apply req.
    assert (forall o t z, ends m (N.to_nat e) o t -> z <= length es -> (forall j f, j < z -> es !! j = Some f -> ~ ends m (N.to_nat f) o t) ->
      (forall f, es !! z = Some f -> ends m (N.to_nat f) o t) -> z = k) as Q.
    { intros o t z EN LZ Z1 Z2. destruct (decide (k < z)) as [LT|GE]; [exfalso; by apply (Z1 k e)|].
      destruct (lookup_lt_is_Some_2 es z) as [f EF]; [lia|]. specialize (Z2 f EF).
      destruct (good_edge_ends (N.to_nat e) o t (N.to_nat f) G EN) as (U & _). specialize (U Z2). apply N2Nat.inj in U as ->.
      rewrite NoDup_alt in ND. by apply (ND z k e). }
    destruct (J k e v w E V W) as [EN|EN].
    + rewrite (Q v w x EN LX X1 X2). assert (k <? length es = true) as -> by lia. by rewrite Nat.eqb_refl.
    + rewrite (Q w v y EN LY Y1 Y2). assert (k <? length es = true) as -> by lia. rewrite Nat.eqb_refl. apply orb_true_r.
Qed.

(** ** Neighbours *)

Lemma neighbour_iff e c : (forall e, e < num D1 m -> good_edge m e) -> balanced m -> c < num D2 m ->
  check_neighbour e c m = Ok tt <-> bordered_by m c e.
Proof.
  intros G B L. destruct (row_some V2 c L) as [vs RV]. destruct (row_some E2 c L) as [es RE]. pose proof (B c vs es RV RE) as LE.
  destruct (rel_find_spec m E2 c (N.of_nat e) es RE) as (k & K & LK & K1 & K2).
  unfold check_neighbour. rewrite (number_row _ _ _ RE), K. cbn [mbind outcome_bind]. rewrite Nat2N.id.
  split.
  - intros H. destruct (Nat.eqb_spec (length es) 0) as [Z|NZ]; [done|]. rewrite !(get_row _ _ _ _ RV) in H.
    destruct (vs !! ((k + 1) mod length es)) as [w|] eqn:W; [|done]. cbn [mbind outcome_bind] in H.
    destruct (vs !! k) as [v|] eqn:V; [|done]. cbn [mbind outcome_bind] in H. pose proof (lookup_lt_Some _ _ _ V) as LV.
    specialize (K2 ltac:(lia)). apply bind_ok in H as (x & X & H). destruct (find_row _ _ _ _ _ RE X) as (LX & X1 & X2).
    assert (forall y, y = length es -> (forall k e, k < y -> es !! k = Some e -> exists_in D1 m e /\ ~ ends m (N.to_nat e) v w) \/
      (forall k e, k < y -> es !! k = Some e -> exists_in D1 m e /\ ~ ends m (N.to_nat e) w v) -> Forall (exists_in D1 m) es) as FA.
    { intros y -> Q. apply Forall_forall. intros f EF. apply elem_of_list_lookup in EF as [j J]. pose proof (lookup_lt_Some _ _ _ J).
      destruct Q as [Q|Q]; by destruct (Q j f). }
    destruct (Nat.eqb_spec x k) as [-> |NX].
    + apply bind_ok in H as (y & Y & H). rewrite req in H. destruct (find_row _ _ _ _ _ RE Y) as (LY & Y1 & Y2).
      assert (y = length es) as EY by lia. destruct (X2 _ K2) as [_ EN]. rewrite Nat2N.id in EN.
      exists vs, es, k, v, w. split_and!; try done.
      * apply (FA y EY). by left.
      * right. rewrite Nat2N.id. exact EN.
    + destruct (Nat.eqb_spec x (length es)) as [EX|NX']; [|done]. apply bind_ok in H as (y & Y & H). rewrite req in H.
      destruct (find_row _ _ _ _ _ RE Y) as (LY & Y1 & Y2). assert (y = k) as -> by lia. destruct (Y2 _ K2) as [_ EN]. rewrite Nat2N.id in EN.
      exists vs, es, k, v, w. split_and!; try done.
      * apply (FA x EX). by right.
      * left. rewrite Nat2N.id. exact EN.
  - intros (vs' & es' & k' & v & w & RV' & RE' & F & E & FST & V & W & J). rewrite RV in RV'. rewrite RE in RE'. injection RV' as <-. injection RE' as <-.
    pose proof (lookup_lt_Some _ _ _ E) as LE'.
    assert (k' = k) as ->.
    { destruct (decide (k < k')) as [LT|GE]; [exfalso; apply (FST k LT); apply K2; lia|].
      destruct (decide (k' < k)) as [LT|GE']; [exfalso; by apply (K1 k' LT)|lia]. }
    destruct (Nat.eqb_spec (length es) 0) as [Z|NZ]; [lia|]. rewrite !(get_row _ _ _ _ RV), V, W. cbn [mbind outcome_bind].
    destruct (find_some c w v es RE F) as (x & X & LX & X1 & X2). destruct (find_some c v w es RE F) as (y & Y & LY & Y1 & Y2).
    rewrite X. cbn [mbind outcome_bind].
    assert (forall o t z, ends m e o t -> z <= length es -> (forall j f, j < z -> es !! j = Some f -> ~ ends m (N.to_nat f) o t) ->
      (forall f, es !! z = Some f -> ends m (N.to_nat f) o t) -> z = k) as Q.
    { intros o t z EN LZ Z1 Z2. destruct (decide (k < z)) as [LT|GE]; [exfalso; apply (Z1 k (N.of_nat e)); [done|done|by rewrite Nat2N.id]|].
      destruct (lookup_lt_is_Some_2 es z) as [f EF]; [lia|]. specialize (Z2 f EF).
      destruct (good_edge_ends e o t (N.to_nat f) G EN) as (U & _). specialize (U Z2). assert (f = N.of_nat e) as -> by lia.
      destruct (decide (z < k)) as [LT|GE2]; [exfalso; by apply (K1 z LT)|lia]. }
    assert (forall o t z, ends m e o t -> z <= length es -> (forall f, es !! z = Some f -> ends m (N.to_nat f) t o) -> z = length es) as Q2.
    { intros o t z EN LZ Z2. destruct (decide (z < length es)) as [LT|GE]; [|lia]. exfalso.
      destruct (lookup_lt_is_Some_2 es z) as [f EF]; [lia|]. specialize (Z2 f EF).
      destruct (good_edge_ends e o t (N.to_nat f) G EN) as (_ & U & _). by apply U. }
    unfold joins in J. rewrite Nat2N.id in J. destruct J as [EN|EN].
    + assert (x = length es) as -> by (by apply (Q2 v w)). assert (y = k) as -> by (by apply (Q v w)).
      destruct (Nat.eqb_spec (length es) k); [lia|]. rewrite Nat.eqb_refl. rewrite Y. cbn [mbind outcome_bind]. by rewrite Nat.eqb_refl.
    + assert (x = k) as -> by (by apply (Q w v)). assert (y = length es) as -> by (by apply (Q2 w v)).
      rewrite Nat.eqb_refl, Y. cbn [mbind outcome_bind]. by rewrite Nat.eqb_refl.
Qed.
Lemma neighbours_iff e : (forall e, e < num D1 m -> good_edge m e) -> balanced m -> e < num D1 m ->
  check_neighbours e m = Ok tt <-> good_neighbours m e.
Proof.
  intros G B L. destruct (row_some R12 e L) as [ns R]. unfold check_neighbours. rewrite (number_row _ _ _ R). cbn [mbind outcome_bind].
  rewrite seq_bind_ok, req, each_ok, Nat2N.id. unfold RelHas.
  split.
  - intros [P H]. exists ns. split; [done|]. split; [intros ->; done|]. intros c C LC. apply elem_of_list_lookup in C as [k K].
    specialize (H k). rewrite elem_of_seq in H. pose proof (lookup_lt_Some _ _ _ K). specialize (H ltac:(lia)).
    rewrite (get_row _ _ _ _ R), K in H. cbn [mbind outcome_bind] in H. cbn [tgt] in H.
    assert ((N.of_nat c <? N.of_nat (num D2 m))%N = true) as Z by lia. rewrite Z in H. rewrite Nat2N.id in H. by apply neighbour_iff.
  - intros (ns' & R' & NE & H). rewrite R in R'. injection R' as <-. split; [destruct ns; [done|cbn [length]; lia]|].
    intros k KL. apply elem_of_seq in KL. destruct (lookup_lt_is_Some_2 ns k) as [v V]; [lia|].
    rewrite (get_row _ _ _ _ R), V. cbn [mbind outcome_bind tgt]. destruct (v <? N.of_nat (num D2 m))%N eqn:LT; [|done].
    apply neighbour_iff; [done|done|lia|]. apply H; [|lia]. rewrite N2Nat.id. by eapply elem_of_list_lookup_2.
Qed.

(** ** Different polygons *)

Lemma sorted_differ a b : differ (sorted a) (sorted b) = true <-> ~ a ≡ₚ b.
Proof.
  unfold differ. rewrite negb_true_iff, bool_decide_eq_false. unfold sorted.
  assert (forall l, Sorted N.le (merge_sort N.le l)) as SO by (intros l; apply Sorted_merge_sort; intros x y; lia).
  split; intros H C; apply H.
  - apply (Sorted_unique N.le); [done|done|]. by rewrite !merge_sort_Permutation.
  - rewrite <- (merge_sort_Permutation N.le a), <- (merge_sort_Permutation N.le b). by rewrite C.
Qed.
Lemma different_sym c d : different m c d -> different m d c.
Proof. intros H vs vs' es es' A B C D. destruct (H vs' vs es' es B A D C) as [X Y]. split; intros Z; [apply X|apply Y]; by symmetry. Qed.
Lemma cells_iff : each (fun c => each (fun d => check_two_cells c d m) (above c (num D2 m))) (seq 0 (num D2 m)) = Ok tt <->
  forall c d, c <> d -> different m c d.
Proof.
  rewrite each_ok. setoid_rewrite each_ok. split.
  - intros H. assert (forall c d, c < d -> different m c d) as K.
    { intros c d L vs vs' es es' A B C D. specialize (H c). rewrite elem_of_seq in H. pose proof (row_lt _ _ _ A) as LC. pose proof (row_lt _ _ _ B) as LD.
      cbn [src] in LC, LD. specialize (H ltac:(lia) d). rewrite elem_above in H. specialize (H ltac:(lia)).
      unfold check_two_cells in H. rewrite A, B, C, D in H. cbn [mbind outcome_bind] in H. rewrite seq_bind_ok, !req, !sorted_differ in H. done. }
    intros c d N. destruct (decide (c < d)) as [|GE]; [by apply K|]. apply different_sym, K. lia.
  - intros H c CL d DL. apply elem_of_seq in CL. apply elem_above in DL. destruct (row_some V2 c) as [vs A]; [cbn; lia|].
    destruct (row_some E2 c) as [es C]; [cbn; lia|]. destruct (row_some V2 d) as [vs' B]; [cbn; lia|]. destruct (row_some E2 d) as [es' D]; [cbn; lia|].
    unfold check_two_cells. rewrite A, B, C, D. cbn [mbind outcome_bind]. rewrite seq_bind_ok, !req, !sorted_differ.
    apply (H c d); [lia|done..].
Qed.
End mesh.
