(** * The checks of solid meshes. *)
From Coq Require Import QArith Qcanon Sorted.
From stdpp Require Import sorting.
From Coq Require Import ZifyBool ZifyNat ZifyN.
From Verif Require Import Base BaseProof QcTac FillModel FillProofG GeoModel MapModel PointModel PointSpec PointProof PolyModel PolySpec PolyProof HullModel CsrModel
  MeshModel MeshSpec MeshRep MeshHist MeshProof MeshProof8 MeshProof9 MeshProofE UtilSpec RefineModel RefineSpec CheckModel CheckSpec CheckProof CheckProof2.
Local Open Scope nat_scope.

Lemma acc b : accept b = Ok tt <-> b = true.
Proof. by destruct b. Qed.

(** ** Sets *)
Lemma intersection_sub a b : set_intersection a b `sublist_of` a /\ set_intersection a b `sublist_of` b.
Proof.
  revert b. induction a as [|x a IH]; intros b; [destruct b; cbn; split; apply sublist_nil_l|].
  induction b as [|y b IHb]; [cbn; split; [apply sublist_nil_l|constructor]|].
  assert (set_intersection (x :: a) (y :: b) = if (x <? y)%N then set_intersection a (y :: b) else
    if (y <? x)%N then set_intersection (x :: a) b else x :: set_intersection a b) as -> by done.
  destruct (x <? y)%N eqn:P; [|destruct (y <? x)%N eqn:Q].
  - destruct (IH (y :: b)) as [H1 H2]. split; [by apply sublist_cons|done].
  - destruct IHb as [H1 H2]. split; [done|by apply sublist_cons].
  - assert (x = y) as -> by lia. destruct (IH b) as [H1 H2]. split; by apply sublist_skip.
Qed.
Lemma intersection_self a : set_intersection a a = a.
Proof.
  induction a as [|x a IH]; [done|].
  assert (set_intersection (x :: a) (x :: a) = if (x <? x)%N then set_intersection a (x :: a) else
    if (x <? x)%N then set_intersection (x :: a) a else x :: set_intersection a a) as -> by done.
  assert (x <? x = false)%N as -> by lia. by rewrite IH.
Qed.
Lemma sublist_full {X} (a b : list X) : a `sublist_of` b -> length b <= length a -> a = b.
Proof.
  induction 1 as [|x a b S IH|x a b S IH]; intros L; [done|f_equal; apply IH; cbn in L; lia|].
  apply sublist_length in S. cbn in L. lia.
Qed.
Lemma intersection_iff a b : (length (set_intersection a b) =? length a) && (length (set_intersection a b) =? length b) = true <-> a = b.
Proof.
  split.
  - intros H. destruct (intersection_sub a b) as [A B].
    assert (set_intersection a b = a) as EA by (apply sublist_full; [done|lia]).
    assert (set_intersection a b = b) as EB by (apply sublist_full; [done|lia]). congruence.
  - intros ->. rewrite intersection_self. lia.
Qed.
Lemma sorted_set es s : StronglySorted N.lt s -> sorted es = s <-> NoDup es /\ forall e, e ∈ es <-> e ∈ s.
Proof.
  intros S. unfold sorted. pose proof (merge_sort_Permutation N.le es) as P.
  assert (NoDup s) as ND.
  { clear P. induction S as [|x s S IH F]; constructor; [|done]. intros M. rewrite Forall_forall in F. specialize (F x M). lia. }
  split.
  - intros E. rewrite E in P. split; [by rewrite <- P|]. intros e. by rewrite P.
  - intros [N H]. apply (StronglySorted_unique N.le).
    + apply StronglySorted_merge_sort; [intros x y z; lia|intros x y; lia].
    + clear - S. induction S as [|x s S IH F]; constructor; [done|]. eapply Forall_impl; [exact F|]. cbn. intros; lia.
    + rewrite P. by apply NoDup_Permutation.
Qed.

Section mesh.
Context (m : mesh) (RM : reachable m).

Lemma active_some d i : i < num d m -> IsActive d i m = Ok (active d m i).
Proof.
  intros L. unfold active. destruct (reachable_rep m RM) as [a H]. rewrite (g_active _ _ H). rewrite (g_num _ _ H) in L. unfold look, anum in *.
  destruct (lookup_lt_is_Some_2 _ _ L) as [x X]. by rewrite X.
Qed.
Lemma active_lt d i : active d m i = true -> i < num d m.
Proof. unfold active, IsActive. destruct (i <? num d m) eqn:L; [lia|done]. Qed.
Lemma if_active_ok d i x : i < num d m -> if_active d i m x = Ok tt <-> (active d m i = true -> x = Ok tt).
Proof. intros L. unfold if_active. rewrite active_some by done. cbn [mbind outcome_bind]. apply when_ok. Qed.
Lemma actives_ok d f : actives d m f (seq 0 (num d m)) = Ok tt <-> forall i, active d m i = true -> f i = Ok tt.
Proof.
  unfold actives. rewrite each_ok. split.
  - intros H i A. pose proof (active_lt _ _ A) as L. specialize (H i ltac:(apply elem_of_seq; lia)). by apply if_active_ok in H.
  - intros H i L. apply elem_of_seq in L. apply if_active_ok; [lia|]. apply H.
Qed.
Lemma actives_above d f i : each (fun j => if_active d j m (f j)) (above i (num d m)) = Ok tt <-> forall j, i < j -> active d m j = true -> f j = Ok tt.
Proof.
  rewrite each_ok. split.
  - intros H j L A. pose proof (active_lt _ _ A) as LL. specialize (H j ltac:(apply elem_above; lia)). by apply if_active_ok in H.
  - intros H j L. apply elem_above in L. apply if_active_ok; [lia|]. intros A. apply H; [lia|done].
Qed.

(** ** Edges *)
Lemma ends_fun e o t o' t' : ends m e o t -> ends m e o' t' -> o = o' /\ t = t'.
Proof. unfold ends. intros [A B] [C D]. split; congruence. Qed.
Lemma two_edges_ok e f o t o' t' : ends m e o t -> ends m f o' t' -> solid_two_edges e f m = Ok tt <-> ~ (o = o' /\ t = t') /\ ~ (t = o' /\ o = t').
Proof.
  intros [A B] [C D]. unfold solid_two_edges. rewrite A, B, C, D. cbn [mbind outcome_bind]. rewrite seq_bind_ok, !acc. lia.
Qed.
Lemma solid_edge_iff e : e < num D1 m -> solid_edge e m = Ok tt <->
  exists o t, ends m e o t /\ exists_in D0 m o /\ exists_in D0 m t /\ (forall f, ~ ends m f t o) /\
    forall f, f <> e -> active D1 m f = true \/ f < e -> ~ ends m f o t.
Proof.
  intros L. destruct (ends_some m RM e L) as (o & t & EN). pose proof EN as [O T]. unfold solid_edge. rewrite O, T. cbn [mbind outcome_bind]. split.
  - intros H. apply bind_ok in H as (x & X & H). rewrite seq_bind_ok, acc in H. destruct H as [E1 H].
    apply bind_ok in H as (y & Y & H). rewrite seq_bind_ok, acc in H. destruct H as [E2 H].
    destruct (by_extremes_inv m _ _ _ X) as [EO ET].
    destruct (by_extremes m RM o t EO ET) as (f & F & LF & F1 & F2). destruct (by_extremes m RM t o ET EO) as (g & G & LG & G1 & G2).
    assert (f = e) as -> by (rewrite X in F; injection F as ->; lia). assert (g = num D1 m) as -> by (rewrite Y in G; injection G as ->; lia).
    exists o, t. do 3 (split; [done|]). split.
    + intros f Q. apply (G1 f); [by eapply (ends_lt m)|done].
    + intros f NE AF Q. destruct (decide (f < e)) as [LT|GE]; [by apply (F1 f)|]. destruct AF as [AF|]; [|lia].
      apply (proj1 (actives_above D1 _ e)) with (j := f) in H; [|lia|done]. apply (two_edges_ok e f o t o t EN Q) in H. tauto.
  - intros (o' & t' & EN' & EO & ET & H1 & H2). destruct (ends_fun _ _ _ _ _ EN' EN) as [-> ->].
    destruct (by_extremes m RM o t EO ET) as (f & F & LF & F1 & F2). destruct (by_extremes m RM t o ET EO) as (g & G & LG & G1 & G2).
    rewrite F. cbn [mbind outcome_bind].
    assert (f = e) as ->.
    { destruct (decide (f < e)) as [LT|GE]. { exfalso. apply (H2 f); [lia|by right|]. apply F2. lia. }
      destruct (decide (e < f)) as [LT|]; [|lia]. exfalso. by apply (F1 e). }
    rewrite Nat.eqb_refl. cbn [accept]. cbn [mbind outcome_bind]. rewrite G. cbn [mbind outcome_bind].
    assert (g = num D1 m) as -> by (destruct (decide (g < num D1 m)) as [LT|]; [exfalso; apply (H1 g); by apply G2|lia]).
    rewrite Nat.eqb_refl. cbn [accept]. cbn [mbind outcome_bind]. apply actives_above. intros f LT AF.
    destruct (ends_some m RM f (active_lt _ _ AF)) as (o' & t' & Q). apply (two_edges_ok e f o t o' t' EN Q). split.
    + intros [<- <-]. apply (H2 f); [lia|by left|done].
    + intros [<- <-]. by apply (H1 f).
Qed.
Lemma solid_length_iff A e : (0 <= MinTolerance (geo A))%Qc -> (0 <= cfgTolerance1D (geo A))%Qc -> solid_length A e m = Ok tt <-> exists o t p q,
    ends m e o t /\ placed A m (N.to_nat o) p /\ placed A m (N.to_nat t) q /\ apart (geo A) p q.
Proof.
  intros T0 T1. unfold solid_length, ends. split.
  - intros H. apply bind_ok in H as (o & O & H). apply bind_ok in H as (p & P & H). apply bind_ok in H as (t & T & H). apply bind_ok in H as (q & Q & H).
    apply acc in H. apply apart_iff in H; [|done|done]. apply point_iff in P, Q. by exists o, t, p, q.
  - intros (o & t & p & q & [O T] & P & Q & H). apply point_iff in P, Q. rewrite O. cbn [mbind outcome_bind]. rewrite P. cbn [mbind outcome_bind].
    rewrite T. cbn [mbind outcome_bind]. rewrite Q. cbn [mbind outcome_bind]. apply acc. by apply apart_iff.
Qed.
Lemma solid_points_iff A : (0 <= MinTolerance (geo A))%Qc -> (0 <= cfgTolerance1D (geo A))%Qc -> solid_points A m = Ok tt <->
  forall v w p q, v <> w -> active D0 m v = true -> active D0 m w = true -> placed A m v p -> placed A m w q -> apart (geo A) p q.
Proof.
  intros T0 T1. unfold solid_points. fold (actives D0 m (fun v => each (fun w => if_active D0 w m (p ← Point A v m; q ← Point A w m; accept (negb (PointsAreCoincident (geo A) p q)))) (above v (num D0 m))) (seq 0 (num D0 m))).
  rewrite actives_ok. split.
  - intros H. assert (forall v w p q, v < w -> active D0 m v = true -> active D0 m w = true -> placed A m v p -> placed A m w q -> apart (geo A) p q) as K.
    { intros v w p q L AV AW P Q. specialize (H v AV). apply (proj1 (actives_above D0 _ v)) with (j := w) in H; [|done|done].
      apply point_iff in P, Q. rewrite P, Q in H. cbn [mbind outcome_bind] in H. apply acc in H. by apply apart_iff in H. }
    intros v w p q NE AV AW P Q. destruct (decide (v < w)); [by apply (K v w)|]. apply apart_sym. apply (K w v); try done. lia.
  - intros H v AV. apply actives_above. intros w L AW. destruct (placed_some A m RM v (active_lt _ _ AV)) as [p P].
    destruct (placed_some A m RM w (active_lt _ _ AW)) as [q Q]. pose proof (H v w p q ltac:(lia) AV AW P Q) as AP.
    apply point_iff in P, Q. rewrite P, Q. cbn [mbind outcome_bind]. apply acc. by apply apart_iff.
Qed.

(** ** Faces *)
Lemma solid_sides_iff c : balanced m -> c < num D2 m -> solid_sides c m = Ok tt <-> good_border m c.
Proof.
  intros B L. destruct (row_some m RM V2 c L) as [vs RV]. destruct (row_some m RM E2 c L) as [es RE]. pose proof (B c vs es RV RE) as LE.
  unfold solid_sides. rewrite (number_row m RM _ _ _ RE), (number_row m RM _ _ _ RV). cbn [mbind outcome_bind]. rewrite !Nat2N.id, each_ok.
  assert (forall v, v ∈ vs -> exists i, RelFind V2 c v m = Ok i /\ i <> length vs) as FV.
  { intros v V. destruct (rel_find_spec m V2 c v vs RV) as (i & I & LI & I1 & _). exists i. split; [done|]. intros ->.
    apply elem_of_list_lookup in V as [k K]. apply (I1 k); [by eapply lookup_lt_Some|done]. }
  split.
  - intros H.
    assert (forall k v w e, vs !! k = Some v -> vs !! ((k + 1) mod length es) = Some w -> es !! k = Some e ->
      Forall (exists_in D1 m) (take (S k) es) /\ joins m e v w /\ exists o t, ends m (N.to_nat e) o t /\
      forall j f, j < k -> es !! j = Some f -> ~ ends m (N.to_nat f) o t) as K.
    { intros k v w e V W E. pose proof (lookup_lt_Some _ _ _ E) as LK. specialize (H k ltac:(apply elem_of_seq; lia)). unfold solid_side in H.
      rewrite !(get_row m RM _ _ _ _ RV), V, W in H. cbn [mbind outcome_bind] in H.
      apply bind_ok in H as (x & X & H). apply bind_ok in H as (y & Y & H). rewrite seq_bind_ok, acc in H. destruct H as [Q _].
      destruct (find_row m RM c v w es x RE X) as (LX & X1 & X2). destruct (find_row m RM c w v es y RE Y) as (LY & Y1 & Y2).
      assert (forall z o t, z = k -> (forall j f, j < z -> es !! j = Some f -> exists_in D1 m f /\ ~ ends m (N.to_nat f) o t) ->
        (forall f, es !! z = Some f -> exists_in D1 m f /\ ends m (N.to_nat f) o t) -> Forall (exists_in D1 m) (take (S k) es) /\ ends m (N.to_nat e) o t /\
        forall j f, j < k -> es !! j = Some f -> ~ ends m (N.to_nat f) o t) as Z.
      { intros z o t -> Z1 Z2. split.
        - apply Forall_lookup. intros j f F. apply lookup_take_Some in F as [F LJ]. destruct (decide (j < k)); [by apply (Z1 j f)|].
          assert (j = k) as -> by lia. by apply Z2.
        - split; [by apply Z2|]. intros j f LJ F. by apply (Z1 j f). }
      assert (x = k \/ y = k) as [XK|YK] by lia.
      - destruct (Z x v w XK X1 X2) as (F & EN & U). split; [done|]. split; [by left|]. by exists v, w.
      - destruct (Z y w v YK Y1 Y2) as (F & EN & U). split; [done|]. split; [by right|]. by exists w, v. }
    assert (forall k e, es !! k = Some e -> exists v w, vs !! k = Some v /\ vs !! ((k + 1) mod length es) = Some w) as VW.
    { intros k e E. pose proof (lookup_lt_Some _ _ _ E) as LK. destruct (lookup_lt_is_Some_2 vs k) as [v V]; [lia|].
      destruct (lookup_lt_is_Some_2 vs ((k + 1) mod length es)) as [w W]; [rewrite LE; apply Nat.mod_upper_bound; lia|]. eauto. }
    exists vs, es. split; [done|]. split; [done|]. split; [|split].
    + apply Forall_lookup. intros k e E. destruct (VW k e E) as (v & w & V & W). destruct (K k v w e V W E) as (F & _).
      rewrite Forall_lookup in F. apply (F k). apply lookup_take_Some. split; [done|lia].
    + assert (forall j k e f o t, j < k -> es !! j = Some e -> es !! k = Some f -> ends m (N.to_nat e) o t -> ~ ends m (N.to_nat f) o t) as U.
      { intros j k e f o t LT E F E1 E2. destruct (VW k f F) as (v & w & V & W). destruct (K k v w f V W F) as (_ & _ & o' & t' & EN & U).
        destruct (ends_fun _ _ _ _ _ E2 EN) as [-> ->]. by apply (U j e). }
      intros j k e f o t NE E F E1 E2. destruct (decide (j < k)); [by eapply (U j k)|eapply (U k j)]; try done. lia.
    + intros k e v w E V W. by apply (K k v w e).
  - intros (vs' & es' & RV' & RE' & F & U & J). rewrite RV in RV'. rewrite RE in RE'. injection RV' as <-. injection RE' as <-.
    intros k KL. apply elem_of_seq in KL. unfold solid_side. rewrite !(get_row m RM _ _ _ _ RV).
    destruct (lookup_lt_is_Some_2 vs k) as [v V]; [lia|].
    destruct (lookup_lt_is_Some_2 vs ((k + 1) mod length es)) as [w W]; [rewrite LE; apply Nat.mod_upper_bound; lia|].
    destruct (lookup_lt_is_Some_2 es k) as [e E]; [lia|]. rewrite V, W. cbn [mbind outcome_bind].
    destruct (find_some m RM c v w es RE F) as (x & X & LX & X1 & X2). destruct (find_some m RM c w v es RE F) as (y & Y & LY & Y1 & Y2).
    rewrite X. cbn [mbind outcome_bind]. rewrite Y. cbn [mbind outcome_bind].
    destruct (FV v ltac:(by eapply elem_of_list_lookup_2)) as (i & I & NI). destruct (FV w ltac:(by eapply elem_of_list_lookup_2)) as (j & JJ & NJ).
    rewrite seq_bind_ok. split.
    + apply acc.
      assert (forall o t z, ends m (N.to_nat e) o t -> z <= length es -> (forall j f, j < z -> es !! j = Some f -> ~ ends m (N.to_nat f) o t) ->
        (forall f, es !! z = Some f -> ends m (N.to_nat f) o t) -> z = k) as Q.
      { intros o t z EN LZ Z1 Z2. destruct (decide (k < z)) as [LT|GE]; [exfalso; by apply (Z1 k e)|].
        destruct (lookup_lt_is_Some_2 es z) as [f EF]; [lia|]. specialize (Z2 f EF).
        destruct (decide (z = k)) as [|NE]; [done|]. exfalso. by apply (U z k f e o t NE EF E). }
      destruct (J k e v w E V W) as [EN|EN].
      * rewrite (Q v w x EN LX X1 X2). lia.
      * rewrite (Q w v y EN LY Y1 Y2). lia.
    + rewrite I. cbn [mbind outcome_bind]. rewrite seq_bind_ok. split; [apply acc; lia|]. rewrite JJ. cbn [mbind outcome_bind]. apply acc. lia.
Qed.

(** ** Rows *)
Lemma each_row r i l (F : N -> outcome unit) : RelRow r i m = Ok l ->
  each (fun k => v ← RelGet r i k m; F v) (seq 0 (length l)) = Ok tt <-> forall v, v ∈ l -> F v = Ok tt.
Proof.
  intros R. rewrite each_ok. split.
  - intros H v V. apply elem_of_list_lookup in V as [k K]. specialize (H k). rewrite (get_row m RM _ _ _ _ R), K in H. apply H.
    apply elem_of_seq. apply lookup_lt_Some in K. lia.
  - intros H k K. apply elem_of_seq in K. rewrite (get_row m RM _ _ _ _ R). destruct (lookup_lt_is_Some_2 l k) as [v V]; [lia|]. rewrite V.
    apply H. by eapply elem_of_list_lookup_2.
Qed.
Lemma ofold_row {S} r i l (F : S -> N -> outcome S) s : RelRow r i m = Ok l ->
  ofold (fun s k => v ← RelGet r i k m; F s v) (seq 0 (length l)) s = ofold F l s.
Proof.
  intros R. assert (forall l2 l1 s, l = l1 ++ l2 -> ofold (fun s k => v ← RelGet r i k m; F s v) (seq (length l1) (length l2)) s = ofold F l2 s) as K.
  { induction l2 as [|x l2 IH]; intros l1 t E; [done|]. cbn [length seq ofold]. rewrite (get_row m RM _ _ _ _ R).
    assert (l !! length l1 = Some x) as -> by (rewrite E; by apply list_lookup_middle). cbn [mbind outcome_bind].
    destruct (F t x) as [u| | | |]; cbn [mbind outcome_bind]; try done. specialize (IH (l1 ++ [x]) u). rewrite app_length in IH. cbn [length] in IH.
    rewrite Nat.add_1_r in IH. apply IH. by rewrite <- app_assoc. }
  by apply (K l []).
Qed.
Lemma solid_two_iff rs c d : (forall r, r ∈ rs -> c < num (src r) m /\ d < num (src r) m) -> solid_two rs c d m = Ok tt <-> different_in rs m c d.
Proof.
  intros L. unfold solid_two, different_in.
  assert (forall i, (forall r, r ∈ rs -> i < num (src r) m) -> exists l, Forall2 (fun r x => RelRow r i m = Ok x) rs l) as K.
  { clear L. intros i L. induction rs as [|r rs IH]; [by exists []|]. destruct IH as [l F]; [intros r' M; apply L; by right|].
    destruct (row_some m RM r i) as [x X]; [apply L; by left|]. exists (x :: l). by constructor. }
  destruct (K c) as [l F]; [intros r M; by apply L|]. destruct (K d) as [l' F']; [intros r M; by apply L|].
  pose proof F as E. apply omapM_ok in E. pose proof F' as E'. apply omapM_ok in E'. rewrite E, E'. cbn [mbind outcome_bind].
  rewrite each_ok. setoid_rewrite acc. setoid_rewrite sorted_differ. clear K E E' L. revert l' F'. induction F as [|r x rs l RX F IH]; intros l' F'.
  - inversion_clear F'. split; [intros _ r a b M; by apply elem_of_nil in M|]. intros _ x M. by apply elem_of_nil in M.
  - inversion_clear F' as [|? y ? k RY FY]. cbn [zip zip_with]. specialize (IH k FY). split.
    + intros H r' a b M A B. apply elem_of_cons in M as [-> |M].
      * rewrite RX in A. rewrite RY in B. injection A as <-. injection B as <-. by apply (H (x, y)); left.
      * apply IH with (r := r'); try done. intros p P. apply H. by right.
    + intros H p P. apply elem_of_cons in P as [-> |P]; [apply (H r); [by left|done|done]|]. apply IH; [|done].
      intros r' a b M. apply H. by right.
Qed.
Lemma pairs_iff (d : dim) rs : (forall r, r ∈ rs -> src r = d) ->
  actives d m (fun c => actives d m (fun e => solid_two rs c e m) (above c (num d m))) (seq 0 (num d m)) = Ok tt <->
  forall c e, c <> e -> active d m c = true -> active d m e = true -> different_in rs m c e.
Proof.
  intros SR. rewrite actives_ok. unfold actives. setoid_rewrite actives_above.
  assert (forall c e, active d m c = true -> active d m e = true -> solid_two rs c e m = Ok tt <-> different_in rs m c e) as K.
  { intros c e AC AE. apply solid_two_iff. intros r M. rewrite (SR r M). split; by apply active_lt. }
  split.
  - intros H. assert (forall c e, c < e -> active d m c = true -> active d m e = true -> different_in rs m c e) as Q.
    { intros c e L AC AE. apply K; [done|done|]. by apply H. }
    intros c e NE AC AE. destruct (decide (c < e)); [by apply Q|]. intros r l l' M R1 R2 P. apply (Q e c ltac:(lia) AE AC r l' l); done.
  - intros H c AC e L AE. apply K; [done|done|]. apply H; [lia|done|done].
Qed.

(** ** Polyhedra *)
Lemma edges_active_iff c es : RelRow E3 c m = Ok es -> solid_edges_active c m = Ok tt <-> forall e, e ∈ es -> active D1 m (N.to_nat e) = true.
Proof.
  intros R. unfold solid_edges_active. rewrite (number_row m RM _ _ _ R). cbn [mbind outcome_bind]. rewrite Nat2N.id.
  rewrite (each_row E3 c es (fun e => b ← IsActive D1 (N.to_nat e) m; accept b) R).
  assert (forall e, (b ← IsActive D1 (N.to_nat e) m; accept b) = Ok tt <-> active D1 m (N.to_nat e) = true) as K.
  { intros e. unfold active. destruct (IsActive D1 (N.to_nat e) m); cbn [mbind outcome_bind]; [apply acc|done..]. }
  by setoid_rewrite K.
Qed.
Lemma solid_faces_iff c : c < num D3 m -> solid_faces c m = Ok tt <-> good_faces m c.
Proof.
  intros L. destruct (row_some m RM V3 c L) as [vs RV]. destruct (row_some m RM E3 c L) as [es RE]. destruct (row_some m RM F3 c L) as [fs RF].
  unfold solid_faces. rewrite (number_row m RM _ _ _ RV), (number_row m RM _ _ _ RE), (number_row m RM _ _ _ RF). cbn [mbind outcome_bind]. rewrite Nat2N.id.
  assert (forall r l v, RelRow r c m = Ok l -> (j ← RelFind r c v m; accept (negb (N.of_nat j =? N.of_nat (length l))%N)) = Ok tt <-> v ∈ l) as K.
  { intros r l v R. destruct (rel_find_spec m r c v l R) as (j & J & LJ & J1 & J2). rewrite J. cbn [mbind outcome_bind]. rewrite acc. split.
    - intros H. eapply elem_of_list_lookup_2. apply J2. lia.
    - intros V. apply elem_of_list_lookup in V as [k V]. destruct (decide (j = length l)) as [-> |]; [|lia]. exfalso. apply (J1 k); [|done]. by eapply lookup_lt_Some. }
  rewrite (each_row F3 c fs (fun f => b ← IsActive D2 (N.to_nat f) m; accept b;;
    h ← RelNumber V2 (N.to_nat f) m;
    each (fun i => v ← RelGet V2 (N.to_nat f) i m; j ← RelFind V3 c v m; accept (negb (N.of_nat j =? N.of_nat (length vs))%N)) (seq 0 (N.to_nat h));;
    h ← RelNumber E2 (N.to_nat f) m;
    each (fun i => e ← RelGet E2 (N.to_nat f) i m; j ← RelFind E3 c e m; accept (negb (N.of_nat j =? N.of_nat (length es))%N)) (seq 0 (N.to_nat h))) RF).
  assert (forall f, (b ← IsActive D2 (N.to_nat f) m; accept b;;
    h ← RelNumber V2 (N.to_nat f) m;
    each (fun i => v ← RelGet V2 (N.to_nat f) i m; j ← RelFind V3 c v m; accept (negb (N.of_nat j =? N.of_nat (length vs))%N)) (seq 0 (N.to_nat h));;
    h ← RelNumber E2 (N.to_nat f) m;
    each (fun i => e ← RelGet E2 (N.to_nat f) i m; j ← RelFind E3 c e m; accept (negb (N.of_nat j =? N.of_nat (length es))%N)) (seq 0 (N.to_nat h))) = Ok tt <->
    active D2 m (N.to_nat f) = true /\ exists fv fe, RelRow V2 (N.to_nat f) m = Ok fv /\ RelRow E2 (N.to_nat f) m = Ok fe /\ fv ⊆ vs /\ fe ⊆ es) as Q.
  { intros f. destruct (decide (N.to_nat f < num D2 m)) as [LF|GF].
    - rewrite active_some by done. cbn [mbind outcome_bind]. rewrite seq_bind_ok, acc. apply and_iff_compat_l.
      destruct (row_some m RM V2 (N.to_nat f) LF) as [fv RFV]. destruct (row_some m RM E2 (N.to_nat f) LF) as [fe RFE].
      rewrite (number_row m RM _ _ _ RFV), (number_row m RM _ _ _ RFE). cbn [mbind outcome_bind]. rewrite !Nat2N.id, seq_bind_ok.
      rewrite (each_row V2 _ fv (fun v => j ← RelFind V3 c v m; accept (negb (N.of_nat j =? N.of_nat (length vs))%N)) RFV).
      rewrite (each_row E2 _ fe (fun v => j ← RelFind E3 c v m; accept (negb (N.of_nat j =? N.of_nat (length es))%N)) RFE).
      setoid_rewrite (K V3 vs); [|done]. setoid_rewrite (K E3 es); [|done]. split.
      + intros [A B]. by exists fv, fe.
      + intros (fv' & fe' & A & B & C & D). rewrite RFV in A. rewrite RFE in B. injection A as <-. injection B as <-. done.
    - split.
      + intros H. apply bind_ok in H as (b & B & _). revert B. unfold IsActive. assert (N.to_nat f <? num D2 m = false) as -> by lia. done.
      + intros [A _]. apply active_lt in A. lia. }
  setoid_rewrite Q. split.
  - intros H. by exists vs, es, fs.
  - intros (vs' & es' & fs' & A & B & C & H). rewrite RV in A. rewrite RE in B. rewrite RF in C. injection A as <-. injection B as <-. injection C as <-. done.
Qed.

Lemma face_edges_set fs s s' : ofold (fun s f => h ← RelNumber E2 (N.to_nat f) m;
    ofold (fun s i => e ← RelGet E2 (N.to_nat f) i m; Ok (set_insert e s)) (seq 0 (N.to_nat h)) s) fs s = Ok s' ->
  StronglySorted N.lt s -> Forall (exists_in D2 m) fs /\ StronglySorted N.lt s' /\
    forall e, e ∈ s' <-> e ∈ s \/ exists f fe, f ∈ fs /\ RelRow E2 (N.to_nat f) m = Ok fe /\ e ∈ fe.
Proof.
  revert s. induction fs as [|f fs IH]; intros s H S; cbn [ofold] in H.
  - injection H as <-. split; [done|]. split; [done|]. intros e. split; [by left|]. intros [|(f & fe & M & _)]; [done|]. by apply elem_of_nil in M.
  - apply bind_ok in H as (u & U & H). apply bind_ok in U as (h & HN & U).
    assert (N.to_nat f < num D2 m) as LF by (revert HN; unfold RelNumber; cbn [src]; destruct (N.to_nat f <? num D2 m) eqn:Z; [intros _; lia|done]).
    destruct (row_some m RM E2 _ LF) as [fe R]. rewrite (number_row m RM _ _ _ R) in HN. injection HN as <-. rewrite Nat2N.id in U.
    rewrite (ofold_row E2 _ fe (fun s e => Ok (set_insert e s)) s R) in U.
    assert (forall l t, ofold (fun s e => Ok (set_insert e s)) l t = Ok (inserts t l)) as OI.
    { induction l as [|x l IHl]; intros t; [done|]. cbn. apply IHl. }
    rewrite OI in U. injection U as <-. destruct (IH _ H ltac:(by apply inserts_sorted)) as (F & S' & M). split; [constructor; [unfold exists_in; lia|done]|].
    split; [done|]. intros e. rewrite M, inserts_elem. split.
    + intros [[E|E]|(f' & fe' & A & B & C)]; [right; exists f, fe; split; [by left|done]|by left|right; exists f', fe'; split; [by right|done]].
    + intros [E|(f' & fe' & A & B & C)]; [left; by right|]. apply elem_of_cons in A as [-> |A].
      * rewrite R in B. injection B as <-. left. by left.
      * right. by exists f', fe'.
Qed.
Lemma face_edges_some fs s : Forall (exists_in D2 m) fs -> exists s', ofold (fun s f => h ← RelNumber E2 (N.to_nat f) m;
    ofold (fun s i => e ← RelGet E2 (N.to_nat f) i m; Ok (set_insert e s)) (seq 0 (N.to_nat h)) s) fs s = Ok s'.
Proof.
  intros F. revert s. induction F as [|f fs LF F IH]; intros s; cbn [ofold]; [by exists s|]. unfold exists_in in LF.
  destruct (row_some m RM E2 (N.to_nat f)) as [fe R]; [cbn; lia|]. rewrite (number_row m RM _ _ _ R). cbn [mbind outcome_bind]. rewrite Nat2N.id.
  rewrite (ofold_row E2 _ fe (fun s e => Ok (set_insert e s)) s R).
  assert (forall l t, ofold (fun s e => Ok (set_insert e s)) l t = Ok (inserts t l)) as OI.
  { induction l as [|x l IHl]; intros t; [done|]. cbn. apply IHl. }
  rewrite OI. apply IH.
Qed.
Lemma solid_edges_iff c : edgy m c -> c < num D3 m -> solid_edges c m = Ok tt <-> closed_by_faces m c.
Proof.
  intros EG L. destruct (row_some m RM V3 c L) as [vs RV]. destruct (row_some m RM E3 c L) as [es RE]. destruct (row_some m RM F3 c L) as [fs RF].
  specialize (EG vs es RV RE).
  unfold solid_edges. rewrite (number_row m RM _ _ _ RE). cbn [mbind outcome_bind]. rewrite Nat2N.id, seq_bind_ok.
  rewrite (each_row E3 c es (fun e => o ← Cell1DOrigin (N.to_nat e) m; i ← RelFind V3 c o m; accept (negb (N.of_nat i =? N.of_nat (length es))%N);;
    t ← Cell1DEnd (N.to_nat e) m; j ← RelFind V3 c t m; accept (negb (N.of_nat j =? N.of_nat (length es))%N)) RE).
  rewrite RE, (number_row m RM _ _ _ RF). cbn [mbind outcome_bind]. rewrite Nat2N.id.
  rewrite (ofold_row F3 c fs (fun s f => h ← RelNumber E2 (N.to_nat f) m;
    ofold (fun s i => e ← RelGet E2 (N.to_nat f) i m; Ok (set_insert e s)) (seq 0 (N.to_nat h)) s) [] RF).
  assert ((forall e, e ∈ es -> (o ← Cell1DOrigin (N.to_nat e) m; i ← RelFind V3 c o m; accept (negb (N.of_nat i =? N.of_nat (length es))%N);;
    t ← Cell1DEnd (N.to_nat e) m; j ← RelFind V3 c t m; accept (negb (N.of_nat j =? N.of_nat (length es))%N)) = Ok tt) <-> Forall (exists_in D1 m) es) as ->.
  { rewrite Forall_forall. split.
    - intros H e E. specialize (H e E). apply bind_ok in H as (o & O & _). revert O. unfold Cell1DOrigin, exists_in.
      destruct (N.to_nat e <? num D1 m) eqn:Z; [intros _; lia|done].
    - intros H e E. specialize (H e E). unfold exists_in in H. destruct (ends_some m RM (N.to_nat e)) as (o & t & O & T); [lia|].
      rewrite O. cbn [mbind outcome_bind]. destruct (rel_find_spec m V3 c o vs RV) as (i & I & LI & _). destruct (rel_find_spec m V3 c t vs RV) as (j & J & LJ & _).
      rewrite I. cbn [mbind outcome_bind]. rewrite seq_bind_ok. split; [apply acc; lia|]. rewrite T. cbn [mbind outcome_bind]. rewrite J. cbn [mbind outcome_bind].
      apply acc. lia. }
  split.
  - intros [F1 H]. apply bind_ok in H as (s & S & H). rewrite acc, intersection_iff in H.
    destruct (face_edges_set _ _ _ S ltac:(constructor)) as (F2 & SS & M). apply sorted_set in H as [ND H]; [|done].
    exists es, fs. do 5 (split; [done|]). intros e. rewrite H, M. split; [|by right]. intros [E|]; [by apply elem_of_nil in E|done].
  - intros (es' & fs' & RE' & RF' & ND & F1 & F2 & H). rewrite RE in RE'. rewrite RF in RF'. injection RE' as <-. injection RF' as <-.
    split; [done|]. destruct (face_edges_some fs [] F2) as [s S]. rewrite S. cbn [mbind outcome_bind]. rewrite acc, intersection_iff.
    destruct (face_edges_set _ _ _ S ltac:(constructor)) as (_ & SS & M). apply sorted_set; [done|]. split; [done|].
    intros e. rewrite H, M. split; [by right|]. intros [E|]; [by apply elem_of_nil in E|done].
Qed.

Lemma check_solid A k : (0 <= MinTolerance (geo A))%Qc -> (0 <= cfgTolerance1D (geo A))%Qc -> balanced m -> (forall c, active D3 m c = true -> edgy m c) ->
  CheckMesh3D A k m = Ok tt <-> solid_mesh A k m.
Proof.
  intros T0 T1 B EG. unfold CheckMesh3D. rewrite !seq_bind_ok, !when_ok, req, Nat.eqb_eq.
  rewrite (solid_points_iff A T0 T1), (pairs_iff D2 [V2; E2]), (pairs_iff D3 [V3; E3; F3]), !actives_ok.
  2, 3: intros r M; repeat (apply elem_of_cons in M as [-> |M]; [done|]); by apply elem_of_nil in M.
  split.
  - intros (D & H1 & H2 & H3 & H4 & H5 & H6 & H7 & H8 & H9). constructor; try done.
    + intros K e AE. apply solid_edge_iff; [by apply active_lt|]. by apply H2.
    + intros K e AE. apply solid_length_iff; [done|done|]. by apply H3.
    + intros K c AC. apply solid_sides_iff; [done|by apply active_lt|]. by apply H4.
    + intros K c es AC R. apply (edges_active_iff c es R). by apply H7.
    + intros K c AC. apply solid_edges_iff; [by apply EG|by apply active_lt|]. by apply H8.
    + intros K c AC. apply solid_faces_iff; [by apply active_lt|]. by apply H9.
  - intros [D H1 H2 H3 H4 H5 H6 H7 H8 H9]. do 2 (split; [done|]). split_and!; try done.
    + intros K e AE. apply solid_edge_iff; [by apply active_lt|]. by apply H2.
    + intros K e AE. apply solid_length_iff; [done|done|]. by apply H3.
    + intros K c AC. apply solid_sides_iff; [done|by apply active_lt|]. by apply H4.
    + intros K c AC. pose proof (active_lt _ _ AC) as L. destruct (row_some m RM E3 c L) as [es R]. apply (edges_active_iff c es R). by apply (H7 K c es AC R).
    + intros K c AC. apply solid_edges_iff; [by apply EG|by apply active_lt|]. by apply H8.
    + intros K c AC. apply solid_faces_iff; [by apply active_lt|]. by apply H9.
Qed.
End mesh.

(** The ends of the edges of an accepted polyhedron are vertices of it. *)
Lemma solid_ends A k m c vs es e o t : reachable m -> balanced m -> solid_mesh A k m -> Solid_Cell2D_CheckEdges k = true ->
  Solid_Cell3D_CheckEdges k = true -> Solid_Cell3D_CheckFaces k = true ->
  active D3 m c = true -> RelRow V3 c m = Ok vs -> RelRow E3 c m = Ok es -> e ∈ es -> joins m e o t -> o ∈ vs /\ t ∈ vs.
Proof.
  intros RM B [_ _ _ _ H4 _ _ _ H8 H9] K1 K2 K3 AC RV RE E J.
  destruct (H8 K2 c AC) as (es' & fs & RE' & RF & _ & _ & _ & H). rewrite RE in RE'. injection RE' as <-.
  destruct (H9 K3 c AC) as (vs' & es' & fs' & RV' & RE' & RF' & G). rewrite RV in RV'. rewrite RF in RF'. rewrite RE in RE'.
  injection RV' as <-. injection RF' as <-. injection RE' as <-.
  apply H in E as (f & fe & F & RFE & E). destruct (G f F) as (AF & fv & fe' & RFV & RFE' & SV & _). rewrite RFE in RFE'. injection RFE' as <-.
  destruct (H4 K1 (N.to_nat f) AF) as (fv' & fe' & A1 & A2 & _ & _ & JJ). rewrite RFV in A1. rewrite RFE in A2. injection A1 as <-. injection A2 as <-.
  apply elem_of_list_lookup in E as [i I]. pose proof (B _ _ _ RFV RFE) as LE. pose proof (lookup_lt_Some _ _ _ I) as LI.
  destruct (lookup_lt_is_Some_2 fv i) as [v V]; [lia|]. destruct (lookup_lt_is_Some_2 fv ((i + 1) mod length fe)) as [w W]; [rewrite LE; apply Nat.mod_upper_bound; lia|].
  pose proof (JJ i e v w I V W) as J'. apply elem_of_list_lookup_2 in V, W. apply SV in V, W.
  destruct J as [[A1 A2]|[A1 A2]], J' as [[B1 B2]|[B1 B2]]; rewrite A1 in B1; rewrite A2 in B2; injection B1 as <-; injection B2 as <-; done.
Qed.
