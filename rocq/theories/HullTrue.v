(** * Convex hulls with the points on the sides: the function. *)
From Coq Require Import QArith Qcanon Sorted.
From Verif Require Import Base QcTac FillModel GeoModel MapModel PointModel PointSpec PointProof PolyModel PolySpec PolyProof
  TriProof EarProof ConvexProof HullModel HullSpec HullProof HullSort HullFinal HullFull HullAll.
Local Open Scope Qc_scope.

Lemma sorted_lookup {A} (R : A -> A -> Prop) l i j u v : StronglySorted R l -> (i < j)%nat -> l !! i = Some u -> l !! j = Some v -> R u v.
Proof.
  revert i j. induction l as [|x l IH]; intros i j SS L U V; [done|]. apply StronglySorted_inv in SS. destruct SS as [SS F].
  destruct j as [|j]; [lia|]. destruct i as [|i]; cbn in U, V.
  - injection U as <-. rewrite Forall_forall in F. apply F. by eapply elem_of_list_lookup_2.
  - by apply (IH i j SS); [lia|..].
Qed.
Lemma sorted_sublist {A} (R : A -> A -> Prop) l k : l `sublist_of` k -> StronglySorted R k -> StronglySorted R l.
Proof.
  induction 1 as [|x l k H IH|x l k H IH]; intros SS; [constructor| |].
  - apply StronglySorted_inv in SS. destruct SS as [SS F]. constructor; [by apply IH|].
    by eapply sublist_forall.
  - apply StronglySorted_inv in SS. apply IH, SS.
Qed.

(** ** The last ray *)

Definition aligned (p0 back x : pt) : Prop := orient x.1 back.1 p0.1 = 0.
Lemma straight_tail_spec g p0 back r : exact g ->
  (exists a x b, r = a ++ x :: b /\ Forall (aligned p0 back) a /\ ~ aligned p0 back x /\ straight_tail g p0 back r = Ok (length a)) \/
  (Forall (aligned p0 back) r /\ straight_tail g p0 back r = UB).
Proof.
  intros X. induction r as [|x r IH]; [by right|]. cbn [straight_tail].
  destruct (IsPolarZero g x.1 back.1 p0.1 (norm2 (vsub x.1 back.1)) (norm2 (vsub p0.1 back.1))) eqn:Z.
  - apply polar_zero in Z; [|done]. destruct IH as [(a & y & b & -> & F & N & E)|[F E]].
    + left. exists (x :: a), y, b. rewrite E. split; [done|]. split; [by constructor|]. done.
    + right. rewrite E. split; [by constructor|done].
  - left. exists [], x, r. split; [done|]. split; [constructor|]. split; [|done]. intros A. apply (polar_zero g) in A; [congruence|done].
Qed.
Lemma reverse_tail_spec g p0 l back r : exact g -> reverse l = back :: r ->
  (exists m x a, l = m ++ [x] ++ reverse a ++ [back] /\ Forall (aligned p0 back) a /\ ~ aligned p0 back x /\
    reverse_tail g p0 l = Ok (m ++ [x] ++ back :: a)) \/
  (Forall (aligned p0 back) l /\ reverse_tail g p0 l = UB).
Proof.
  intros X E. unfold reverse_tail. rewrite E.
  destruct (straight_tail_spec g p0 back (back :: r) X) as [(a & x & b & E2 & F & N & ES)|[F ES]]; rewrite ES.
  - left. assert (aligned p0 back back) as AB by (unfold aligned, orient; ring).
    destruct a as [|y a]; [cbn in E2; injection E2 as -> _; done|]. injection E2 as <- ->.
    assert (l = reverse b ++ [x] ++ reverse a ++ [back]) as El.
    { rewrite <- (reverse_involutive l), E. rewrite reverse_cons, reverse_app, reverse_cons. by rewrite <- !app_assoc. }
    exists (reverse b), x, a. split; [done|]. apply Forall_cons in F. destruct F as [_ F]. split; [done|]. split; [done|].
    cbn [mbind outcome_bind]. f_equal.
    assert (length l - length (back :: a) = length (reverse b ++ [x]))%nat as LL.
    { rewrite El, !app_length, reverse_length. cbn [length]. rewrite !reverse_length. lia. }
    rewrite LL. replace l with ((reverse b ++ [x]) ++ reverse a ++ [back]) by (rewrite El; by rewrite <- !app_assoc).
    rewrite take_app, drop_app, reverse_app, reverse_involutive. by rewrite <- !app_assoc.
  - right. cbn [mbind outcome_bind]. split; [|done]. rewrite <- E in F. apply Forall_forall. intros y Y. rewrite Forall_forall in F. apply F.
    by apply elem_of_reverse.
Qed.

(** ** Pushing the other points of the last ray *)

Lemma push_all o l c d rest : 0 <= mo o d c -> StronglySorted (fun u v => exists k, 1 < k /\ on_line o v k u) (c :: l) ->
  foldl (fun st x => x :: pops true x st) (c :: d :: rest) l = reverse l ++ c :: d :: rest.
Proof.
  revert c d rest. induction l as [|x l IH]; intros c d rest D SS; [done|]. cbn [foldl].
  apply StronglySorted_inv in SS. destruct SS as [SS F]. apply Forall_cons in F. destruct F as [(k & K & OL) _].
  cbn [pops]. assert (keeps true d c x = true) as ->.
  { apply keeps_spec. unfold turn_ok. rewrite (on_line_mo2 o x k c d x OL), mo_same2.
    rewrite (on_line_mo1 o x k c o d OL), mo_same1 in D.
    replace (k * 0 + (1 - k) * mo d o x) with ((k - 1) * mo o d x) by (unfold mo, orient; ring).
    apply times_nonneg; [qlra|]. apply (positive_factor k); [qlra|]. replace (k * mo o d x) with (k * mo o d x + (1 - k) * 0) by ring. done. }
  rewrite IH; [by rewrite reverse_cons, <- app_assoc| |done].
  rewrite (on_line_mo2 o x k c o x OL), mo_same2, mo_same3. replace (k * 0 + (1 - k) * 0) with 0 by ring. done.
Qed.

(** ** The function *)

Lemma convex_hull_full g ps : exact g -> Forall flat ps -> NoDup ps -> (exists a b c, a ∈ ps /\ b ∈ ps /\ c ∈ ps /\ orient a b c <> 0) ->
  exists ids hs, ConvexHull g ps true = Ok ids /\ Forall2 (fun i p => ps !! i = Some p) ids hs /\
   (2 < length hs)%nat /\ NoDup hs /\ left_turning hs /\
   forall p, p ∈ ps -> (forall i, 0 <= orient (corner hs i) (corner hs (S i)) p) /\
                       (p ∈ hs \/ forall i, 0 < orient (corner hs i) (corner hs (S i)) p).
Proof.
  intros X F N (pa & pb & pc & PA & PB & PC & NZT).
  assert (ps <> []) as NE by (intros ->; by apply elem_of_nil in PA).
  assert (length ps <> 1%nat) as L1.
  { destruct ps as [|q [|? ?]]; [done| |cbn; lia]. apply elem_of_list_singleton in PA, PB, PC. subst. destruct NZT. unfold orient. ring. }
  unfold ConvexHull. rewrite points_2D by done. cbn [mbind outcome_bind require].
  destruct (Nat.eqb_spec (length ps) 1) as [|_]; [lia|].
  assert (zip ps (seq 0 (length ps)) <> []) as NZ.
  { intros E. apply (f_equal (fmap fst)) in E. by rewrite zip_points in E. }
  destruct (lowest_some g _ NZ) as [o LO]. rewrite LO. destruct (sorted_points g ps o X F N LO) as (FO & IO & U & l & ES & SS & FL & P).
  pose proof (sort_perm g o (zip ps (seq 0 (length ps)))) as PZ. rewrite ES in PZ |- *.
  destruct (reverse (o :: l)) as [|back r] eqn:ER.
  { apply (f_equal length) in ER. by rewrite reverse_length in ER. }
  assert (back ∈ l) as BL.
  { rewrite reverse_cons in ER. destruct (reverse l) as [|y k] eqn:EK.
    - apply (f_equal reverse) in EK. rewrite reverse_involutive in EK. cbn in EK. subst l. cbn in P. apply Permutation_length in P. cbn in P. lia.
    - cbn in ER. injection ER as <- _. apply elem_of_reverse. rewrite EK. apply elem_of_list_here. }
  assert (back.1 ∈ ps) as BP by (rewrite <- P; apply elem_of_list_further; by apply elem_of_list_fmap_1).
  assert (back.1 <> o.1) as NB by (rewrite Forall_forall in FL; apply FL; by apply elem_of_list_fmap_1).
  assert (up o.1 back.1) as UB by (destruct (U _ BP); done).
  destruct (reverse_tail_spec g o (o :: l) back r X ER) as [(m0 & x & a & El & FA & NX & ET)|[FA _]].
  2:{ exfalso. apply NZT. rewrite Forall_forall in FA. rewrite Forall_forall in F.
      assert (forall p, p ∈ ps -> orient o.1 back.1 p = 0) as ON.
      { intros p Q. rewrite <- P in Q. change (o.1 :: (fst <$> l)) with (fst <$> o :: l) in Q. apply elem_of_list_fmap in Q.
        destruct Q as (q & -> & Q). specialize (FA q Q). unfold aligned in FA. transitivity (- orient q.1 back.1 o.1); [unfold orient; ring|].
        rewrite FA. ring. }
      apply (line_three o.1 back.1); [apply flat_distinct; [done|by apply F|congruence]|by apply ON..]. }
  rewrite ET. cbn [mbind outcome_bind].
  (* the points before the last ray *)
  assert (exists m, m0 ++ [x] = o :: m /\ l = m ++ reverse a ++ [back] /\ x ∈ m /\ m = tail m0 ++ [x]) as (m & Em & Em2 & XM & Em3).
  { destruct m0 as [|y m0].
    - exfalso. cbn in El. injection El as <- _. apply NX. unfold aligned, orient. ring.
    - cbn in El. injection El as <- ->. exists (m0 ++ [x]). rewrite <- app_assoc. split_and!; try done. apply elem_of_app. right. by apply elem_of_list_singleton. }
  assert (m0 ++ [x] ++ back :: a = o :: (m ++ [back]) ++ a) as EN.
  { rewrite app_assoc, Em. cbn. by rewrite <- app_assoc. }
  eexists _, (fst <$> scan g true (m0 ++ [x] ++ back :: a)). split; [done|]. split.
  { apply scan_ids. rewrite <- PZ, El. apply Permutation_app_head, Permutation_app_head.
    rewrite reverse_Permutation. rewrite Permutation_app_comm. done. }
  rewrite EN. set (m' := (fst <$> m) : list vec3). set (a' := (fst <$> a) : list vec3).
  assert ((fst <$> l) = m' ++ reverse a' ++ [back.1]) as EL by (rewrite Em2, !fmap_app, fmap_reverse; done).
  rewrite EL in SS, FL, P.
  assert (StronglySorted (after o.1) (m' ++ [back.1])) as SS1.
  { eapply sorted_sublist; [|exact SS]. apply sublist_app; [done|]. by apply sublist_inserts_l. }
  assert (Forall (fun x => x <> o.1) (m' ++ [back.1])) as FL1.
  { rewrite !Forall_app in FL. rewrite Forall_app. tauto. }
  assert (StronglySorted (after o.1) (reverse a' ++ [back.1])) as SS2.
  { eapply sorted_sublist; [|exact SS]. by apply sublist_inserts_l. }
  set (ps1 := reverse (m' ++ [back.1]) ++ [o.1]).
  set (st1 := foldl (fun st x => x :: pops true x st) [o.1] (m' ++ [back.1])).
  assert (fst <$> scan g true (o :: (m ++ [back]) ++ a) = foldl (fun st x => x :: pops true x st) st1 a') as Ehs.
  { unfold scan, st1. cbn [foldl pop]. etransitivity; [apply scan_points; done|]. cbn [fmap list_fmap]. rewrite fmap_app, foldl_app.
    f_equal. f_equal. by rewrite fmap_app. }
  assert (good o.1 true st1 ps1) as G.
  { apply good_scan; [done| |apply good_start]. eapply Forall_impl; [exact FL1|]. intros y Y. split; [done|]. intros p Q.
    apply elem_of_list_singleton in Q. by left. }
  assert (lost o.1 st1 ps1) as LS.
  { apply lost_scan; [done| |apply good_start|].
    - eapply Forall_impl; [exact FL1|]. intros y Y. split; [done|]. intros p Q. apply elem_of_list_singleton in Q. by left.
    - intros p Q. by left. }
  assert (exists st, st1 = back.1 :: st) as [st Est].
  { unfold st1. rewrite foldl_app. cbn [foldl]. eexists. reflexivity. }
  assert (forall p, p ∈ ps1 <-> p = o.1 \/ p = back.1 \/ p ∈ m') as I1.
  { intros p. unfold ps1. rewrite elem_of_app, elem_of_reverse, elem_of_app, !elem_of_list_singleton. tauto. }
  assert (forall p, p ∈ ps <-> p ∈ ps1 \/ p ∈ a') as I2.
  { intros p. rewrite I1, <- P, elem_of_cons, !elem_of_app, elem_of_reverse, elem_of_list_singleton. tauto. }
  assert (forall p, p ∈ ps1 -> p = o.1 \/ up o.1 p) as U1 by (intros p Q; apply U, I2; by left).
  assert (Forall (up o.1) (reverse a')) as UA.
  { apply Forall_forall. intros p Q. rewrite elem_of_reverse in Q. destruct (U p) as [E|]; [apply I2; by right| |done].
    rewrite !Forall_app in FL. destruct FL as (_ & FL & _). rewrite Forall_forall in FL. exfalso. apply (FL p); [by apply elem_of_reverse|exact E]. }
  assert (forall p, p ∈ a' -> mo o.1 p back.1 = 0) as ZA.
  { intros p Q. apply elem_of_list_fmap in Q. destruct Q as (q & -> & Q). rewrite Forall_forall in FA. specialize (FA q Q). unfold aligned in FA.
    transitivity (- orient q.1 back.1 o.1); [unfold mo, orient; ring|]. rewrite FA. ring. }
  assert (forall i j u v, (i < j)%nat -> (reverse a' ++ [back.1]) !! i = Some u -> (reverse a' ++ [back.1]) !! j = Some v ->
    exists k, 1 < k /\ on_line o.1 u k v) as HN.
  { intros i j u v L A B. pose proof (sorted_lookup _ _ i j u v SS2 L A B) as AUV.
    assert (forall w i, (reverse a' ++ [back.1]) !! i = Some w -> up o.1 w /\ mo o.1 w back.1 = 0) as K.
    { clear - ZA UA UB. intros w i H. apply elem_of_list_lookup_2, elem_of_app in H. destruct H as [H|H].
      - rewrite Forall_forall in UA. split; [by apply UA|]. by apply ZA, elem_of_reverse.
      - apply elem_of_list_singleton in H as ->. split; [done|apply mo_same2]. }
    destruct (K u i A) as [UU ZU]. destruct (K v j B) as [UV ZV].
    apply after_zero; [done|]. destruct (turns_transitive o.1 v back.1 u UV UB UU) as [W _].
    - by rewrite ZV.
    - rewrite (mo_swap o.1 u back.1), ZU. done.
    - rewrite (mo_swap o.1 u v) in W. pose proof (after_nonneg _ _ _ AUV). qlra. }
  assert (forall q, q ∈ m' -> 0 < mo o.1 q back.1) as MB.
  { assert (up o.1 x.1) as UX.
    { destruct (U1 x.1) as [E|]; [apply I1; right; right; by apply elem_of_list_fmap_1| |done].
      destruct NX. unfold aligned. rewrite E. unfold orient. ring. }
    assert (0 < mo o.1 x.1 back.1) as XB.
    { assert (after o.1 x.1 back.1) as AX.
      { assert (x.1 ∈ m') as XM' by (by apply elem_of_list_fmap_1). apply elem_of_list_lookup_1 in XM'. destruct XM' as [i I].
        pose proof (lookup_lt_Some _ _ _ I) as LI. apply (sorted_lookup _ (m' ++ [back.1]) i (length m') _ _ SS1 LI).
        - by rewrite lookup_app_l.
        - by rewrite lookup_app_r, Nat.sub_diag by done. }
      destruct (Qcle_lt_or_eq _ _ (after_nonneg _ _ _ AX)) as [|Z]; [done|]. destruct NX. unfold aligned.
      transitivity (- mo o.1 x.1 back.1); [unfold mo, orient; ring|]. rewrite <- Z. ring. }
    intros q Q. assert (up o.1 q) as UQ.
    { destruct (U1 q) as [E|]; [apply I1; tauto| |done]. rewrite Forall_app in FL1. destruct FL1 as [FL1 _]. rewrite Forall_forall in FL1.
      by destruct (FL1 q Q). }
    destruct (decide (q = x.1)) as [-> |NQ]; [done|].
    assert (after o.1 q x.1) as AQ.
    { assert (m' = (fst <$> tail m0) ++ [x.1]) as Em' by (unfold m'; rewrite Em3 at 1; by rewrite fmap_app). rewrite Em' in Q.
      apply elem_of_app in Q. destruct Q as [Q|Q]; [|by apply elem_of_list_singleton in Q].
      apply elem_of_list_lookup_1 in Q. destruct Q as [i I]. pose proof (lookup_lt_Some _ _ _ I) as LI.
      assert (StronglySorted (after o.1) m') as SM by (eapply sorted_sublist; [|exact SS1]; by apply sublist_inserts_r).
      rewrite Em' in SM. apply (sorted_lookup _ _ i (length (fst <$> tail m0)) _ _ SM LI).
      - by rewrite lookup_app_l.
      - by rewrite lookup_app_r, Nat.sub_diag by done. }
    apply (turns_transitive o.1 q x.1 back.1 UQ UX UB (after_nonneg _ _ _ AQ) ltac:(qlra)). by right. }
  assert (forall q, q ∈ ps1 -> q = o.1 \/ q = back.1 \/ 0 < mo o.1 q back.1) as RY.
  { intros q Q. apply I1 in Q. destruct Q as [|[|Q]]; [by left|by right; left|]. right; right. by apply MB. }
  rewrite Est in G, LS.
  assert (1 < length st)%nat as L3.
  { pose proof (good_stack _ _ _ _ G) as GS. destruct st as [|y [|z st]]; [| |cbn; lia]; exfalso.
    - destruct GS as ([|? [|? ?]] & E & _); cbn in E; by injection E.
    - assert (y = o.1) as -> by (pose proof (stack_last _ _ GS) as H; cbn in H; by injection H).
      assert (x.1 ∈ m') as XM' by (by apply elem_of_list_fmap_1).
      destruct (good_sees _ _ _ _ G x.1 ltac:(apply I1; tauto)) as [H _]. rewrite (mo_swap o.1 x.1) in H. pose proof (MB _ XM'). qlra. }
  assert (fst <$> scan g true (o :: (m ++ [back]) ++ a) = reverse a' ++ back.1 :: st) as ->.
  { rewrite Ehs, Est. destruct st as [|d rest]; [cbn in L3; lia|]. apply (push_all o.1).
    - destruct (stack_after _ _ _ d (good_stack _ _ _ _ G) ltac:(apply elem_of_list_here)) as [-> |H]; [by rewrite mo_same3|by apply after_nonneg].
    - assert (forall k : list vec3, (forall i j u v, (i < j)%nat -> k !! i = Some u -> k !! j = Some v -> exists c, 1 < c /\ on_line o.1 v c u) ->
        StronglySorted (fun u v => exists c, 1 < c /\ on_line o.1 v c u) k) as SK.
      { clear. induction k as [|y k IH]; intros H; [constructor|]. constructor.
        - apply IH. intros i j u v L A B. by apply (H (S i) (S j)); [lia|..].
        - apply Forall_forall. intros z Z. apply elem_of_list_lookup_1 in Z. destruct Z as [j J]. by apply (H 0%nat (S j)); [lia|..]. }
      apply SK. intros i j u v L A B.
      assert (back.1 :: a' = reverse (reverse a' ++ [back.1])) as ER2 by (by rewrite reverse_app, reverse_involutive).
      rewrite ER2 in A, B. pose proof (lookup_lt_Some _ _ _ A) as LA. pose proof (lookup_lt_Some _ _ _ B) as LB. rewrite reverse_length in LA, LB.
      rewrite reverse_lookup in A, B by done. apply (HN (length (reverse a' ++ [back.1]) - S j)%nat (length (reverse a' ++ [back.1]) - S i)%nat); [lia|done|done]. }
  assert (length (reverse a' ++ back.1 :: st) = (length a' + S (length st))%nat) as LH by (rewrite app_length, reverse_length; done).
  split; [lia|]. split; [by apply (hs_nodup o.1 back.1 st (reverse a') ps1)|]. split; [by apply (hs_left o.1 back.1 st (reverse a') ps1)|].
  intros p Q. apply I2 in Q. split.
  - intros i. apply (hs_cover o.1 back.1 st (reverse a') ps1); try done. destruct Q as [Q|Q]; [by left|right; by apply elem_of_reverse].
  - destruct (decide (p ∈ reverse a' ++ back.1 :: st)) as [|NP]; [by left|]. right. intros i.
    apply (hs_inside o.1 back.1 st (reverse a') ps1); try done. destruct Q as [Q|Q]; [done|]. exfalso. apply NP, elem_of_app. left. by apply elem_of_reverse.
Qed.
(** All the points on one line: the loop goes below the first point. *)
Lemma convex_hull_undefined g ps : exact g -> Forall flat ps -> NoDup ps -> (1 < length ps)%nat ->
  (forall a b c, a ∈ ps -> b ∈ ps -> c ∈ ps -> orient a b c = 0) -> ConvexHull g ps true = UB.
Proof.
  intros X F N L Z. assert (ps <> []) as NE by (intros ->; cbn in L; lia).
  unfold ConvexHull. rewrite points_2D by done. cbn [mbind outcome_bind require].
  destruct (Nat.eqb_spec (length ps) 1) as [|_]; [lia|].
  assert (zip ps (seq 0 (length ps)) <> []) as NZ.
  { intros E. apply (f_equal (fmap fst)) in E. by rewrite zip_points in E. }
  destruct (lowest_some g _ NZ) as [o LO]. rewrite LO. destruct (sorted_points g ps o X F N LO) as (FO & IO & U & l & ES & SS & FL & P).
  rewrite ES. destruct (reverse (o :: l)) as [|back r] eqn:ER.
  { apply (f_equal length) in ER. by rewrite reverse_length in ER. }
  assert (forall q, q ∈ o :: l -> q.1 ∈ ps) as IP.
  { intros q Q. rewrite <- P. change (o.1 :: (fst <$> l)) with (fst <$> o :: l). by apply elem_of_list_fmap_1. }
  assert (back ∈ o :: l) as BL by (apply elem_of_reverse; rewrite ER; apply elem_of_list_here).
  destruct (reverse_tail_spec g o (o :: l) back r X ER) as [(m0 & x & a & El & FA & NX & ET)|[_ ->]]; [|done].
  exfalso. apply NX. unfold aligned. apply Z; [|by apply IP|done]. apply IP. rewrite El. apply elem_of_app. right. apply elem_of_list_here.
Qed.

(** ** In the words of the specification *)

Lemma not_line ps : ~ on_one_line ps -> exists a b c, a ∈ ps /\ b ∈ ps /\ c ∈ ps /\ orient a b c <> 0.
Proof.
  intros N. destruct (decide (Forall (fun a => Forall (fun b => Forall (fun c => orient a b c = 0) ps) ps) ps)) as [F|F].
  - destruct N. intros a b c A B C. rewrite Forall_forall in F. specialize (F a A). cbn beta in F. rewrite Forall_forall in F. specialize (F b B). cbn beta in F.
    rewrite Forall_forall in F. by apply F.
  - apply not_Forall_Exists in F; [|apply _]. apply Exists_exists in F. destruct F as (a & A & F). cbn in F.
    apply not_Forall_Exists in F; [|apply _]. apply Exists_exists in F. destruct F as (b & B & F). cbn in F.
    apply not_Forall_Exists in F; [|apply _]. apply Exists_exists in F. destruct F as (c & C & F). by exists a, b, c.
Qed.
Lemma few_on_line ps : (length ps <= 1)%nat -> on_one_line ps.
Proof.
  intros L a b c A B C. destruct ps as [|p [|? ?]]; [by apply elem_of_nil in A| |cbn in L; lia].
  apply elem_of_list_singleton in A, B, C. subst. unfold orient. ring.
Qed.
Lemma hull_corners g ps : exact g -> Forall flat ps -> NoDup ps -> ~ on_one_line ps ->
  exists ids hs, ConvexHull g ps false = Ok ids /\ selected ps ids hs /\ (2 < length hs)%nat /\ ordered hs /\
    forall p, p ∈ ps -> encloses hs p.
Proof.
  intros X F N NL. assert (1 < length ps)%nat as L.
  { destruct (decide (1 < length ps)%nat); [done|]. destruct NL. apply few_on_line. lia. }
  destruct (convex_hull_strict g ps X F N L) as (ids & hs & E & S1 & [(L2 & O & C)|(a & b & _ & NE & H)]).
  - exists ids, hs. split_and!; try done. intros p P i. by apply C.
  - destruct NL. intros x y z A B C. destruct (H x A) as (c1 & _ & _ & ->), (H y B) as (c2 & _ & _ & ->), (H z C) as (c3 & _ & _ & ->).
    unfold orient. cbn [fst snd]. ring.
Qed.
Lemma hull_segment g ps : exact g -> Forall flat ps -> NoDup ps -> (1 < length ps)%nat -> on_one_line ps ->
  exists i j a b, ConvexHull g ps false = Ok [i; j] /\ selected ps [i; j] [a; b] /\ a <> b /\
    forall p, p ∈ ps -> exists c, 0 <= c /\ c <= 1 /\ on_line b a c p.
Proof.
  intros X F N L OL. destruct (convex_hull_strict g ps X F N L) as (ids & hs & E & S1 & [(L2 & O & C)|(a & b & -> & NE & H)]).
  - exfalso. assert (forall h, h ∈ hs -> h ∈ ps) as I.
    { intros h I. apply elem_of_list_lookup_1 in I. destruct I as [k K]. destruct (Forall2_lookup_r _ _ _ _ _ S1 K) as (i & _ & Q).
      by eapply elem_of_list_lookup_2. }
    destruct hs as [|u [|v [|w hs]]]; [cbn in L2; lia|cbn in L2; lia|cbn in L2; lia|].
    pose proof (O 0%nat 1%nat 2%nat u v w ltac:(lia) eq_refl eq_refl eq_refl) as P.
    rewrite (OL u v w) in P; [qlra|apply I; repeat first [apply elem_of_list_here|apply elem_of_list_further]..].
  - pose proof (Forall2_length _ _ _ S1) as LL. destruct ids as [|i [|j [|? ?]]]; [discriminate LL|discriminate LL| |discriminate LL]. exists i, j, a, b. exact (conj E (conj S1 (conj NE H))).
Qed.
Lemma hull_sides g ps : exact g -> Forall flat ps -> NoDup ps -> ~ on_one_line ps ->
  exists ids hs, ConvexHull g ps true = Ok ids /\ selected ps ids hs /\ (2 < length hs)%nat /\ NoDup hs /\ left_turning hs /\
    forall p, p ∈ ps -> encloses hs p /\ (p ∈ hs \/ surrounds hs p).
Proof. intros X F N NL. by apply convex_hull_full; [..|apply not_line]. Qed.
