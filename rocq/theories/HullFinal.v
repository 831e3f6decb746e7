(** * Convex hulls: the result. *)
From Coq Require Import QArith Qcanon Sorted.
From Verif Require Import Base QcTac FillModel GeoModel MapModel PointModel PointSpec PointProof PolyModel PolySpec PolyProof
  TriProof EarProof ConvexProof HullModel HullProof HullSort.
Local Open Scope Qc_scope.

Lemma corner_shift vs i k : corner vs (i mod length vs + k) = corner vs (i + k).
Proof.
  unfold corner. f_equal. destruct (decide (length vs = 0)%nat) as [Z|N]; [by rewrite Z|].
  rewrite (Nat.add_mod_idemp_l i k (length vs)) by done. reflexivity.
Qed.
Lemma corner_at vs i a : vs !! i = Some a -> corner vs i = a.
Proof. intros E. pose proof (lookup_lt_Some _ _ _ E) as L. rewrite (corner_lookup vs i L) in E. by injection E. Qed.

Section final.
Context (o : vec3).
Lemma sees_nth st p i a b : sees st p -> st !! i = Some a -> st !! S i = Some b -> 0 <= mo b a p.
Proof.
  revert i. induction st as [|x st IH]; intros i H A B; [done|]. destruct st as [|y st]; [by destruct i|]. destruct H as [H HS].
  destruct i as [|i]; [cbn in A, B; by injection A as <-; injection B as <-|]. by apply (IH i).
Qed.
Lemma bends_nth inc st i a b c : bends inc st -> st !! i = Some a -> st !! S i = Some b -> st !! S (S i) = Some c -> turn_ok inc (mo c b a).
Proof.
  revert i. induction st as [|x st IH]; intros i H A B C; [done|]. destruct st as [|y st]; [by destruct i|]. destruct st as [|z st]; [by destruct i|].
  destruct H as [H HS]. destruct i as [|i]; [cbn in A, B, C; by injection A as <-; injection B as <-; injection C as <-|]. by apply (IH i).
Qed.
Lemma stack_last st : stack o st -> st !! (length st - 1)%nat = Some o.
Proof. intros (r & -> & _). rewrite app_length. cbn [length]. rewrite lookup_app_r by lia. by replace (length r + 1 - 1 - length r)%nat with 0%nat by lia. Qed.
Lemma stack_order st i j a b : stack o st -> (i < j)%nat -> st !! i = Some a -> st !! j = Some b -> a <> o /\ (b = o \/ after o b a).
Proof.
  intros S L A B. split.
  - destruct S as (r & -> & NO & _). pose proof (lookup_lt_Some _ _ _ B) as LB. rewrite app_length in LB. cbn [length] in LB.
    rewrite lookup_app_l in A by lia. intros ->. apply NO. by eapply elem_of_list_lookup_2.
  - revert i j S L A B. induction st as [|x st IH]; intros i j S L A B; [done|]. destruct j as [|j]; [lia|].
    destruct i as [|i].
    + cbn in A. injection A as ->. apply (stack_after o a st); [done|]. by eapply elem_of_list_lookup_2.
    + cbn in A, B. apply (IH i j); try done; [|lia]. apply (stack_cons o x); [done|]. by destruct st.
Qed.
Lemma good_cover inc st ps p i : good o inc st ps -> (1 < length st)%nat -> p ∈ ps -> 0 <= orient (corner st i) (corner st (S i)) p.
Proof.
  intros G L P. rewrite <- (corner_mod st i), <- Nat.add_1_r, <- corner_shift, Nat.add_1_r.
  pose proof (Nat.mod_upper_bound i (length st) ltac:(lia)) as B. set (k := (i mod length st)%nat) in *. clearbody k.
  destruct (decide (S k < length st)%nat) as [LT|GE].
  - pose proof (sees_nth st p k _ _ (good_sees _ _ _ _ G p P) (corner_lookup st k B) (corner_lookup st (S k) LT)) as H.
    rewrite (mo_rotate p) in H. exact H.
  - replace k with (length st - 1)%nat in * by lia. rewrite (corner_at st _ _ (stack_last st (good_stack _ _ _ _ G))).
    replace (S (length st - 1)) with (0 + length st)%nat by lia. rewrite corner_periodic.
    destruct (good_top _ _ _ _ G) as (x & st' & -> & _ & T).
    assert (x <> o) as N.
    { destruct st' as [|y st']; [cbn in L; lia|]. by apply (stack_ne o x y st'), (good_stack _ _ _ _ G). }
    rewrite (corner_at _ 0 x) by done. destruct (T N p P) as [H _]. rewrite (mo_rotate p) in H. exact H.
Qed.
Lemma stack_nodup st : flat o -> stack o st -> (forall p, p ∈ st -> p = o \/ up o p) -> NoDup st.
Proof.
  intros FO S U. apply NoDup_alt. intros i j x A B. destruct (decide (i = j)) as [|N]; [done|]. exfalso.
  assert (forall i j, (i < j)%nat -> st !! i = Some x -> st !! j = Some x -> False) as K.
  { clear i j A B N. intros i j L A B. destruct (stack_order st i j x x S L A B) as [NO [|H]]; [done|].
    destruct (U x ltac:(by eapply elem_of_list_lookup_2)) as [|UX]; [done|].
    by apply (after_irreflexive o FO x x). }
  destruct (decide (i < j)%nat); [by apply (K i j)|]. apply (K j i); [lia|done|done].
Qed.
Lemma up_on_line a b l x : on_line a b l x -> forall u v, orient u v x = (1 - l) * orient u v a + l * orient u v b.
Proof. unfold on_line, orient. intros -> u v. cbn [fst snd]. ring. Qed.

(** A strict stack with three vertices or more is a strictly convex polygon. *)
Lemma strict_polygon st ps : flat o -> good o false st ps -> (2 < length st)%nat -> (forall p, p ∈ ps -> p = o \/ up o p) ->
  ordered st.
Proof.
  intros FO G L U. pose proof (good_stack _ _ _ _ G) as GS. pose proof (good_bends _ _ _ _ G) as GB.
  assert (forall p, p ∈ st -> p = o \/ up o p) as US by (intros p P; by apply U, (good_sub _ _ _ _ G)).
  assert (Forall flat st) as FF by (apply Forall_forall; intros p P; destruct (US p P) as [-> |[? _]]; done).
  assert (forall i, (i < length st)%nat -> corner st i ∈ ps) as CI.
  { intros i I. apply (good_sub _ _ _ _ G). by eapply elem_of_list_lookup_2, corner_lookup. }
  pose proof (stack_last st GS) as LAST.
  apply strict_ordered; [done|done|by apply stack_nodup| |].
  { intros i j. apply (good_cover false _ ps); [done|lia|]. rewrite <- corner_mod. apply CI. apply Nat.mod_upper_bound. lia. }
  (* the turns *)
  intros i. rewrite <- (corner_mod st i). replace (S i) with (i + 1)%nat by lia. replace (S (i + 1)) with (i + 2)%nat by lia.
  rewrite <- (corner_shift st i 1), <- (corner_shift st i 2).
  pose proof (Nat.mod_upper_bound i (length st) ltac:(lia)) as B. set (k := (i mod length st)%nat) in *. clearbody k. clear i.
  destruct (decide (k + 2 < length st)%nat) as [LT|GE].
  { pose proof (bends_nth false st k _ _ _ GB (corner_lookup st k ltac:(lia)) (corner_lookup st (S k) ltac:(lia))
      (corner_lookup st (S (S k)) ltac:(lia))) as H. unfold turn_ok, mo in H.
    replace (k + 1)%nat with (S k) by lia. by replace (k + 2)%nat with (S (S k)) by lia. }
  pose proof (corner_lookup st 0 ltac:(lia)) as C0.
  destruct (decide (k = length st - 2)%nat) as [-> |NE].
  - (* around o: s, o, t *)
    replace (length st - 2 + 1)%nat with (length st - 1)%nat by lia. rewrite (corner_at st _ _ LAST).
    replace (length st - 2 + 2)%nat with (0 + length st)%nat by lia. rewrite corner_periodic.
    set (s := corner st (length st - 2)). set (t := corner st 0) in *.
    pose proof (corner_lookup st (length st - 2) ltac:(lia)) as CS. fold s in CS.
    destruct (stack_order st 0 (length st - 2) t s GS ltac:(lia) C0 CS) as [NT ST].
    assert (s <> o) as NS by (by destruct (stack_order st (length st - 2) (length st - 1) s o GS ltac:(lia) CS LAST)).
    destruct ST as [ST|ST]; [done|].
    replace (orient s o t) with (mo o s t) by (unfold mo, orient; ring).
    destruct (Qcle_lt_or_eq _ _ (after_nonneg _ _ _ ST)) as [|Z]; [done|]. exfalso. symmetry in Z.
    destruct (after_zero _ _ _ ST Z) as (l & LL & OL).
    set (u := corner st (length st - 3)). pose proof (corner_lookup st (length st - 3) ltac:(lia)) as CU. fold u in CU.
    pose proof (bends_nth false st (length st - 3) u s o GB CU) as BN.
    replace (S (length st - 3)) with (length st - 2)%nat in BN by lia. replace (S (length st - 2)) with (length st - 1)%nat in BN by lia.
    specialize (BN CS LAST). unfold turn_ok in BN.
    destruct (decide (length st - 3 = 0)%nat) as [E|NE].
    + assert (u = t) as EU by (unfold u; rewrite E; done). rewrite EU, Z in BN. qlra.
    + destruct (stack_order st 0 (length st - 3) t u GS ltac:(lia) C0 CU) as [_ UT].
      destruct UT as [UT|UT]; [by rewrite UT, mo_same1 in BN|].
      pose proof (after_nonneg _ _ _ UT) as H. rewrite (on_line_mo1 o s l t o u OL), mo_same1, (mo_swap o s u) in H.
      pose proof (times_pos l (mo o s u) ltac:(qlra) BN) as Q.
      replace (l * - mo o s u + (1 - l) * 0) with (- (l * mo o s u)) in H by ring. qlra.
  - (* o, t, t' *)
    assert (k = length st - 1)%nat as -> by lia. rewrite (corner_at st _ _ LAST).
    replace (length st - 1 + 1)%nat with (0 + length st)%nat by lia. replace (length st - 1 + 2)%nat with (1 + length st)%nat by lia.
    rewrite !corner_periodic. set (t := corner st 0) in *. set (t1 := corner st 1). set (t2 := corner st 2).
    pose proof (corner_lookup st 1 ltac:(lia)) as C1. fold t1 in C1. pose proof (corner_lookup st 2 ltac:(lia)) as C2. fold t2 in C2.
    replace (orient o t t1) with (mo o t1 t) by (unfold mo, orient; ring).
    destruct (stack_order st 0 1 t t1 GS ltac:(lia) C0 C1) as [_ H1]. destruct (stack_order st 1 2 t1 t2 GS ltac:(lia) C1 C2) as [N1 H2].
    destruct H1 as [|H1]; [done|].
    destruct (Qcle_lt_or_eq _ _ (after_nonneg _ _ _ H1)) as [|Z]; [done|]. exfalso. symmetry in Z.
    destruct (after_zero _ _ _ H1 Z) as (l & LL & OL).
    pose proof (bends_nth false st 0 t t1 t2 GB C0 C1 C2) as BN. unfold turn_ok in BN.
    rewrite (on_line_mo1 o t1 l t t2 t1 OL), mo_same2 in BN.
    assert (0 <= mo o t2 t1) as Q by (destruct H2 as [-> |H2]; [by rewrite mo_same3|by apply after_nonneg]).
    rewrite (mo_rotate o t2 t1) in BN.
    pose proof (times_nonneg (l - 1) _ ltac:(qlra) Q) as Q2.
    replace (l * 0 + (1 - l) * mo o t2 t1) with (- ((l - 1) * mo o t2 t1)) in BN by ring. qlra.
Qed.
(** Fewer vertices: all the points are on one line. *)
Lemma two_vertices st ps : good o false st ps -> (length st <= 2)%nat -> (forall p, p ∈ ps -> p = o) \/
  exists a, st = [a; o] /\ a <> o /\ forall p, p ∈ ps -> mo o a p = 0 /\ (p = o \/ p = a \/ after o p a).
Proof.
  intros G L. destruct (good_top _ _ _ _ G) as (x & st' & -> & T1 & T2). pose proof (good_stack _ _ _ _ G) as GS.
  destruct st' as [|y [|z st']]; [| |cbn in L; lia].
  - left. apply T1. destruct GS as ([|? [|? ?]] & E & _); cbn in E; by injection E.
  - right. exists x. assert (y = o) as ->.
    { pose proof (stack_last _ GS) as H. cbn in H. by injection H. }
    split; [done|]. pose proof (stack_ne o x o [] GS) as N. split; [done|]. intros p P. destruct (T2 N p P) as [A B].
    destruct (good_sees _ _ _ _ G p P) as [C _]. split; [|done]. rewrite mo_swap1 in A. qlra.
Qed.
End final.

(** ** The function *)

Lemma zip_points (ps : list vec3) : fst <$> zip ps (seq 0 (length ps)) = ps.
Proof. apply fst_zip. by rewrite seq_length. Qed.
Lemma zip_elem (ps : list vec3) p i : (p, i) ∈ zip ps (seq 0 (length ps)) -> ps !! i = Some p.
Proof.
  intros H. apply elem_of_list_lookup_1 in H. destruct H as [k H]. apply lookup_zip_with_Some in H.
  destruct H as (a & b & E & A & B). injection E as -> ->. apply lookup_seq in B. destruct B as [-> _]. done.
Qed.
Lemma points_2D g ps : exact g -> Forall flat ps -> ps <> [] -> PointsAre2D g ps = Ok true.
Proof.
  intros [_ X] F N. unfold PointsAre2D. destruct ps as [|p ps]; [done|]. cbn [length Nat.eqb negb require mbind outcome_bind]. f_equal.
  apply forallb_forall. intros q Q. rewrite Forall_forall in F. apply elem_of_list_In in Q. rewrite (F q Q), X.
  reflexivity.
Qed.
(** The sorted points: [o], then the others around [o]. *)
Lemma sorted_points g ps o : exact g -> Forall flat ps -> NoDup ps -> lowest g (zip ps (seq 0 (length ps))) = Some o ->
  flat o.1 /\ o.1 ∈ ps /\ (forall p, p ∈ ps -> p = o.1 \/ up o.1 p) /\
  exists l, sort (before g o) (zip ps (seq 0 (length ps))) = o :: l /\ StronglySorted (after o.1) (fst <$> l) /\
    Forall (fun x => x <> o.1) (fst <$> l) /\ o.1 :: (fst <$> l) ≡ₚ ps.
Proof.
  intros X F N LO. destruct (lowest_ok g _ o X LO) as [I FL]. set (zs := zip ps (seq 0 (length ps))) in *.
  assert (fst <$> zs = ps) as EZ by apply zip_points.
  assert (o.1 ∈ ps) as IO by (rewrite <- EZ; by apply elem_of_list_fmap_1).
  pose proof F as F'. rewrite Forall_forall in F'. assert (flat o.1) as FO by (by apply F').
  assert (forall p, p ∈ ps -> p = o.1 \/ up o.1 p) as U.
  { intros p P. rewrite <- EZ in P. apply elem_of_list_fmap in P. destruct P as (q & -> & Q).
    rewrite Forall_forall in FL. destruct (decide (q.1 = o.1)) as [|NE]; [by left|]. right.
    assert (flat q.1) as FQ by (apply F'; rewrite <- EZ; by apply elem_of_list_fmap_1).
    split; [done|]. apply low_above; [done|done|by apply FL|done]. }
  split; [done|]. split; [done|]. split; [done|].
  assert (StronglySorted (earlier o.1) (sort (before g o) zs)) as SS.
  { apply sort_sorted; [done|done|done| |by rewrite EZ]. apply Forall_forall. intros q Q. apply U. rewrite <- EZ. by apply elem_of_list_fmap_1. }
  pose proof (sort_perm g o zs) as P. set (l := sort (before g o) zs) in *. clearbody l.
  destruct l as [|x l]; [apply Permutation_nil in P; rewrite P in I; by apply elem_of_nil in I|].
  apply StronglySorted_inv in SS. destruct SS as [SS FX]. rewrite Forall_forall in FX.
  assert (o ∈ x :: l) as J by (by rewrite P). apply elem_of_cons in J. destruct J as [<- |J].
  2:{ destruct (FX o J) as [[] _]. done. }
  exists l. split; [done|]. split; [|split].
  - clear - SS FX. induction l as [|y l IH]; [constructor|]. cbn. apply StronglySorted_inv in SS. destruct SS as [SS FY].
    constructor; [apply IH; [done|]; intros z Z; apply FX; by apply elem_of_list_further|].
    rewrite Forall_forall in FY. apply Forall_forall. intros z Z. apply elem_of_list_fmap in Z. destruct Z as (w & -> & W).
    destruct (FY w W) as [_ [E|]]; [|done]. destruct (FX y ltac:(apply elem_of_list_here)) as [[] _]. done.
  - apply Forall_forall. intros z Z. apply elem_of_list_fmap in Z. destruct Z as (w & -> & W). by destruct (FX w W).
  - change (o.1 :: (fst <$> l)) with (fst <$> o :: l). rewrite P. by rewrite EZ.
Qed.
Lemma hull_good g inc o l : exact g -> StronglySorted (after o.1) (fst <$> l) -> Forall (fun x => x <> o.1) (fst <$> l) ->
  good o.1 inc (fst <$> scan g inc (o :: l)) (reverse (fst <$> l) ++ [o.1]).
Proof.
  intros X SS F. unfold scan. cbn [foldl pop]. rewrite scan_points by done. cbn [fmap list_fmap].
  apply good_scan; [done| |apply good_start]. eapply Forall_impl; [exact F|]. intros x N. split; [done|]. intros p P.
  apply elem_of_list_singleton in P. by left.
Qed.
Lemma scan_ids g inc ps l : l ≡ₚ zip ps (seq 0 (length ps)) ->
  Forall2 (fun i p => ps !! i = Some p) (snd <$> scan g inc l) (fst <$> scan g inc l).
Proof.
  intros P. assert (forall y, y ∈ scan g inc l -> ps !! y.2 = Some y.1) as H.
  { intros [p i] Y. unfold scan in Y. apply scan_sub in Y. destruct Y as [Y|Y]; [by apply elem_of_nil in Y|].
    rewrite P in Y. by apply zip_elem. }
  revert H. induction (scan g inc l) as [|y k IH]; intros H; [constructor|]. cbn. constructor; [apply H, elem_of_list_here|].
  apply IH. intros z Z. by apply H, elem_of_list_further.
Qed.
Lemma convex_hull_strict g ps : exact g -> Forall flat ps -> NoDup ps -> (1 < length ps)%nat ->
  exists ids hs, ConvexHull g ps false = Ok ids /\ Forall2 (fun i p => ps !! i = Some p) ids hs /\
   (((2 < length hs)%nat /\ ordered hs /\ forall p i, p ∈ ps -> 0 <= orient (corner hs i) (corner hs (S i)) p) \/
    exists a b, hs = [a; b] /\ a <> b /\ forall p, p ∈ ps -> exists c, 0 <= c /\ c <= 1 /\ on_line b a c p).
Proof.
  intros X F N L. unfold ConvexHull. assert (ps <> []) as NE by (by intros ->; cbn in L; lia).
  rewrite points_2D by done. cbn [mbind outcome_bind require].
  destruct (Nat.eqb_spec (length ps) 1) as [|_]; [lia|].
  assert (zip ps (seq 0 (length ps)) <> []) as NZ.
  { intros E. apply (f_equal (fmap fst)) in E. by rewrite zip_points in E. }
  destruct (lowest_some g _ NZ) as [o LO]. rewrite LO. destruct (sorted_points g ps o X F N LO) as (FO & IO & U & l & ES & SS & FL & P).
  rewrite ES. cbn [mbind outcome_bind].
  pose proof (hull_good g false o l X SS FL) as G.
  assert (reverse (fst <$> l) ++ [o.1] ≡ₚ ps) as PP.
  { rewrite <- P, reverse_Permutation. rewrite Permutation_app_comm. done. }
  eexists _, _. split; [done|]. split; [apply scan_ids; rewrite <- ES; apply sort_perm|].
  set (hs := fst <$> scan g false (o :: l)). set (qs := reverse (fst <$> l) ++ [o.1]) in *.
  change (good o.1 false hs qs) in G. clearbody hs.
  assert (forall p, p ∈ ps -> p ∈ qs) as PQ by (intros p; by rewrite PP).
  assert (forall p, p ∈ qs -> p = o.1 \/ up o.1 p) as UQ by (intros p; rewrite PP; apply U).
  destruct (decide (2 < length hs)%nat) as [L2|L2].
  - left. split; [done|]. split; [apply (strict_polygon o.1 hs qs FO G L2 UQ)|]. intros p i I. apply (good_cover o.1 false hs qs); [done|lia|by apply PQ].
  - right. destruct (two_vertices o.1 hs qs G ltac:(lia)) as [H|(a & -> & NA & H)].
    + exfalso. destruct ps as [|p [|q ps]]; [done|cbn in L; lia|].
      rewrite (H p) in N by (apply PQ, elem_of_list_here). rewrite (H q) in N by (apply PQ, elem_of_list_further, elem_of_list_here). apply NoDup_cons in N. destruct N as [N _]. apply N, elem_of_list_here.
    + exists a, o.1. split; [done|]. split; [done|]. intros p I. destruct (H p (PQ p I)) as [Z [-> |[-> |A]]].
      * exists 0. split_and!; [qlra|qlra|]. apply on_line_origin.
      * exists 1. split_and!; [qlra|qlra|]. apply on_line_end.
      * rewrite mo_swap in Z. destruct (after_zero _ _ _ A ltac:(qlra)) as (m & M & OM).
        assert (m <> 0) as NM by (intros ->; qlra).
        exists (/ m). assert (0 < / m) as PM.
        { replace (/ m) with (1 / m) by (unfold Qcdiv; ring). apply quotient_pos; qlra. }
        split_and!; [qlra| |].
        -- destruct (Qclt_le_dec 1 (/ m)) as [C|]; [|done]. exfalso.
           pose proof (times_pos (/ m - 1) m ltac:(qlra) ltac:(qlra)) as Q. replace ((/ m - 1) * m) with (1 - m) in Q by (field; done). qlra.
        -- rewrite OM. unfold on_line. apply vec_eq; cbn [fst snd]; field; done.
Qed.
