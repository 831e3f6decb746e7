(** * The orientation of a convex polygon, from the convex hull of its vertices. *)
From Coq Require Import QArith Qcanon Sorted.
From Verif Require Import Base QcTac FillModel GeoModel MapModel PointModel PointSpec PointProof PolyModel PolySpec PolyProof
  TriProof EarProof ConvexProof NormalProof HullModel HullProof HullSort HullFinal.
Local Open Scope Qc_scope.

Lemma ordered_rotate1 x l : ordered (x :: l) -> ordered (l ++ [x]).
Proof.
  intros O i j k a b c L A B C. pose proof (lookup_lt_Some _ _ _ C) as LC. rewrite app_length in LC. cbn [length] in LC.
  rewrite lookup_app_l in A by lia. rewrite lookup_app_l in B by lia.
  destruct (decide (k < length l)%nat) as [LT|GE].
  - rewrite lookup_app_l in C by done. by apply (O (S i) (S j) (S k)); [lia|..].
  - rewrite lookup_app_r in C by lia. replace (k - length l)%nat with 0%nat in C by lia. cbn in C. injection C as <-.
    pose proof (O 0%nat (S i) (S j) x a b ltac:(lia) eq_refl A B) as H. replace (orient a b x) with (orient x a b) by (unfold orient; ring). exact H.
Qed.
Lemma ordered_rotate l k : ordered (l ++ k) -> ordered (k ++ l).
Proof.
  revert k. induction l as [|x l IH]; intros k O; [by rewrite app_nil_r|].
  replace (k ++ x :: l) with ((k ++ [x]) ++ l) by (by rewrite <- app_assoc). apply IH. rewrite app_assoc. by apply ordered_rotate1.
Qed.
Lemma ordered_nodup l : ordered l -> (2 < length l)%nat -> NoDup l.
Proof.
  intros O L. apply NoDup_alt. intros i j x A B. destruct (decide (i = j)) as [|N]; [done|]. exfalso.
  assert (forall i j, (i < j)%nat -> l !! i = Some x -> l !! j = Some x -> False) as K.
  { clear i j A B N. intros i j LT A B. pose proof (lookup_lt_Some _ _ _ B) as LB.
    assert (exists k, (k < length l)%nat /\ k <> i /\ k <> j) as (k & LK & N1 & N2).
    { destruct (decide (i = 0)%nat); [destruct (decide (j = 1)%nat); [exists 2%nat; lia|exists 1%nat; lia]|exists 0%nat; lia]. }
    destruct (lookup_lt_is_Some_2 l k LK) as [c C].
    assert (orient x x c = 0 /\ orient x c x = 0 /\ orient c x x = 0) as (E1 & E2 & E3) by (unfold orient; split_and!; ring).
    destruct (decide (k < i)%nat); [pose proof (O k i j c x x ltac:(lia) C A B); qlra|].
    destruct (decide (k < j)%nat); [pose proof (O i k j x c x ltac:(lia) A C B); qlra|].
    pose proof (O i j k x x c ltac:(lia) A B C). qlra. }
  destruct (decide (i < j)%nat); [by apply (K i j)|]. apply (K j i); [lia|done|done].
Qed.
Lemma smallest_first (l : list nat) : l <> [] -> exists b x a, l = b ++ x :: a /\ forall y, y ∈ l -> (x <= y)%nat.
Proof.
  induction l as [|z l IH]; [done|]. intros _. destruct l as [|w l].
  { exists [], z, []. split; [done|]. intros y Y. apply elem_of_list_singleton in Y. lia. }
  destruct IH as (b & x & a & E & M); [done|]. destruct (decide (z <= x)%nat).
  - exists [], z, (w :: l). split; [done|]. intros y Y. apply elem_of_cons in Y. destruct Y as [-> |Y]; [lia|]. specialize (M y Y). lia.
  - exists (z :: b), x, a. rewrite E. split; [done|]. intros y Y. apply elem_of_cons in Y. destruct Y as [-> |Y]; [lia|]. apply M. by rewrite E.
Qed.
Lemma sorted_by_lookup {A} (R : A -> A -> Prop) l : (forall i j u v, (i < j)%nat -> l !! i = Some u -> l !! j = Some v -> R u v) -> StronglySorted R l.
Proof.
  induction l as [|x l IH]; intros H; [constructor|]. constructor.
  - apply IH. intros i j u v L U V. by apply (H (S i) (S j)); [lia|..].
  - apply Forall_forall. intros y Y. apply elem_of_list_lookup_1 in Y. destruct Y as [j J]. by apply (H 0%nat (S j)); [lia|..].
Qed.
(** The cyclic order of the indices. *)
Lemma hull_order (vs hs : list vec3) ids : ordered hs -> (2 < length hs)%nat -> Forall2 (fun i p => vs !! i = Some p) ids hs ->
  exists b x a, ids = b ++ x :: a /\ Forall (fun y => (x < y)%nat) (a ++ b) /\ NoDup (a ++ b) /\
    forall i j u v pu pv px, (i < j)%nat -> (a ++ b) !! i = Some u -> (a ++ b) !! j = Some v -> vs !! x = Some px -> vs !! u = Some pu -> vs !! v = Some pv ->
      0 < orient px pu pv.
Proof.
  intros O L F. pose proof (Forall2_length _ _ _ F) as LF.
  destruct (smallest_first ids) as (b & x & a & -> & M); [by intros ->; cbn in LF; lia|].
  exists b, x, a. split; [done|]. apply Forall2_app_inv_l in F. destruct F as (hb & ha & FB & FA & ->).
  apply ordered_rotate in O. pose proof (Forall2_app FA FB) as F. cbn [app] in F.
  apply Forall2_cons_inv_l in FA. destruct FA as (hx & ha' & HX & FA & ->). cbn [app] in O, F.
  assert (NoDup (hx :: ha' ++ hb)) as ND.
  { apply ordered_nodup; [done|]. rewrite app_length in L. cbn [length] in L |- *. rewrite app_length. lia. }
  assert (NoDup (x :: a ++ b)) as NI.
  { apply NoDup_alt. intros i j y A B. rewrite NoDup_alt in ND.
    destruct (Forall2_lookup_l _ _ _ _ _ F A) as (p & P & VP). destruct (Forall2_lookup_l _ _ _ _ _ F B) as (q & Q & VQ).
    assert (p = q) as -> by congruence. by apply (ND i j q). }
  apply NoDup_cons in NI. destruct NI as [NX NI]. split; [|split; [done|]].
  - apply Forall_forall. intros y Y. assert (x <= y)%nat by (apply M; apply elem_of_app; apply elem_of_app in Y; destruct Y; [right; by apply elem_of_list_further|by left]).
    assert (x <> y) by (by intros ->). lia.
  - intros i j u v pu pv px LT A B PX PU PV.
    destruct (Forall2_lookup_l _ _ _ (S i) u F A) as (p & P & VP). destruct (Forall2_lookup_l _ _ _ (S j) v F B) as (q & Q & VQ).
    assert (p = pu) as -> by congruence. assert (q = pv) as -> by congruence. assert (hx = px) as -> by congruence.
    by apply (O 0%nat (S i) (S j)); [lia|..].
Qed.
Lemma of_nat_sorted (R : nat -> nat -> Prop) (R' : N -> N -> Prop) l : (forall a b, R a b -> R' (N.of_nat a) (N.of_nat b)) ->
  StronglySorted R l -> StronglySorted R' (N.of_nat <$> l).
Proof.
  intros H SS. apply sorted_by_lookup. intros i j u v L U V. apply list_lookup_fmap_Some in U, V. destruct U as (u' & U & ->), V as (v' & V & ->).
  apply H. clear H. revert i j L U V. induction l as [|x l IH]; intros i j L U V; [done|]. apply StronglySorted_inv in SS. destruct SS as [SS F].
  destruct j as [|j]; [lia|]. destruct i as [|i]; cbn in U, V.
  - injection U as ->. rewrite Forall_forall in F. apply F. by eapply elem_of_list_lookup_2.
  - by apply (IH SS i j); [lia|..].
Qed.
Lemma not_two g vs ids hs : exact g -> Forall flat vs -> (2 < length vs)%nat -> (ordered vs \/ ordered (reverse vs)) ->
  Forall2 (fun i p => vs !! i = Some p) ids hs ->
  (exists a b, hs = [a; b] /\ a <> b /\ forall p, p ∈ vs -> exists c, 0 <= c /\ c <= 1 /\ on_line b a c p) -> False.
Proof.
  intros X F L O _ (a & b & _ & N & H).
  assert (forall ws, ordered ws -> (2 < length ws)%nat -> (forall p, p ∈ ws -> exists c, 0 <= c /\ c <= 1 /\ on_line b a c p) -> False) as K.
  { clear. intros ws O L H. destruct ws as [|u [|v [|w ws]]]; [cbn in L; lia|cbn in L; lia|cbn in L; lia|].
    pose proof (O 0%nat 1%nat 2%nat u v w ltac:(lia) eq_refl eq_refl eq_refl) as P.
    destruct (H u ltac:(set_solver)) as (c1 & _ & _ & E1). destruct (H v ltac:(set_solver)) as (c2 & _ & _ & E2).
    destruct (H w ltac:(set_solver)) as (c3 & _ & _ & E3). rewrite E1, E2, E3 in P. unfold orient in P. cbn [fst snd] in P.
    match type of P with _ < ?e => replace e with 0 in P by ring end. qlra. }
  destruct O as [O|O]; [by apply (K vs)|]. apply (K (reverse vs)); [done|by rewrite reverse_length|]. intros p P. apply H. by apply elem_of_reverse.
Qed.
Lemma orientation_counterclockwise g vs : exact g -> Forall flat vs -> (2 < length vs)%nat -> ordered vs ->
  exists ids, ConvexHull g vs false = Ok ids /\ PolygonOrientation (N.of_nat <$> ids) = Ok CounterClockwise.
Proof.
  intros X F L O. destruct (convex_hull_strict g vs X F (ordered_nodup vs O L) ltac:(lia)) as (ids & hs & E & F2 & [(L2 & OH & _)|T]).
  2:{ exfalso. apply (not_two g vs ids hs); try done. by left. }
  exists ids. split; [done|]. destruct (hull_order vs hs ids OH L2 F2) as (b & x & a & -> & FX & ND & H).
  pose proof (Forall2_length _ _ _ F2) as LF. rewrite fmap_app. apply orientation_ascending.
  - change (ascending ((N.of_nat <$> (x :: a)) ++ (N.of_nat <$> b))). rewrite <- fmap_app. apply (of_nat_sorted lt); [lia|].
    cbn [app]. constructor; [|done]. apply sorted_by_lookup. intros i j u v LT U V.
    assert (u ∈ b ++ x :: a /\ v ∈ b ++ x :: a /\ x ∈ b ++ x :: a) as (IU & IV & IX).
    { apply elem_of_list_lookup_2 in U, V. rewrite !elem_of_app, !elem_of_cons. rewrite elem_of_app in U, V. tauto. }
    assert (forall y, y ∈ b ++ x :: a -> exists p, vs !! y = Some p) as LK.
    { intros y Y. apply elem_of_list_lookup_1 in Y. destruct Y as [k K]. destruct (Forall2_lookup_l _ _ _ _ _ F2 K) as (p & _ & P). by exists p. }
    destruct (LK u IU) as [pu PU], (LK v IV) as [pv PV], (LK x IX) as [px PX].
    pose proof (H i j u v pu pv px LT U V PX PU PV) as P.
    rewrite Forall_forall in FX. pose proof (FX u ltac:(by eapply elem_of_list_lookup_2)) as XU. pose proof (FX v ltac:(by eapply elem_of_list_lookup_2)) as XV.
    destruct (decide (u < v)%nat) as [|GE]; [done|]. exfalso. destruct (decide (u = v)) as [-> |NE].
    { rewrite NoDup_alt in ND. pose proof (ND i j v U V). lia. }
    pose proof (O x v u px pv pu ltac:(lia) PX PV PU) as Q. assert (orient px pu pv = - orient px pv pu) as S1 by (unfold orient; ring). qlra.
  - rewrite app_length, !fmap_length. cbn [length]. rewrite app_length in LF. cbn [length] in LF. lia.
Qed.
Lemma orientation_clockwise g vs : exact g -> Forall flat vs -> (2 < length vs)%nat -> ordered (reverse vs) ->
  exists ids, ConvexHull g vs false = Ok ids /\ PolygonOrientation (N.of_nat <$> ids) = Ok Clockwise.
Proof.
  intros X F L O. assert (NoDup vs) as NV.
  { pose proof (ordered_nodup _ O ltac:(by rewrite reverse_length)) as N. by rewrite reverse_Permutation in N. }
  destruct (convex_hull_strict g vs X F NV ltac:(lia)) as (ids & hs & E & F2 & [(L2 & OH & _)|T]).
  2:{ exfalso. apply (not_two g vs ids hs); try done. by right. }
  exists ids. split; [done|]. destruct (hull_order vs hs ids OH L2 F2) as (b & x & a & -> & FX & ND & H).
  pose proof (Forall2_length _ _ _ F2) as LF. replace (b ++ x :: a) with ((b ++ [x]) ++ a) by (by rewrite <- app_assoc).
  rewrite fmap_app. apply orientation_descending.
  - rewrite <- fmap_app. apply (of_nat_sorted (fun a b => (b < a)%nat)); [lia|]. rewrite app_assoc.
    apply sorted_by_lookup. intros i j u v LT U V.
    pose proof (lookup_lt_Some _ _ _ V) as LV. rewrite app_length in LV. cbn [length] in LV. rewrite lookup_app_l in U by lia.
    rewrite Forall_forall in FX. pose proof (FX u ltac:(by eapply elem_of_list_lookup_2)) as XU.
    destruct (decide (j < length (a ++ b))%nat) as [LJ|GJ].
    2:{ rewrite lookup_app_r in V by lia. replace (j - length (a ++ b))%nat with 0%nat in V by lia. cbn in V. by injection V as <-. }
    rewrite lookup_app_l in V by done. pose proof (FX v ltac:(by eapply elem_of_list_lookup_2)) as XV.
    assert (u ∈ b ++ x :: a /\ v ∈ b ++ x :: a /\ x ∈ b ++ x :: a) as (IU & IV & IX).
    { apply elem_of_list_lookup_2 in U, V. rewrite !elem_of_app, !elem_of_cons. rewrite elem_of_app in U, V. tauto. }
    assert (forall y, y ∈ b ++ x :: a -> exists p, vs !! y = Some p) as LK.
    { intros y Y. apply elem_of_list_lookup_1 in Y. destruct Y as [k K]. destruct (Forall2_lookup_l _ _ _ _ _ F2 K) as (p & _ & P). by exists p. }
    destruct (LK u IU) as [pu PU], (LK v IV) as [pv PV], (LK x IX) as [px PX].
    pose proof (H i j u v pu pv px LT U V PX PU PV) as P.
    destruct (decide (v < u)%nat) as [|GE]; [done|]. exfalso. destruct (decide (u = v)) as [-> |NE].
    { rewrite NoDup_alt in ND. pose proof (ND i j v U V). lia. }
    pose proof (lookup_lt_Some _ _ _ PV) as LPV. pose proof (lookup_lt_Some _ _ _ PU) as LPU. pose proof (lookup_lt_Some _ _ _ PX) as LPX.
    assert (forall y p, (y < length vs)%nat -> vs !! y = Some p -> reverse vs !! (length vs - S y)%nat = Some p) as RV.
    { intros y p LY PY. rewrite reverse_lookup by lia. by replace (length vs - S (length vs - S y))%nat with y by lia. }
    pose proof (O (length vs - S v) (length vs - S u) (length vs - S x) pv pu px ltac:(lia) (RV _ _ LPV PV) (RV _ _ LPU PU) (RV _ _ LPX PX))%nat as Q.
    assert (orient px pu pv = - orient pv pu px) as S1 by (unfold orient; ring). qlra.
  - rewrite app_length, !fmap_length, app_length. cbn [length]. rewrite app_length in LF. cbn [length] in LF. lia.
Qed.
