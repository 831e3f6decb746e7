(** * The directions of the edges of a polygon. *)
From Coq Require Import QArith Qcanon.
From Verif Require Import Base BaseProof QcTac FillModel GeoModel MapModel PointModel PolyModel CsrModel MeshModel MeshSpec MeshHist MeshProof9 MeshProofG
  UtilModel UtilSpec RefineModel RefineSpec RefineView RefineSplit RefineStep RefineWalk RefineNeigh RefineConf RefineTop.
From Coq Require Import ZifyBool ZifyNat ZifyN.
Local Open Scope nat_scope.

Lemma omapM_all {A B} (f : A -> outcome B) (g : A -> B) l : (forall x, x ∈ l -> f x = Ok (g x)) -> omapM f l = Ok (g <$> l).
Proof. intros H. apply omapM_ok. apply Forall2_fmap_r, Forall2_same_length_lookup_2; [done|]. intros i x y Hx Hy. rewrite Hx in Hy. injection Hy as <-. eapply H, elem_of_list_lookup_2, Hx. Qed.

Lemma next_twice n p q : 3 <= n -> p < n -> q < n -> q = (p + 1) mod n -> p = (q + 1) mod n -> False.
Proof.
  intros Hn Hp Hq H1 H2. destruct (decide (p + 1 < n)).
  - rewrite Nat.mod_small in H1 by done. destruct (decide (q + 1 < n)); [rewrite Nat.mod_small in H2 by done; lia|].
    replace (q + 1) with n in H2 by lia. rewrite Nat.mod_same in H2 by lia. lia.
  - replace (p + 1) with n in H1 by lia. rewrite Nat.mod_same in H1 by lia. subst q. rewrite Nat.mod_small in H2 by lia. lia.
Qed.

Lemma direction_at m c l p v e w e' : reachable m -> closed_chain m l -> polygon m c l -> l !! p = Some (v, e) ->
  l !! ((p + 1) mod length l) = Some (w, e') ->
  exists f, FindEdgeByExtremes E2 c v w m = Ok f /\ (f = p <-> Cell1DOrigin (N.to_nat e) m = Ok v).
Proof.
  intros R (L3 & Nv & _ & Act & Jo) [_ Re] Hp Hw. pose proof (lookup_lt_Some _ _ _ Hp) as Lp. pose proof (lookup_lt_Some _ _ _ Hw) as Lw.
  destruct (find_edge_in_cell m E2 c v w (l.*2) R Re) as (f & Ef & Lf & Hbefore & Hat).
  { apply Forall_forall. intros g ([u g'] & -> & M)%elem_of_list_fmap. apply Act in M as [_ M]. apply active_num in M; [|done]. cbn. lia. }
  exists f. split; [done|]. rewrite fmap_length in Lf.
  assert (Inj : forall i j u g g', l !! i = Some (u, g) -> l !! j = Some (u, g') -> i = j).
  { intros i j u g g' Hi Hj. eapply (NoDup_lookup (l.*1)); [done|rewrite list_lookup_fmap, Hi; done|rewrite list_lookup_fmap, Hj; done]. }
  assert (Hvw : v <> w).
  { intros ->. pose proof (Inj _ _ _ _ _ Hp Hw) as X. destruct (decide (p + 1 < length l)); [rewrite Nat.mod_small in X by done; lia|].
    replace (p + 1) with (length l) in X by lia. rewrite Nat.mod_same in X by lia. lia. }
  split.
  - intros ->. apply (Hat e). by rewrite list_lookup_fmap, Hp.
  - intros Ho. assert (Ht : Cell1DEnd (N.to_nat e) m = Ok w).
    { destruct (Jo p v e w e' Hp Hw) as [[_ ?]|[Ho' _]]; [done|]. rewrite Ho in Ho'. injection Ho' as ->. done. }
    destruct (decide (f = p)) as [|Hne]; [done|exfalso]. destruct (decide (p < f)) as [L|L].
    { apply (Hbefore p e L); [by rewrite list_lookup_fmap, Hp|done]. }
    destruct (lookup_lt_is_Some_2 l f) as [[vf ef] Hf]; [lia|]. destruct (Hat ef) as [Of Tf]; [by rewrite list_lookup_fmap, Hf|].
    destruct (lookup_lt_is_Some_2 l ((f + 1) mod length l)) as [[vg eg] Hg]; [apply Nat.mod_upper_bound; lia|].
    destruct (Jo f vf ef vg eg Hf Hg) as [[O1 T1]|[O1 T1]]; rewrite Of in O1; rewrite Tf in T1; injection O1 as <-; injection T1 as <-.
    + by apply Hne, (Inj f p v ef e).
    + eapply (next_twice (length l) p f L3); [lia|lia|by eapply Inj|by eapply Inj].
Qed.

Lemma edges_direction m c : reachable m -> conforming m -> active D2 m c = true ->
  exists ds, EdgesDirection c m = Ok ds /\ forall l, polygon m c l -> length ds = length l /\ directions_of m l ds.
Proof.
  intros R C Ac. destruct (cf_polygons _ C c Ac) as (_ & l & Hl & Ch). pose proof Hl as [Rv Re]. pose proof Ch as (L3 & _).
  unfold EdgesDirection. rewrite (row_number m E2 c _ R Re). cbn [mbind outcome_bind]. rewrite fmap_length, Nat2N.id.
  match goal with |- context [omapM ?f _] => set (F := f) end.
  set (b := fun p => match l !! p with Some (v, e) => match Cell1DOrigin (N.to_nat e) m with Ok o => (o =? v)%N | _ => false end | None => false end).
  assert (HF : omapM F (seq 0 (length l)) = Ok (b <$> seq 0 (length l))).
  { apply omapM_all. intros p [_ Lp]%elem_of_seq. cbn in Lp. unfold F, b. destruct (lookup_lt_is_Some_2 l p Lp) as [[v e] Hp].
    destruct (lookup_lt_is_Some_2 l ((p + 1) mod length l)) as [[w e'] Hw]; [apply Nat.mod_upper_bound; lia|].
    rewrite (row_get m V2 c p (l.*1) v R Rv) by (by rewrite list_lookup_fmap, Hp). cbn [mbind outcome_bind].
    rewrite (row_get m V2 c ((p + 1) mod length l) (l.*1) w R Rv) by (by rewrite list_lookup_fmap, Hw). cbn [mbind outcome_bind].
    destruct (direction_at m c l p v e w e' R Ch Hl Hp Hw) as (f & -> & Hf). cbn [mbind outcome_bind]. rewrite Hp. f_equal.
    clear - Hf. destruct (Nat.eqb_spec f p) as [X|X].
    - rewrite (proj1 Hf X). by rewrite N.eqb_refl.
    - destruct (Cell1DOrigin (N.to_nat e) m) as [o| | | |]; try done. destruct (N.eqb_spec o v) as [->|]; [|done]. by destruct X; apply Hf. }
  exists (b <$> seq 0 (length l)). split; [done|]. intros l' Hl'.
  assert (l' = l) as -> by (rewrite <- (Nat2N.id c) in Hl, Hl'; apply vp_polygon in Hl, Hl'; rewrite Hl in Hl'; by injection Hl').
  split; [by rewrite fmap_length, seq_length|]. intros p v e Hp. exists (b p). split.
  - rewrite list_lookup_fmap, lookup_seq_lt; [done|by eapply lookup_lt_Some].
  - unfold b. rewrite Hp. destruct (Cell1DOrigin (N.to_nat e) m) as [o| | | |]; try done. destruct (N.eqb_spec o v) as [->|Hov]; [done|].
    split; [done|]. intros [= E]. done.
Qed.
