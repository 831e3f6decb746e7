(** * Lemmas for C18 *)
From Coq Require Import Sorted.
From Verif Require Import Base BaseProof CsrModel MeshModel MeshHist FillModel FillSpec FillProofB EdgesModel EdgesSpec.
From Coq Require Import ZifyBool ZifyNat ZifyN.

Lemma u32_small n : (n <= UINT_MAX)%N -> u32 n = n.
Proof. intros. unfold u32, UINT_MAX in *. apply N.mod_small. lia. Qed.

(** ** Sides *)
Lemma sides_length c : length (sides c) = length c.
Proof. destruct c as [|a t]; [done|]. unfold sides. rewrite zip_with_length, app_length. cbn [length]. lia. Qed.
Lemma sides_lookup c v a b : c !! v = Some a -> c !! ((v + 1) mod length c) = Some b -> sides c !! v = Some (a, b).
Proof.
  intros Ha Hb. destruct c as [|x t]; [done|]. unfold sides.
  pose proof (lookup_lt_Some _ _ _ Ha) as L. cbn [length] in *.
  apply lookup_zip_with_Some. exists a, b. split; [done|]. split; [done|].
  destruct (decide (v = length t)) as [->|].
  - replace (length t + 1) with (S (length t)) in Hb by lia. rewrite Nat.mod_same in Hb by lia.
    rewrite lookup_app_r, Nat.sub_diag by lia. cbn in *. congruence.
  - rewrite Nat.mod_small in Hb by lia. rewrite Nat.add_1_r in Hb. cbn in Hb.
    rewrite lookup_app_l; [done|]. lia.
Qed.
Lemma sides_inv c v s : sides c !! v = Some s -> c !! v = Some s.1 /\ c !! ((v + 1) mod length c) = Some s.2.
Proof.
  intros H. pose proof (lookup_lt_Some _ _ _ H) as L. rewrite sides_length in L.
  destruct (lookup_lt_is_Some_2 c v L) as [a Ha].
  destruct (lookup_lt_is_Some_2 c ((v + 1) mod length c)) as [b Hb]; [apply Nat.mod_upper_bound; lia|].
  rewrite (sides_lookup _ _ _ _ Ha Hb) in H. injection H as <-. done.
Qed.
Lemma sides_follows c a b : (a, b) ∈ sides c <-> follows c a b.
Proof.
  split.
  - intros [v H]%elem_of_list_lookup. apply sides_inv in H as [? ?]. by exists v.
  - intros (v & Ha & Hb). apply elem_of_list_lookup. exists v. by apply sides_lookup.
Qed.
Lemma sides_fst c : (sides c).*1 = c.
Proof. destruct c as [|a t]; [done|]. apply fst_zip. rewrite app_length. cbn. lia. Qed.
Lemma triplets_joined cells a b : (a, b) ∈ triplets cells <-> joined cells a b.
Proof.
  unfold triplets, joined. rewrite elem_of_list_bind. split.
  - intros (c & H & Hc). exists c. split; [done|]. rewrite elem_of_list_bind in H.
    destruct H as ([x y] & H & Hs). apply sides_follows in Hs. cbn in H.
    rewrite !elem_of_cons, elem_of_nil in H. destruct H as [[= -> ->]|[[= -> ->]|[]]]; tauto.
  - intros (c & Hc & H). exists c. split; [|done]. rewrite elem_of_list_bind.
    destruct H as [H|H]; apply sides_follows in H.
    + exists (a, b). split; [cbn; set_solver|done].
    + exists (b, a). split; [cbn; set_solver|done].
Qed.

(** ** The matrix *)
Definition keys (col : list entry) : list N := col.*1.
Lemma add_keys r v col x : x ∈ keys (add_entry r v col) <-> x = r \/ x ∈ keys col.
Proof.
  induction col as [|[r' v'] t IH]; cbn; [set_solver|].
  destruct (r <? r')%N; [cbn; set_solver|].
  destruct (r =? r')%N eqn:E; cbn; [apply N.eqb_eq in E as ->; set_solver|].
  unfold keys in *. cbn. set_solver.
Qed.
Lemma add_sorted r v col : StronglySorted N.lt (keys col) -> StronglySorted N.lt (keys (add_entry r v col)).
Proof.
  induction col as [|[r' v'] t IH]; cbn; intros H; [by repeat constructor|].
  inversion_clear H as [|? ? H1 H2].
  destruct (r <? r')%N eqn:L; cbn.
  - constructor; [by constructor|]. constructor; [lia|]. eapply Forall_impl; [done|]. cbn. intros. lia.
  - destruct (r =? r')%N eqn:E; cbn; [by constructor|]. constructor; [by apply IH|].
    apply Forall_forall. intros x Hx. change (x ∈ keys (add_entry r v t)) in Hx. apply add_keys in Hx as [->|Hx]; [lia|].
    rewrite Forall_forall in H2. by apply H2.
Qed.
Definition holds (M : list (list entry)) (r k : N) : Prop := exists col, M !! N.to_nat k = Some col /\ r ∈ keys col.
Definition tidy (M : list (list entry)) : Prop := Forall (fun col => StronglySorted N.lt (keys col)) M.

Lemma add_triplet_ok n M t : length M = n -> tidy M -> (t.1 < N.of_nat n)%N -> (t.2 < N.of_nat n)%N ->
  exists M', add_triplet n M t = Ok M' /\ length M' = n /\ tidy M' /\
    forall r k, holds M' r k <-> holds M r k \/ t = (r, k).
Proof.
  intros L T H1 H2. unfold add_triplet. replace (t.1 <? N.of_nat n)%N with true by lia.
  destruct (lookup_lt_is_Some_2 M (N.to_nat t.2)) as [col Hc]; [lia|].
  rewrite (vget_Ok _ _ _ Hc). cbn. eexists. split; [done|]. rewrite insert_length. split; [done|]. split.
  - apply Forall_insert; [done|]. apply add_sorted. exact (Forall_lookup_1 _ _ _ _ T Hc).
  - intros r k. unfold holds. destruct (decide (k = t.2)) as [->|N].
    + rewrite list_lookup_insert by lia. split.
      * intros (c & [= <-] & Hr). apply add_keys in Hr as [->|Hr]; [right; by destruct t|left; eauto].
      * intros [(c & E & Hr)| ->]; eexists; (split; [done|]); apply add_keys; [|by left].
        right. cbn in *. congruence.
    + rewrite list_lookup_insert_ne by lia. split; [by left|]. intros [?| ->]; [done|]. cbn in N. done.
Qed.
Lemma triplets_ok n ts : Forall (fun t : N * N => (t.1 < N.of_nat n)%N /\ (t.2 < N.of_nat n)%N) ts -> forall M,
  length M = n -> tidy M ->
  exists M', ofold (add_triplet n) ts M = Ok M' /\ length M' = n /\ tidy M' /\
    forall r k, holds M' r k <-> holds M r k \/ (r, k) ∈ ts.
Proof.
  induction 1 as [|t ts [H1 H2] _ IH]; intros M L T.
  - exists M. split_and!; [done..|]. set_solver.
  - cbn. destruct (add_triplet_ok n M t L T H1 H2) as (M1 & E & L1 & T1 & K1). rewrite E. cbn.
    destruct (IH M1 L1 T1) as (M2 & E2 & L2 & T2 & K2). exists M2. split_and!; [done..|].
    intros r k. rewrite K2, K1. set_solver.
Qed.

(** ** Numbering *)
Lemma number_col_keys k col : forall e, keys (number_col k col e).1 = keys col.
Proof. induction col as [|[r v] t IH]; intros e; [done|]. cbn. destruct (r <? k)%N; cbn; by rewrite IH. Qed.
Lemma number_cols_keys M : forall k e, keys <$> (number_cols k M e).1 = keys <$> M.
Proof. induction M as [|col M IH]; intros k e; [done|]. cbn. by rewrite number_col_keys, IH. Qed.

Fixpoint up_keys (k : N) (M : list (list N)) : list (N * N) :=
  match M with
  | [] => []
  | col :: M' => ((fun r => (r, k)) <$> filter (fun r => (r < k)%N) col) ++ up_keys (k + 1) M'
  end.
Lemma upper_keys M : forall k, upper k M = up_keys k (keys <$> M).
Proof.
  induction M as [|col M IH]; intros k; [done|]. cbn. rewrite IH. f_equal. clear.
  induction col as [|[r v] t IH]; [done|]. change (keys ((r, v) :: t)) with (r :: keys t). rewrite !filter_cons.
  cbn [fst]. destruct (decide (r < k)%N); cbn [fmap list_fmap fst]; by rewrite IH.
Qed.
Lemma upper_number M e k k' : upper k' (number_cols k M e).1 = upper k' M.
Proof. by rewrite !upper_keys, number_cols_keys. Qed.

Lemma elem_up M : forall k a b, (a, b) ∈ up_keys k M <->
  (a < b)%N /\ (k <= b)%N /\ exists col, M !! N.to_nat (b - k) = Some col /\ a ∈ col.
Proof.
  induction M as [|col M IH]; intros k a b; cbn [up_keys].
  - split; [set_solver|]. intros (_ & _ & ? & ? & _). done.
  - rewrite elem_of_app, IH, elem_of_list_fmap. split.
    + intros [(r & [= -> ->] & H)|(H1 & H2 & c & H3 & H4)].
      * apply elem_of_list_filter in H as [? ?]. split_and!; [done|lia|]. exists col. rewrite N.sub_diag. done.
      * split_and!; [done|lia|]. exists c. replace (N.to_nat (b - k)) with (S (N.to_nat (b - (k + 1)))) by lia. done.
    + intros (H1 & H2 & c & H3 & H4). destruct (decide (b = k)) as [->|].
      * left. rewrite N.sub_diag in H3. injection H3 as ->. exists a. split; [done|]. by apply elem_of_list_filter.
      * right. split_and!; [done|lia|]. exists c. by replace (N.to_nat (b - k)) with (S (N.to_nat (b - (k + 1)))) in H3 by lia.
Qed.
Lemma nodup_up M : Forall NoDup M -> forall k, NoDup (up_keys k M).
Proof.
  induction 1 as [|col M H _ IH]; intros k; [constructor|]. cbn. apply NoDup_app. split_and!; [| |done].
  - apply NoDup_fmap_2; [by intros ? ? [= ?]|]. by apply NoDup_filter.
  - intros [a b] (r & [= -> ->] & _)%elem_of_list_fmap (_ & ? & _)%elem_up. lia.
Qed.


Definition low (k : N) (col : list entry) : list N := filter (fun r => (r < k)%N) (keys col).
Lemma low_cons k r v t : low k ((r, v) :: t) = if (r <? k)%N then r :: low k t else low k t.
Proof.
  unfold low. change (keys ((r, v) :: t)) with (r :: keys t). rewrite filter_cons. destruct (r <? k)%N eqn:E; [by rewrite decide_True by lia|by rewrite decide_False by lia].
Qed.
Lemma number_col_end k col : forall e, (e + N.of_nat (length (low k col)) <= UINT_MAX)%N ->
  (number_col k col e).2 = (e + N.of_nat (length (low k col)))%N.
Proof.
  induction col as [|[r v] t IH]; intros e L; [cbn -[N.add]; lia|]. rewrite low_cons in *. cbn [number_col].
  destruct (r <? k)%N eqn:E; cbn [length snd] in *.
  - rewrite u32_small by lia. rewrite IH by lia. lia.
  - by apply IH.
Qed.
Lemma number_col_find k col : forall e j r, (e + N.of_nat (length (low k col)) <= UINT_MAX)%N -> NoDup (keys col) ->
  low k col !! j = Some r -> find_entry r (number_col k col e).1 = (1 + e + N.of_nat j)%N.
Proof.
  induction col as [|[r' v] t IH]; intros e j r L D H; [done|]. rewrite low_cons in *.
  change (NoDup (r' :: keys t)) in D. apply NoDup_cons in D as [D1 D2]. cbn.
  assert (X : forall j, low k t !! j = Some r -> (r =? r')%N = false).
  { intros j' Hj. apply N.eqb_neq. intros ->. apply D1. apply elem_of_list_lookup_2 in Hj.
    by apply elem_of_list_filter in Hj as [_ ?]. }
  destruct (r' <? k)%N eqn:E; cbn in L |- *.
  - destruct j as [|j]; cbn in H.
    + injection H as ->. rewrite N.eqb_refl, u32_small by lia. lia.
    + rewrite (X j H). rewrite u32_small by lia. rewrite (IH _ j) by (done || lia). lia.
  - rewrite (X j H). by apply IH.
Qed.

Lemma up_cons k col M : up_keys k (keys <$> (col :: M)) = ((fun r => (r, k)) <$> low k col) ++ up_keys (k + 1) (keys <$> M).
Proof. done. Qed.
Lemma number_cols_find M : forall k e j r c, (e + N.of_nat (length (up_keys k (keys <$> M))) <= UINT_MAX)%N ->
  Forall (fun col => NoDup (keys col)) M -> up_keys k (keys <$> M) !! j = Some (r, c) ->
  exists col, (number_cols k M e).1 !! N.to_nat (c - k) = Some col /\ find_entry r col = (1 + e + N.of_nat j)%N.
Proof.
  induction M as [|col M IH]; intros k e j r c L D H; [done|]. rewrite up_cons in *.
  apply Forall_cons in D as [D1 D2]. rewrite app_length, fmap_length in L. cbn.
  destruct (decide (j < length (low k col))) as [Hj|Hj].
  - rewrite lookup_app_l in H by (by rewrite fmap_length). rewrite list_lookup_fmap in H.
    destruct (low k col !! j) as [r'|] eqn:E; [|done]. injection H as -> <-. rewrite N.sub_diag. cbn.
    eexists. split; [done|]. apply number_col_find; [lia|done|done].
  - rewrite lookup_app_r in H by (rewrite fmap_length; lia). rewrite fmap_length in H.
    assert (k + 1 <= c)%N by (apply elem_of_list_lookup_2, elem_up in H as (_ & ? & _); done).
    rewrite number_col_end by lia.
    edestruct (IH (k + 1)%N (e + N.of_nat (length (low k col)))%N) as (cl & E1 & E2); [|done|exact H|].
    { lia. }
    exists cl. replace (N.to_nat (c - k)) with (S (N.to_nat (c - (k + 1)))) by lia. split; [done|]. rewrite E2. lia.
Qed.

(** ** Counting: no more edges than sides *)
Lemma sorted_nodup l : StronglySorted N.lt l -> NoDup l.
Proof.
  induction 1 as [|x l _ IH H]; constructor; [|done]. rewrite Forall_forall in H. intros Hx. specialize (H x Hx). lia.
Qed.
Definition norm (s : N * N) : N * N := (N.min s.1 s.2, N.max s.1 s.2).
Lemma few_edges cells (us : list (N * N)) : NoDup us ->
  (forall a b, (a, b) ∈ us -> (a < b)%N /\ joined cells a b) -> length us <= length (concat cells).
Proof.
  intros D H.
  assert (S : us ⊆ norm <$> (cells ≫= sides)).
  { intros [a b] Hab. apply H in Hab as (L & c & Hc & F). apply elem_of_list_fmap. destruct F as [F|F]; apply sides_follows in F.
    - exists (a, b). split; [unfold norm; cbn; f_equal; lia|]. apply elem_of_list_bind. eauto.
    - exists (b, a). split; [unfold norm; cbn; f_equal; lia|]. apply elem_of_list_bind. eauto. }
  pose proof (submseteq_length _ _ (NoDup_submseteq _ _ D S)) as X.
  rewrite fmap_length in X. etrans; [exact X|]. clear. induction cells as [|c cs IH]; cbn; [done|].
  rewrite !app_length, sides_length. apply Nat.add_le_mono_l, IH.
Qed.

(** ** The whole function *)

Lemma triplets_range n cells : in_range n cells ->
  Forall (fun t : N * N => (t.1 < N.of_nat n)%N /\ (t.2 < N.of_nat n)%N) (triplets cells).
Proof.
  intros R. apply Forall_forall. intros [a b] H. apply triplets_joined in H as (c & Hc & F).
  unfold in_range in R. rewrite Forall_forall in R. specialize (R _ Hc). rewrite Forall_forall in R.
  destruct F as [(v & Ha & Hb)|(v & Ha & Hb)]; apply elem_of_list_lookup_2 in Ha, Hb; cbn; split; by apply R.
Qed.

Lemma edges_ok n cells :
  in_range n cells -> (forall c a, c ∈ cells -> ~ follows c a a) -> few (length (concat cells)) ->
  exists es rows, ComputeMesh2DCell1Ds n cells = Ok (es, rows) /\
    NoDup es /\ (forall a b, (a, b) ∈ es <-> (a < b)%N /\ joined cells a b) /\
    length rows = length cells /\
    forall c vs, cells !! c = Some vs -> exists row, rows !! c = Some row /\ row.*1 = vs /\
      forall v a b, vs !! v = Some a -> vs !! ((v + 1) mod length vs) = Some b ->
        exists e, row !! v = Some (a, e) /\ es !! N.to_nat e = Some (N.min a b, N.max a b).
Proof.
  intros R D F. unfold ComputeMesh2DCell1Ds.
  destruct (triplets_ok n (triplets cells) (triplets_range _ _ R) (replicate n [])) as (M & E & L & T & K).
  { by rewrite replicate_length. } { apply Forall_replicate. constructor. }
  rewrite E. cbn [mbind outcome_bind].
  assert (K' : forall r k, holds M r k <-> joined cells r k).
  { intros r k. rewrite K, triplets_joined. split; [|tauto]. intros [(col & E1 & E2)|?]; [|done].
    apply lookup_replicate in E1 as [-> _]. cbn in E2. by apply elem_of_nil in E2. }
  assert (U : forall a b, (a, b) ∈ upper 0 M <-> (a < b)%N /\ joined cells a b).
  { intros a b. rewrite upper_keys, elem_up, <-K'. unfold holds. rewrite N.sub_0_r. split.
    - intros (? & _ & col & H1 & H2). split; [done|]. rewrite list_lookup_fmap in H1.
      destruct (M !! N.to_nat b); [|done]. injection H1 as <-. eauto.
    - intros (? & col & H1 & H2). split_and!; [done|lia|]. exists (keys col). rewrite list_lookup_fmap, H1. done. }
  assert (ND : Forall (fun col => NoDup (keys col)) M).
  { eapply Forall_impl; [exact T|]. intros col. apply sorted_nodup. }
  assert (NU : NoDup (upper 0 M)).
  { rewrite upper_keys. apply nodup_up. by rewrite Forall_fmap. }
  assert (B : few (length (upper 0 M))).
  { pose proof (few_edges cells _ NU (fun a b H => proj1 (U a b) H)) as X. revert F X. unfold few. lia. }
  set (M' := (number_cols 0 M 0).1).
  assert (FE : forall a b, (a < b)%N -> joined cells a b ->
    exists j, coeff M' a b = Ok (1 + N.of_nat j)%N /\ upper 0 M !! j = Some (a, b)).
  { intros a b Hl J. assert (X : (a, b) ∈ upper 0 M) by (apply U; done). apply elem_of_list_lookup in X as [j X].
    exists j. split; [|done]. rewrite upper_keys in X.
    destruct (number_cols_find M 0 0 j a b) as (col & E1 & E2); [|done|done|].
    { rewrite upper_keys in B. unfold few in B. lia. }
    unfold coeff, M'. rewrite N.sub_0_r in E1. rewrite (vget_Ok _ _ _ E1). cbn. f_equal. rewrite E2. lia. }
  assert (SO : forall c, c ∈ cells -> forall s, s ∈ sides c -> exists j,
    (x ← (if (s.1 <? s.2)%N then coeff M' s.1 s.2 else coeff M' s.2 s.1); Ok (s.1, u32 (x + UINT_MAX))) = Ok (s.1, N.of_nat j)
    /\ upper 0 M !! j = Some (norm s)).
  { intros c Hc [a b] Hs. cbn. apply sides_follows in Hs.
    assert (a <> b) by (intros ->; by apply (D c b)).
    destruct (a <? b)%N eqn:Hl.
    - destruct (FE a b) as (j & E1 & E2); [lia|by exists c; eauto|]. exists j. rewrite E1. cbn. split.
      + f_equal. f_equal. pose proof (lookup_lt_Some _ _ _ E2) as X. unfold few in B.
        unfold u32, UINT_MAX in *. replace (1 + N.of_nat j + 4294967295)%N with (N.of_nat j + 1 * 4294967296)%N by lia.
        rewrite N.mod_add by done. apply N.mod_small. lia.
      + rewrite E2. unfold norm. cbn. do 2 f_equal; lia.
    - destruct (FE b a) as (j & E1 & E2); [lia|by exists c; eauto|]. exists j. rewrite E1. cbn. split.
      + f_equal. f_equal. pose proof (lookup_lt_Some _ _ _ E2) as X. unfold few in B.
        unfold u32, UINT_MAX in *. replace (1 + N.of_nat j + 4294967295)%N with (N.of_nat j + 1 * 4294967296)%N by lia.
        rewrite N.mod_add by done. apply N.mod_small. lia.
      + rewrite E2. unfold norm. cbn. do 2 f_equal; lia. }
  assert (RO : exists rows, omapM (polygon_sides M') cells = Ok rows /\
     Forall2 (fun vs row => Forall2 (fun s x => x.1 = s.1 /\ upper 0 M !! N.to_nat x.2 = Some (norm s)) (sides vs) row) cells rows).
  { clear -SO. clearbody M'. induction cells as [|c cs IH]; [exists []; by split|].
    destruct IH as (rows & E & Q); [intros c' Hc'; apply SO; by right|].
    assert (X : exists row, polygon_sides M' c = Ok row /\
       Forall2 (fun s x => x.1 = s.1 /\ upper 0 M !! N.to_nat x.2 = Some (norm s)) (sides c) row).
    { unfold polygon_sides. specialize (SO c (elem_of_list_here _ _)). clear -SO. induction (sides c) as [|s ss IH]; [exists []; by split|].
      destruct IH as (row & E & Q); [intros s' Hs'; apply SO; by right|].
      destruct (SO s (elem_of_list_here _ _)) as (j & E1 & E2).
      exists ((s.1, N.of_nat j) :: row). cbn [omapM]. rewrite E1. cbn [mbind outcome_bind]. rewrite E. split; [done|].
      constructor; [|done]. split; [done|]. cbn. by rewrite Nat2N.id. }
    destruct X as (row & E1 & Q1). exists (row :: rows). cbn [omapM]. rewrite E1. cbn [mbind outcome_bind]. rewrite E. split; [done|].
    by constructor. }
  destruct RO as (rows & ER & Q). rewrite ER. cbn [mbind outcome_bind]. unfold M'. rewrite upper_number.
  exists (upper 0 M), rows. split_and!; [done|done|exact U|symmetry; by eapply Forall2_length|].
  intros c vs Hc. destruct (Forall2_lookup_l _ _ _ _ _ Q Hc) as (row & Hr & Q1). exists row. split; [done|]. split.
  { rewrite <-(sides_fst vs). clear -Q1. induction Q1 as [|s x ss row [E _] _ IH]; [done|]. cbn. by rewrite E, IH. }
  intros v a b Ha Hb. pose proof (sides_lookup _ _ _ _ Ha Hb) as Hs.
  destruct (Forall2_lookup_l _ _ _ _ _ Q1 Hs) as ([a' e] & Hx & E1 & E2). cbn in *. subst a'. by exists e.
Qed.

(** Vertices out of range. *)
Lemma edges_ub n cells : ~ in_range n cells -> ComputeMesh2DCell1Ds n cells = UB.
Proof.
  intros H. unfold ComputeMesh2DCell1Ds.
  enough (E : ofold (add_triplet n) (triplets cells) (replicate n []) = UB) by by rewrite E.
  assert (X : ~ Forall (fun t : N * N => (t.1 < N.of_nat n)%N /\ (t.2 < N.of_nat n)%N) (triplets cells)).
  { intros X. apply H. rewrite Forall_forall in X. unfold in_range. apply Forall_forall. intros c Hc. apply Forall_lookup. intros v a Ha.
    pose proof (lookup_lt_Some _ _ _ Ha) as L.
    destruct (lookup_lt_is_Some_2 c ((v + 1) mod length c)) as [b Hb]; [apply Nat.mod_upper_bound; lia|].
    apply (X (a, b)). apply triplets_joined. exists c. split; [done|]. left. by exists v. }
  assert (L : length (replicate n ([] : list entry)) = n) by apply replicate_length.
  revert L. generalize (replicate n ([] : list entry)). clear H. induction (triplets cells) as [|t ts IH]; intros M L.
  - destruct X. constructor.
  - cbn [ofold]. assert (X2 : add_triplet n M t = UB \/ exists M', add_triplet n M t = Ok M' /\ length M' = n /\ (t.1 < N.of_nat n)%N /\ (t.2 < N.of_nat n)%N).
    { unfold add_triplet. destruct (t.1 <? N.of_nat n)%N eqn:E1; [|by left]. unfold vget.
      destruct (M !! N.to_nat t.2) as [col|] eqn:E2; [|by left]. right. cbn. eexists. split; [done|].
      rewrite insert_length. apply lookup_lt_Some in E2. lia. }
    destruct X2 as [->|(M' & -> & L' & Ht)]; [done|]. cbn [mbind outcome_bind]. apply IH; [|done]. intros Y. apply X. by constructor.
Qed.

(** ** Building the mesh *)
Lemma edges_full m c0 cells :
  blank m -> few (length c0) -> few (length cells) -> few (length (concat cells)) ->
  in_range (length c0) cells -> (forall c a, c ∈ cells -> ~ follows c a a) ->
  exists es rows m', ComputeMesh2DCell1Ds (length c0) cells = Ok (es, rows) /\ FillMesh2D c0 es rows m = Ok m' /\
    reachable m' /\ mdim m' = 2 /\ reads_back c0 es rows [] (fun _ _ => true) (fun _ _ => 0%N) m' /\
    NoDup es /\ (forall a b, (a, b) ∈ es <-> (a < b)%N /\ joined cells a b) /\ length rows = length cells /\
    forall c vs, cells !! c = Some vs -> exists row, rows !! c = Some row /\ row.*1 = vs /\
      forall v a b, vs !! v = Some a -> vs !! ((v + 1) mod length vs) = Some b ->
        exists e, row !! v = Some (a, e) /\ es !! N.to_nat e = Some (N.min a b, N.max a b).
Proof.
  intros Hm F0 F2 F R D.
  destruct (edges_ok _ _ R D F) as (es & rows & E & ND & U & L & P).
  assert (B : few (length es)).
  { pose proof (few_edges cells es ND (fun a b H => proj1 (U a b) H)) as X. revert F X. unfold few. lia. }
  assert (C : consistent c0 es rows []).
  { unfold consistent. split_and!; [| | |by constructor].
    - apply Forall_fmap, Forall_forall. intros [a b] H. apply U in H as (_ & J). apply triplets_joined in J.
      pose proof (triplets_range _ _ R) as T. rewrite Forall_forall in T. apply T in J. cbn in *. tauto.
    - apply Forall_fmap, Forall_forall. intros [a b] H. apply U in H as (_ & J). apply triplets_joined in J.
      pose proof (triplets_range _ _ R) as T. rewrite Forall_forall in T. apply T in J. cbn in *. tauto.
    - apply Forall_lookup. intros c row Hr.
      assert (exists vs, cells !! c = Some vs) as [vs Hc].
      { apply lookup_lt_is_Some_2. rewrite <-L. by eapply lookup_lt_Some. }
      destruct (P c vs Hc) as (row' & Hr' & Hf & Q). assert (row' = row) by congruence. subst row'. split.
      + rewrite Hf. by eapply (Forall_lookup_1 _ cells).
      + apply Forall_fmap, Forall_lookup. intros v [a e] Hv. cbn.
        assert (Ha : vs !! v = Some a) by (rewrite <-Hf, list_lookup_fmap, Hv; done).
        pose proof (lookup_lt_Some _ _ _ Ha).
        destruct (lookup_lt_is_Some_2 vs ((v + 1) mod length vs)) as [b Hb]; [apply Nat.mod_upper_bound; lia|].
        destruct (Q v a b Ha Hb) as (e' & Hv' & He). assert (e' = e) by congruence. subst e'.
        apply lookup_lt_Some in He. lia. }
  destruct (fill2_ok m c0 es rows Hm F0 B) as (m' & E' & Hr & Hd & RB); [by rewrite L|exact C|].
  exists es, rows, m'. done.
Qed.
Lemma edges_mesh m c0 cells :
  blank m -> few (length c0) -> few (length cells) -> few (length (concat cells)) ->
  in_range (length c0) cells -> (forall c a, c ∈ cells -> ~ follows c a a) ->
  exists es rows m', ComputeMesh2DCell1Ds (length c0) cells = Ok (es, rows) /\ FillMesh2D c0 es rows m = Ok m' /\
    num D2 m' = length cells /\
    (forall c vs, cells !! c = Some vs -> RelRow V2 c m' = Ok vs) /\
    forall c vs v a b, cells !! c = Some vs -> vs !! v = Some a -> vs !! ((v + 1) mod length vs) = Some b ->
      exists er e, RelRow E2 c m' = Ok er /\ er !! v = Some e /\ Cell1DOrigin (N.to_nat e) m' = Ok (N.min a b) /\ Cell1DEnd (N.to_nat e) m' = Ok (N.max a b).
Proof.
  intros Hm F0 F2 F R D.
  destruct (edges_full m c0 cells Hm F0 F2 F R D) as (es & rows & m' & E & E' & _ & _ & RB & ND & U & L & P).
  exists es, rows, m'. split; [done|]. split; [done|].
  destruct RB as (_ & _ & [RB1 _] & _ & _ & RB2 & RB3 & _). split; [by rewrite RB1|]. split.
  - intros c vs Hc. destruct (P c vs Hc) as (row & Hr & Hf & _). destruct (RB3 c row Hr) as (X & _). by rewrite X, Hf.
  - intros c vs v a b Hc Ha Hb. destruct (P c vs Hc) as (row & Hr & _ & Q). destruct (Q v a b Ha Hb) as (e & Hv & He).
    destruct (RB3 c row Hr) as (_ & X & _). exists (row.*2), e. split; [done|]. split; [by rewrite list_lookup_fmap, Hv|].
    apply (RB2 _ _ He).
Qed.
