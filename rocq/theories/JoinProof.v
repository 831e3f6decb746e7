(** * Which vertices stay and which go when edges are joined. *)
From Coq Require Import ZifyBool ZifyNat ZifyN.
From Verif Require Import Base BaseProof CsrModel MeshModel MeshSpec MeshRep MeshHist MeshProof8 MeshProof9 JoinModel JoinSpec.
Local Open Scope nat_scope.

Lemma set_add_elem x s y : y ∈ set_add x s <-> y = x \/ y ∈ s.
Proof. unfold set_add. case_bool_decide; set_solver. Qed.
Lemma set_add_nodup x s : NoDup s -> NoDup (set_add x s).
Proof.
  intros H. unfold set_add. case_bool_decide; [done|]. apply NoDup_app. split_and!; [done| |apply NoDup_singleton].
  intros y Y ->%elem_of_list_singleton. done.
Qed.

Section vertices.
Context (m : mesh) (RM : reachable m) (es : list N).

Lemma vertex_reads e v : has_end m e v -> Cell1DVertex (N.to_nat e) 0 m = Ok v \/ Cell1DVertex (N.to_nat e) 1 m = Ok v.
Proof.
  unfold has_end, Cell1DOrigin, Cell1DEnd, Cell1DVertex. intros [H|H]; [left|right]; apply bind_ok in H as ([] & -> & H); cbn [mbind outcome_bind];
    by rewrite ?Nat.add_0_r.
Qed.
Lemma edge_vertices e : is_cell D1 m e -> exists o t, Cell1DOrigin (N.to_nat e) m = Ok o /\ Cell1DEnd (N.to_nat e) m = Ok t /\
  Cell1DVertex (N.to_nat e) 0 m = Ok o /\ Cell1DVertex (N.to_nat e) 1 m = Ok t.
Proof.
  intros L. unfold is_cell in L. destruct (reachable_rep m RM) as [a R]. rewrite (g_num _ _ R) in L.
  destruct (lookup_lt_is_Some_2 (am_cells a D1) (N.to_nat e)) as [x X]; [unfold anum in L; lia|].
  assert (Cell1DOrigin (N.to_nat e) m = Ok (geo_pair x).1) as O by (rewrite (g_origin _ _ R); unfold look; by rewrite X).
  assert (Cell1DEnd (N.to_nat e) m = Ok (geo_pair x).2) as T by (rewrite (g_end _ _ R); unfold look; by rewrite X).
  exists (geo_pair x).1, (geo_pair x).2. split_and!; [done|done|..].
  - revert O. unfold Cell1DOrigin, Cell1DVertex. intros O. apply bind_ok in O as ([] & -> & O). cbn [mbind outcome_bind]. by rewrite Nat.add_0_r.
  - revert T. unfold Cell1DEnd, Cell1DVertex. intros T. apply bind_ok in T as ([] & -> & T). cbn [mbind outcome_bind]. done.
Qed.

(** A row of the mesh, read entry by entry. *)
Lemma row_reads r i row : RelRow r i m = Ok row -> RelNumber r i m = Ok (N.of_nat (length row)) /\
  forall k v, row !! k = Some v -> RelGet r i k m = Ok v /\ RelHas r i k m = Ok (v <? N.of_nat (num (tgt r) m))%N.
Proof.
  intros H. destruct (reachable_rep m RM) as [a R]. rewrite (g_row _ _ R) in H. unfold look in H.
  destruct (am_cells a (src r) !! i) as [x|] eqn:X; [|done]. injection H as <-. split.
  - rewrite (g_count _ _ R). unfold look. by rewrite X.
  - intros k v K. rewrite (g_get _ _ R), (g_has _ _ R), X, (g_num _ _ R). unfold row_of in K. by rewrite K.
Qed.
Lemma row_exists r i : i < num (src r) m -> exists row, RelRow r i m = Ok row.
Proof.
  intros L. destruct (reachable_rep m RM) as [a R]. rewrite (g_num _ _ R) in L. rewrite (g_row _ _ R). unfold look.
  destruct (lookup_lt_is_Some_2 (am_cells a (src r)) i) as [x X]; [done|]. rewrite X. eauto.
Qed.

Context (EX : forall e, e ∈ es -> is_cell D1 m e).

Lemma all_joined_ok v row : RelRow R01 v m = Ok row -> forall n j count, j + n = length row ->
  exists b k, all_joined es v (seq j n) count m = Ok (b, k) /\
    (b = true -> Forall (fun e => e ∈ es) (drop j row) /\ k = count + n) /\ (b = false -> ~ Forall (fun e => e ∈ es) (drop j row)).
Proof.
  intros H. destruct (row_reads _ _ _ H) as [_ RD]. induction n as [|n IH]; intros j count L.
  - exists true, count. split; [done|]. rewrite drop_ge by lia. split; [intros _; split; [constructor|lia]|done].
  - cbn [seq all_joined]. destruct (lookup_lt_is_Some_2 row j) as [e E]; [lia|]. destruct (RD j e E) as [-> ->]. cbn [mbind outcome_bind].
    rewrite (drop_S _ _ _ E). cbn [tgt]. destruct (N.ltb_spec e (N.of_nat (num D1 m))) as [EL|EL].
    + case_bool_decide as EI.
      * destruct (IH (S j) (S count)) as (b & k & -> & B1 & B2); [lia|]. exists b, k. split; [done|]. split.
        -- intros ->. destruct B1 as [B1 ->]; [done|]. split; [by constructor|lia].
        -- intros -> [_ F]%Forall_cons. by apply B2.
      * exists false, count. split; [done|]. split; [done|]. intros _ [F _]%Forall_cons. done.
    + exists false, count. split; [done|]. split; [done|]. intros _ [F%EX _]%Forall_cons. unfold is_cell in F. lia.
Qed.

Definition sorted_out (s : list N * list N) : Prop :=
  NoDup s.1 /\ NoDup s.2 /\ (forall v, v ∈ s.1 -> ~ swallowed es m v) /\ (forall v, v ∈ s.2 -> swallowed es m v).

Lemma sort_vertex_ok s v : is_cell D0 m v -> sorted_out s ->
  exists s', sort_vertex es m s v = Ok s' /\ sorted_out s' /\ forall w, (w ∈ s'.1 \/ w ∈ s'.2) <-> (w = v \/ w ∈ s.1 \/ w ∈ s.2).
Proof.
  intros L (N1 & N2 & S1 & S2). unfold sort_vertex. case_bool_decide as I.
  { exists s. split; [done|]. split; [done|]. intros w. split; [tauto|]. intros [-> |H]; tauto. }
  destruct (row_exists R01 (N.to_nat v)) as [row H]; [unfold is_cell in L; cbn [src]; lia|].
  destruct (row_reads _ _ _ H) as [-> _]. cbn [mbind outcome_bind]. rewrite Nat2N.id.
  destruct (all_joined_ok _ _ H (length row) 0 0 eq_refl) as (b & k & -> & B1 & B2). cbn [mbind outcome_bind fst snd]. rewrite drop_0 in B1, B2.
  destruct (b && (2 <=? k)) eqn:BK.
  - apply andb_true_iff in BK as [-> K%Nat.leb_le]. destruct B1 as [F ->]; [done|].
    eexists. split; [done|]. cbn [fst snd]. split.
    + split_and!; [done|by apply set_add_nodup|done|]. cbn [snd]. intros w [-> |W]%set_add_elem; [|by apply S2]. exists row. done.
    + intros w. cbn [fst snd]. rewrite set_add_elem. tauto.
  - eexists. split; [done|]. split.
    + split_and!; [by apply set_add_nodup|done| |done]. cbn [fst]. intros w [-> |W]%set_add_elem; [|by apply S1].
      intros (row' & H' & L2 & F). rewrite H in H'. injection H' as <-. destruct b; [|by apply B2].
      destruct B1 as [_ ->]; [done|]. apply andb_false_iff in BK as [?|BK%Nat.leb_gt]; [done|lia].
    + intros w. cbn [fst snd]. rewrite set_add_elem. tauto.
Qed.
End vertices.

Lemma joined_vertices order es m : reachable m -> edges_exist es m -> 2 <= length es -> (forall l, order l ≡ₚ l) ->
  exists stay gone, JoinedVertices order es m = Ok (stay, gone) /\ NoDup stay /\ NoDup gone /\
    (forall v, v ∈ stay <-> touched es m v /\ ~ swallowed es m v) /\ (forall v, v ∈ gone <-> touched es m v /\ swallowed es m v).
Proof.
  intros RM EX L O.
  assert (forall l s, (forall e, e ∈ l -> e ∈ es) -> sorted_out m es s ->
    exists s', ofold (fun s e => o ← Cell1DVertex (N.to_nat e) 0 m; s ← sort_vertex es m s o; t ← Cell1DVertex (N.to_nat e) 1 m; sort_vertex es m s t) l s = Ok s' /\
      sorted_out m es s' /\ forall w, (w ∈ s'.1 \/ w ∈ s'.2) <-> (touched l m w \/ w ∈ s.1 \/ w ∈ s.2)) as LOOP.
  { induction l as [|e l IH]; intros s SUB S.
    - exists s. split; [done|]. split; [done|]. intros w. split; [tauto|]. intros [(e & E%elem_of_nil & _)|H]; done.
    - cbn [ofold]. destruct (EX e) as [EL EV]; [apply SUB; left|].
      destruct (edge_vertices m RM e EL) as (o & t & EO & ET & -> & ->). cbn [mbind outcome_bind].
      assert (forall e, e ∈ es -> is_cell D1 m e) as EX' by (intros e' I; by apply EX).
      destruct (sort_vertex_ok m RM es EX' s o) as (s1 & -> & S1 & I1); [apply EV; by left|done|]. cbn [mbind outcome_bind].
      destruct (sort_vertex_ok m RM es EX' s1 t) as (s2 & -> & S2 & I2); [apply EV; by right|done|]. cbn [mbind outcome_bind].
      destruct (IH s2) as (s3 & -> & S3 & I3); [intros e' I; apply SUB; by right|done|].
      exists s3. split; [done|]. split; [done|]. intros w. rewrite I3, I2, I1. split.
      + intros [(e' & I & H)|[-> |[-> |H]]]; [left; exists e'; split; [by right|done]|left; exists e; split; [left|by right]|left; exists e; split; [left|by left]|by right].
      + intros [(e' & [-> |I]%elem_of_cons & H)|H]; [|left; by exists e'|tauto].
        destruct H as [H|H]; [rewrite EO in H|rewrite ET in H]; injection H as ->; tauto. }
  unfold JoinedVertices. destruct (Nat.ltb_spec (length es) 2); [lia|].
  destruct (LOOP es ([], [])) as (s & -> & (N1 & N2 & S1 & S2) & I); [done| |].
  { split_and!; try constructor; intros v V; by apply elem_of_nil in V. }
  cbn [mbind outcome_bind]. exists (order s.1), (order s.2). split; [done|]. rewrite !O. split; [done|]. split; [done|].
  assert (forall w, (w ∈ s.1 \/ w ∈ s.2) <-> touched es m w) as I'.
  { intros w. rewrite I. cbn [fst snd]. rewrite elem_of_nil. tauto. }
  split; intros v; rewrite O, <- I'.
  - split; [intros V; split; [by left|by apply S1]|]. intros [[V|V] NS]; [done|]. by destruct (NS (S2 v V)).
  - split; [intros V; split; [by right|by apply S2]|]. intros [[V|V] NS]; [|done]. exfalso. by apply (S1 v V).
Qed.

Lemma few_edges order es m : length es < 2 -> JoinedVertices order es m = Ok ([], []).
Proof. intros L. unfold JoinedVertices. destruct (Nat.ltb_spec (length es) 2); [done|lia]. Qed.

(** A path: its ends stay, the vertices between them go. *)
Lemma path_touched m vs es v : is_path m vs es -> 1 <= length es -> touched es m v <-> v ∈ vs.
Proof.
  intros P L. pose proof (pa_length _ _ _ P) as LV. split.
  - intros (e & [k K]%elem_of_list_lookup & H). destruct (pa_edges _ _ _ P k e K) as (u & w & U & W & J).
    destruct J as [[O T]|[O T]]; destruct H as [H|H]; rewrite ?O, ?T in H; injection H as <-; by eapply elem_of_list_lookup_2.
  - intros [k K]%elem_of_list_lookup. pose proof (lookup_lt_Some _ _ _ K) as KL. destruct k as [|k].
    + destruct (lookup_lt_is_Some_2 es 0) as [e E]; [lia|]. exists e. split; [by eapply elem_of_list_lookup_2|].
      destruct (pa_edges _ _ _ P 0 e E) as (u & w & U & W & J). rewrite K in U. injection U as <-. unfold has_end. tauto.
    + destruct (lookup_lt_is_Some_2 es k) as [e E]; [lia|]. exists e. split; [by eapply elem_of_list_lookup_2|].
      destruct (pa_edges _ _ _ P k e E) as (u & w & U & W & J). rewrite K in W. injection W as <-. unfold has_end. tauto.
Qed.
Lemma swallowed_perm es es' m v : es' ≡ₚ es -> swallowed es' m v <-> swallowed es m v.
Proof. intros P. unfold swallowed. by setoid_rewrite P. Qed.
Lemma touched_perm es es' m v : es' ≡ₚ es -> touched es' m v <-> touched es m v.
Proof. intros P. unfold touched. by setoid_rewrite P. Qed.

Lemma joined_path order m vs es es' a b : reachable m -> is_path m vs es -> es' ≡ₚ es -> edges_exist es m -> 2 <= length es -> (forall l, order l ≡ₚ l) ->
  vs !! 0 = Some a -> last vs = Some b ->
  exists stay gone, JoinedVertices order es' m = Ok (stay, gone) /\ stay ≡ₚ [a; b] /\ gone ≡ₚ take (length es - 1) (drop 1 vs).
Proof.
  intros RM P PE EX L O A B. pose proof (pa_length _ _ _ P) as LV. pose proof (pa_vertices _ _ _ P) as ND.
  rewrite last_lookup, LV in B. cbn [Nat.pred] in B.
  destruct (joined_vertices order es' m) as (stay & gone & E & N1 & N2 & I1 & I2); [done| | |done|].
  { intros e. rewrite PE. apply EX. } { by rewrite PE. }
  exists stay, gone. split; [done|].
  assert (forall v, touched es' m v <-> v ∈ vs) as TV. { intros v. rewrite (touched_perm _ _ _ _ PE). apply path_touched; [done|lia]. }
  split; apply NoDup_Permutation.
  - done.
  - apply NoDup_cons. split; [|apply NoDup_singleton]. intros ->%elem_of_list_singleton. pose proof (NoDup_lookup _ _ _ _ ND A B). lia.
  - intros v. rewrite I1, TV, (swallowed_perm _ _ _ _ PE). rewrite elem_of_cons, elem_of_list_singleton. split.
    + intros [[k K]%elem_of_list_lookup NS]. pose proof (lookup_lt_Some _ _ _ K).
      destruct (decide (k = 0)) as [-> |]; [left; congruence|]. destruct (decide (k = length es)) as [-> |]; [right; congruence|].
      exfalso. apply NS, (pa_inside _ _ _ P k v K). lia.
    + intros [-> | ->]; (split; [by eapply elem_of_list_lookup_2|]); [apply (pa_ends _ _ _ P 0 a A); by left|apply (pa_ends _ _ _ P _ b B); by right].
  - done.
  - clear - ND. rewrite <- (take_drop 1 vs) in ND. apply NoDup_app in ND as (_ & _ & ND). rewrite <- (take_drop (length es - 1) (drop 1 vs)) in ND.
    by apply NoDup_app in ND as (ND & _).
  - intros v. rewrite I2, TV, (swallowed_perm _ _ _ _ PE). split.
    + intros [[k K]%elem_of_list_lookup NS]. pose proof (lookup_lt_Some _ _ _ K).
      apply elem_of_list_lookup. exists (k - 1). 
      destruct (decide (k = 0)) as [-> |]; [by destruct (pa_ends _ _ _ P 0 v K (or_introl eq_refl))|].
      destruct (decide (k = length es)) as [-> |]; [by destruct (pa_ends _ _ _ P _ v K (or_intror eq_refl))|].
      rewrite lookup_take by lia. rewrite lookup_drop. by replace (1 + (k - 1)) with k by lia.
    + intros [k K]%elem_of_list_lookup. apply lookup_take_Some in K as [K KL]. rewrite lookup_drop in K.
      split; [by eapply elem_of_list_lookup_2|]. apply (pa_inside _ _ _ P _ v K). lia.
Qed.
