(** Compressed adjacency, renumbering of parts, constraint repair. *)
From stdpp Require Import relations.
From Verif Require Import Base BaseProof CsrModel CsrSpec CsrProof GraphModel GraphSpec MetisModel MetisSpec.

(** ** Compressed adjacency *)

Lemma offsets_row_ends {A} o (rows : list (list A)) : offsets_from o (map length rows) = row_ends o rows.
Proof. revert o. induction rows as [|r rows IH]; intros o; cbn; [done|]. by rewrite IH. Qed.

Lemma adj_rows n a : adj_ok n a ->
  exists g : graph, length g = n /\ Rows a = row_ends 0 g /\ Cols a = concat g /\ graph_ok g.
Proof.
  intros (Hl & H0 & Hm & Hn & Hc).
  destruct (shape_rep (Csr (Rows a) (Cols a)) n) as (g & Hg & [Ho Hv]).
  { split_and!; try done. }
  exists g. cbn in Ho, Hv. split_and!; try done. unfold graph_ok. rewrite Hg.
  rewrite Hv in Hc. clear -Hc. induction g as [|r g IH]; [constructor|]. cbn in Hc. apply Forall_app in Hc as [H1 H2].
  constructor; [done|]. by apply IH.
Qed.

Lemma rows_adj (g : graph) : graph_ok g -> adj_ok (length g) (MAdj (row_ends 0 g) (concat g)).
Proof.
  intros Hg. destruct (rep_shape (Csr (row_ends 0 g) (concat g)) g) as (H1 & H2 & H3 & H4); [done|].
  split_and!; try done. cbn. apply Forall_concat. exact Hg.
Qed.

Lemma row_bounds {A} (g : list (list A)) v row :
  g !! v = Some row ->
  exists lo, row_ends 0 g !! v = Some lo /\ row_ends 0 g !! (v + 1) = Some (lo + length row) /\
    forall k, k < length row -> concat g !! (lo + k) = row !! k.
Proof.
  intros Hv. set (c := Csr (row_ends 0 g) (concat g)). assert (Hc : csr_rep c g) by done.
  exists (length (concat (take v g))). pose proof (lookup_lt_Some _ _ _ Hv) as Hlt.
  pose proof (rep_off c g v Hc ltac:(lia)) as H1. pose proof (rep_off_S c g v row Hc Hv) as H2.
  apply vget_ok in H1, H2. split; [done|]. split; [done|]. intros k Hk. by apply concat_lookup.
Qed.

Lemma metis_row_spec (g : graph) v row :
  g !! v = Some row -> metis_row (MAdj (row_ends 0 g) (concat g)) v = Ok row.
Proof.
  intros Hv. destruct (row_bounds g v row Hv) as (lo & H1 & H2 & H3). unfold metis_row. cbn [Rows Cols].
  rewrite (vget_Ok _ _ _ H1). cbn [mbind outcome_bind]. rewrite (vget_Ok _ _ _ H2). cbn [mbind outcome_bind].
  rewrite (proj2 (Nat.ltb_ge (lo + length row) lo)) by lia. replace (lo + length row - lo) with (length row) by lia.
  assert (Hgen : forall r k, (forall i, i < length r -> concat g !! (lo + (k + i)) = r !! i) ->
     omapM (fun c => vat (concat g) (lo + c)) (seq k (length r)) = Ok r).
  { induction r as [|x r IH]; intros k Hk; [done|]. cbn [length seq omapM].
    pose proof (Hk 0 ltac:(cbn; lia)) as H0. cbn in H0. rewrite Nat.add_0_r in H0. rewrite (vat_Ok _ _ _ H0).
    cbn [mbind outcome_bind]. rewrite IH; [done|]. intros i Hi. specialize (Hk (S i) ltac:(cbn; lia)).
    replace (S k + i) with (k + S i) by lia. done. }
  apply Hgen. intros i Hi. by apply H3.
Qed.

Lemma omapM_rows {A} (f : nat -> outcome A) (g : list A) :
  (forall v row, g !! v = Some row -> f v = Ok row) -> omapM f (seq 0 (length g)) = Ok g.
Proof.
  assert (Hgen : forall k (h : list A), (forall v row, h !! v = Some row -> f (k + v) = Ok row) -> omapM f (seq k (length h)) = Ok h).
  { intros k h. revert k. induction h as [|x h IH]; intros k Hf; [done|]. cbn [length seq omapM].
    rewrite <- (Nat.add_0_r k) at 1. rewrite (Hf 0 x eq_refl). cbn [mbind outcome_bind]. rewrite IH; [done|].
    intros v row Hv. replace (S k + v) with (k + S v) by lia. by apply Hf. }
  intros Hf. by apply Hgen.
Qed.

Lemma to_graph_rows (g : graph) : MetisAdjacencyToGraphAdjacency (MAdj (row_ends 0 g) (concat g)) = Ok g.
Proof.
  unfold MetisAdjacencyToGraphAdjacency. cbn [Rows].
  assert (Hl : length (row_ends 0 g) - 1 = length g) by (rewrite row_ends_length; lia).
  destruct (row_ends 0 g) eqn:E; [by destruct g|]. rewrite <- E in *. rewrite Hl. apply omapM_rows. apply metis_row_spec.
Qed.

Lemma graph_round_trip (g : graph) : MetisAdjacencyToGraphAdjacency (GraphAdjacencyToMetisAdjacency g) = Ok g.
Proof. unfold GraphAdjacencyToMetisAdjacency. rewrite offsets_row_ends. apply to_graph_rows. Qed.

Lemma metis_round_trip n a : adj_ok n a ->
  exists g, MetisAdjacencyToGraphAdjacency a = Ok g /\ length g = n /\ graph_ok g /\ GraphAdjacencyToMetisAdjacency g = a.
Proof.
  intros Ha. destruct (adj_rows n a Ha) as (g & Hl & Hr & Hc & Hg). exists g. destruct a as [rows cols]. cbn in *. subst rows cols.
  split_and!; try done; [apply to_graph_rows|]. unfold GraphAdjacencyToMetisAdjacency. by rewrite offsets_row_ends.
Qed.

Lemma adj_edge (g : graph) v w : net_edge (MAdj (row_ends 0 g) (concat g)) v w <-> edge g v w.
Proof.
  unfold net_edge, entry, edge. cbn [Rows Cols]. split.
  - intros (pos & Hp & lo & hi & H1 & H2 & Hpos).
    assert (Hv : v < length g). { apply lookup_lt_Some in H2. rewrite row_ends_length in H2. lia. }
    destruct (lookup_lt_is_Some_2 g v Hv) as [row Hrow]. exists row. split; [done|].
    destruct (row_bounds g v row Hrow) as (lo' & H1' & H2' & H3). rewrite H1 in H1'. injection H1' as <-.
    rewrite H2 in H2'. injection H2' as ->. apply (elem_of_list_lookup_2 _ (pos - lo)).
    rewrite <- H3 by lia. by replace (lo + (pos - lo)) with pos by lia.
  - intros (row & Hrow & [k Hk]%elem_of_list_lookup). destruct (row_bounds g v row Hrow) as (lo & H1 & H2 & H3).
    pose proof (lookup_lt_Some _ _ _ Hk). exists (lo + k). split; [by rewrite H3|]. exists lo, (lo + length row).
    split_and!; try done; lia.
Qed.

(** ** Renumbering the parts *)

Definition lower (c p : nat) : nat := if c <? p then p - 1 else p.

Lemma reorder_spec k : forall start c parts,
  start <= c -> (forall p, start <= p < c -> p ∈ parts) -> (forall p, p ∈ parts -> start <= p < c + k) ->
  consecutive start (reorder k c parts) /\ same_classes parts (reorder k c parts).
Proof.
  induction k as [|k IH]; intros start c parts Hs Hlow Hup; cbn [reorder].
  - split.
    + exists (c - start). intros p. replace (start + (c - start)) with c by lia. split.
      * intros Hp. specialize (Hup p Hp). lia.
      * apply Hlow.
    + split; [done|]. intros i j p q p' q' H1 H2 H3 H4. rewrite H1 in H3. rewrite H2 in H4. by simplify_eq.
  - destruct (existsb (Nat.eqb c) parts) eqn:Ex.
    + apply IH; [lia| |].
      * intros p Hp. destruct (decide (p = c)) as [->|]; [|apply Hlow; lia].
        apply existsb_exists in Ex as (x & Hx & He). apply Nat.eqb_eq in He. subst x. by apply elem_of_list_In.
      * intros p Hp. specialize (Hup p Hp). lia.
    + assert (Hc : c ∉ parts).
      { intros Hin. assert (existsb (Nat.eqb c) parts = true); [|congruence]. apply existsb_exists. exists c.
        split; [by apply elem_of_list_In|apply Nat.eqb_refl]. }
      change (map (fun p => if c <? p then p - 1 else p) parts) with (lower c <$> parts).
      destruct (IH start c (lower c <$> parts) Hs) as [H1 H2].
      * intros p Hp. apply elem_of_list_fmap. exists p. split; [|by apply Hlow].
        unfold lower. destruct (Nat.ltb_spec c p); lia.
      * intros p (q & -> & Hq)%elem_of_list_fmap. specialize (Hup q Hq). unfold lower. destruct (Nat.ltb_spec c q); [lia|].
        assert (q <> c) by (by intros ->). lia.
      * split; [done|]. destruct H2 as [Hl H2]. rewrite fmap_length in Hl. split; [done|].
        intros i j p q p' q' Hi Hj Hi' Hj'.
        rewrite (H2 i j (lower c p) (lower c q) p' q'); try done; [|by rewrite list_lookup_fmap, Hi|by rewrite list_lookup_fmap, Hj].
        assert (Hp : p <> c) by (intros ->; apply Hc; by eapply elem_of_list_lookup_2).
        assert (Hq : q <> c) by (intros ->; apply Hc; by eapply elem_of_list_lookup_2).
        unfold lower. destruct (Nat.ltb_spec c p), (Nat.ltb_spec c q); lia.
Qed.

Lemma partition_ok numberParts (master : bool) net objval parts n :
  2 <= numberParts -> length (Rows (nadj net)) = n + 1 -> 0 < n -> length parts = n ->
  (forall p, p ∈ parts -> p < numberParts) -> objval <> 0 ->
  exists res, NetworkPartition numberParts master net (Some (MetisOk objval parts)) = Ok res /\
    consecutive (if master then 0 else 1) res /\ same_classes parts res.
Proof.
  intros Hk Hrows Hn Hl Hp Hobj. unfold NetworkPartition. destruct (Rows (nadj net)) as [|r0 rs] eqn:Er; [cbn in Hrows; lia|].
  rewrite <- Er in *. replace (length (Rows (nadj net)) - 1) with n by lia.
  rewrite (proj2 (Nat.ltb_lt 0 n)) by lia. rewrite (proj2 (Nat.ltb_lt 0 numberParts)) by lia. cbn [require mbind outcome_bind].
  rewrite (proj2 (Nat.eqb_neq numberParts 1)) by lia. rewrite (proj2 (Nat.eqb_neq objval 0)) by lia. cbn [mbind outcome_bind].
  set (start := if master then 0 else 1). change (map (fun p => p + start) parts) with ((fun p => p + start) <$> parts).
  eexists. split; [done|].
  destruct (reorder_spec numberParts start start ((fun p => p + start) <$> parts)) as [H1 [H2 H3]].
  - done.
  - intros p Hp'. lia.
  - intros p (q & -> & Hq)%elem_of_list_fmap. specialize (Hp q Hq). lia.
  - split; [done|]. rewrite fmap_length in H2. split; [done|]. intros i j p q p' q' Hi Hj Hi' Hj'.
    rewrite (H3 i j (p + start) (q + start) p' q'); try done; [lia|by rewrite list_lookup_fmap, Hi|by rewrite list_lookup_fmap, Hj].
Qed.

(** ** Constraint repair *)

Definition part_bound (top : nat) (parts : list nat) : Prop := forall v p, parts !! v = Some p -> p <= top.

(** What every step of the repair keeps: no two vertices are put together. *)
Definition splits (parts parts' : list nat) : Prop :=
  length parts' = length parts /\ forall u w, u < length parts -> w < length parts -> parts !! u <> parts !! w -> parts' !! u <> parts' !! w.

Lemma splits_refl parts : splits parts parts.
Proof. done. Qed.
Lemma splits_trans p1 p2 p3 : splits p1 p2 -> splits p2 p3 -> splits p1 p3.
Proof. intros [L1 H1] [L2 H2]. split; [congruence|]. intros u w Hu Hw Hne. apply H2; [lia|lia|]. by apply H1. Qed.

Lemma fresh_splits (parts : list nat) top w : part_bound top parts -> splits parts (<[w := S top]> parts).
Proof.
  intros Hb. split; [apply insert_length|]. intros u v Hu Hv Hne.
  destruct (decide (u = w)) as [->|Hu'], (decide (v = w)) as [->|Hv'].
  - done.
  - rewrite list_lookup_insert by done. rewrite list_lookup_insert_ne by done. intros E. symmetry in E. apply Hb in E. lia.
  - rewrite (list_lookup_insert _ w) by done. rewrite list_lookup_insert_ne by done. intros E. apply Hb in E. lia.
  - by rewrite !list_lookup_insert_ne.
Qed.

Lemma constraint_step_ok net n v pos top parts :
  adj_ok n (nadj net) -> length (edges_constrained net) = length (Cols (nadj net)) -> length parts = n -> v < n ->
  pos < length (Cols (nadj net)) -> part_bound top parts ->
  exists top' parts', constraint_step net v (pos, top, parts) pos = Ok (S pos, top', parts') /\
    part_bound top' parts' /\ splits parts parts' /\
    (forall w, Cols (nadj net) !! pos = Some w -> edges_constrained net !! pos = Some true -> w <> v ->
       parts' !! v <> parts' !! w).
Proof.
  intros (_ & _ & _ & _ & Hc) Hlen Hl Hv Hpos Hb. unfold constraint_step.
  destruct (lookup_lt_is_Some_2 (edges_constrained net) pos) as [b Hbv]; [lia|]. rewrite (vget_Ok _ _ _ Hbv). cbn [mbind outcome_bind].
  destruct b.
  2:{ exists top, parts. split_and!; try done. intros w _ Hf. congruence. }
  destruct (lookup_lt_is_Some_2 (Cols (nadj net)) pos Hpos) as [w Hw]. rewrite (vat_Ok _ _ _ Hw). cbn [mbind outcome_bind].
  assert (Hwn : w < n). { rewrite Forall_forall in Hc. apply Hc. by eapply elem_of_list_lookup_2. }
  destruct (lookup_lt_is_Some_2 parts v) as [pv Hpv]; [lia|]. destruct (lookup_lt_is_Some_2 parts w) as [pw Hpw]; [lia|].
  rewrite (vat_Ok _ _ _ Hpv). cbn [mbind outcome_bind]. rewrite (vat_Ok _ _ _ Hpw). cbn [mbind outcome_bind].
  destruct (Nat.eqb_spec pv pw) as [->|Hne].
  - rewrite vset_Ok by lia. cbn [mbind outcome_bind]. exists (S top), (<[w := S top]> parts). split_and!; [done| |by apply fresh_splits|].
    + intros u p Hu. destruct (decide (u = w)) as [->|].
      * rewrite list_lookup_insert in Hu by lia. injection Hu as <-. lia.
      * rewrite list_lookup_insert_ne in Hu by done. apply Hb in Hu. lia.
    + intros w' Hw' _ Hne. rewrite Hw in Hw'. injection Hw' as <-. rewrite list_lookup_insert by lia.
      rewrite list_lookup_insert_ne by done. rewrite Hpv. intros E. injection E as E. apply Hb in Hpv. lia.
  - exists top, parts. split_and!; try done. intros w' Hw' _ _. rewrite Hw in Hw'. injection Hw' as <-. rewrite Hpv, Hpw. congruence.
Qed.

Lemma constraint_row_ok net n v k : forall pos top parts,
  adj_ok n (nadj net) -> length (edges_constrained net) = length (Cols (nadj net)) -> length parts = n -> v < n ->
  pos + k <= length (Cols (nadj net)) -> part_bound top parts ->
  exists top' parts', ofold (constraint_step net v) (seq pos k) (pos, top, parts) = Ok (pos + k, top', parts') /\
    part_bound top' parts' /\ splits parts parts' /\
    (forall i w, pos <= i < pos + k -> Cols (nadj net) !! i = Some w -> edges_constrained net !! i = Some true -> w <> v ->
       parts' !! v <> parts' !! w).
Proof.
  induction k as [|k IH]; intros pos top parts Ha He Hl Hv Hk Hb; cbn [seq ofold].
  - rewrite Nat.add_0_r. exists top, parts. split_and!; try done. intros i w Hi. lia.
  - destruct (constraint_step_ok net n v pos top parts) as (t1 & p1 & E1 & Hb1 & Hs1 & Hsep); try done; [lia|].
    rewrite E1. cbn [mbind outcome_bind].
    destruct (IH (S pos) t1 p1) as (t2 & p2 & E2 & Hb2 & Hs2 & Hsep2); try done; [by rewrite (proj1 Hs1)|lia|].
    exists t2, p2. replace (pos + S k) with (S pos + k) by lia. split_and!; try done; [by eapply splits_trans|].
    intros i w Hi Hw Hc Hne. destruct (decide (i = pos)) as [->|]; [|by apply (Hsep2 i); [lia| | |]].
    apply Hs2; [rewrite (proj1 Hs1); lia| |by apply Hsep].
    rewrite (proj1 Hs1), Hl. destruct Ha as (_ & _ & _ & _ & Ha). rewrite Forall_forall in Ha. apply Ha. by eapply elem_of_list_lookup_2.
Qed.

Lemma constraints_loop_ok net n k : forall v lo top parts,
  adj_ok n (nadj net) -> length (edges_constrained net) = length (Cols (nadj net)) -> length parts = n ->
  v + k = n -> Rows (nadj net) !! v = Some lo -> part_bound top parts ->
  exists st, ofold (fun st v =>
      lo ← vget (Rows (nadj net)) v; hi ← vget (Rows (nadj net)) (v + 1);
      if hi <? lo then UB else ofold (constraint_step net v) (seq lo (hi - lo)) st) (seq v k) (lo, top, parts) = Ok st /\
    splits parts st.2 /\
    (forall x pos w, v <= x -> entry (nadj net) pos x w -> edges_constrained net !! pos = Some true -> w <> x ->
       st.2 !! x <> st.2 !! w).
Proof.
  induction k as [|k IH]; intros v lo top parts Ha He Hl Hk Hlo Hb; cbn [seq ofold].
  - exists (lo, top, parts). split_and!; try done. intros x pos w Hx (_ & l & h & _ & Hh & _).
    apply lookup_lt_Some in Hh. destruct Ha as (Ha & _). lia.
  - assert (Hv : v < n) by lia. pose proof Ha as (Hlen & _ & Hmono & Hlast & Hcols).
    destruct (lookup_lt_is_Some_2 (Rows (nadj net)) (v + 1)) as [hi Hhi]; [lia|].
    rewrite (vget_Ok _ _ _ Hlo). cbn [mbind outcome_bind]. rewrite (vget_Ok _ _ _ Hhi). cbn [mbind outcome_bind].
    pose proof (Hmono v lo hi Hlo Hhi) as Hle. rewrite (proj2 (Nat.ltb_ge hi lo)) by lia.
    assert (Hend : hi <= length (Cols (nadj net))).
    { assert (Hgen : forall d u h, u + d = n -> Rows (nadj net) !! u = Some h -> h <= length (Cols (nadj net))).
      { induction d as [|d IHd]; intros u h Hu Hh.
        - rewrite Nat.add_0_r in Hu. subst u. rewrite Hlast in Hh. injection Hh as <-. lia.
        - destruct (lookup_lt_is_Some_2 (Rows (nadj net)) (u + 1)) as [h' Hh']; [lia|].
          pose proof (Hmono u h h' Hh Hh'). assert (h' <= length (Cols (nadj net))) by (apply (IHd (u + 1)); [lia|done]). lia. }
      apply (Hgen (n - (v + 1)) (v + 1)); [lia|done]. }
    destruct (constraint_row_ok net n v (hi - lo) lo top parts) as (t1 & p1 & E1 & Hb1 & Hs1 & Hsep); try done; [lia|].
    rewrite E1. cbn [mbind outcome_bind]. replace (lo + (hi - lo)) with hi in * by lia.
    destruct (IH (S v) hi t1 p1) as (st & E2 & Hs2 & Hsep2); try done.
    { by rewrite (proj1 Hs1). } { lia. } { by replace (S v) with (v + 1) by lia. }
    exists st. split_and!; try done; [by eapply splits_trans|].
    intros x pos w Hx Hent Hc Hne. destruct (decide (x = v)) as [->|]; [|by apply (Hsep2 x pos w); [lia| | |]].
    destruct Hent as (Hcol & l & h & Hl' & Hh' & Hpos). rewrite Hlo in Hl'. injection Hl' as <-. rewrite Hhi in Hh'. injection Hh' as <-.
    apply Hs2; [rewrite (proj1 Hs1); lia| |by apply (Hsep pos)].
    rewrite (proj1 Hs1), Hl. rewrite Forall_forall in Hcols. apply Hcols. by eapply elem_of_list_lookup_2.
Qed.

Lemma max_list_bound parts : part_bound (max_list parts) parts.
Proof. intros v p Hp. apply max_list_elem_of_le. by eapply elem_of_list_lookup_2. Qed.

Lemma constraints_ok net n parts :
  adj_ok n (nadj net) -> length parts = n ->
  edges_constrained net = [] \/ length (edges_constrained net) = length (Cols (nadj net)) ->
  exists parts', PartitionCheckConstraints net parts = Ok parts' /\ length parts' = n /\
    (forall pos u w, entry (nadj net) pos u w -> edges_constrained net !! pos = Some true -> u <> w -> parts' !! u <> parts' !! w) /\
    (forall u w, u < n -> w < n -> parts !! u <> parts !! w -> parts' !! u <> parts' !! w).
Proof.
  intros Ha Hl He. unfold PartitionCheckConstraints. destruct (edges_constrained net) as [|b0 bs] eqn:Ee.
  { exists parts. split_and!; try done. }
  destruct He as [He|He]; [done|]. pose proof Ha as (Hr & H0 & _ & Hlast & Hc).
  assert (Hn : n <> 0). { intros ->. rewrite H0 in Hlast. injection Hlast as Hlast. cbn in He. lia. }
  rewrite <- Ee in *. clear b0 bs Ee.
  destruct parts as [|p0 ps] eqn:Ep; [cbn in Hl; lia|]. unfold max_element. rewrite <- Ep in *. clear p0 ps Ep.
  cbn [mbind outcome_bind]. destruct (Rows (nadj net)) as [|r0 rs] eqn:Er; [done|]. rewrite <- Er in *. clear r0 rs Er.
  replace (length (Rows (nadj net)) - 1) with n by lia.
  destruct (constraints_loop_ok net n n 0 0 (max_list parts) parts) as (st & E & Hs & Hsep); try done; [apply max_list_bound|].
  rewrite E. cbn [mbind outcome_bind]. exists st.2. split_and!; try done.
  - by rewrite (proj1 Hs).
  - intros pos u w Hent Hcn Hne. apply (Hsep u pos w); try done; lia.
  - intros u w Hu Hw. apply Hs; lia.
Qed.

Lemma single_part (master : bool) net metis n :
  0 < n -> length (Rows (nadj net)) = n + 1 -> NetworkPartition 1 master net metis = Ok (replicate n 0).
Proof.
  intros Hn Hl. unfold NetworkPartition. destruct (Rows (nadj net)) as [|r rs] eqn:Er; [cbn in Hl; lia|]. rewrite <- Er in *.
  replace (length (Rows (nadj net)) - 1) with n by lia. rewrite (proj2 (Nat.ltb_lt 0 n)) by done. cbn [require Nat.ltb Nat.leb mbind outcome_bind Nat.eqb].
  f_equal. unfold vresize. rewrite replicate_length, Nat.sub_diag. cbn [replicate]. rewrite app_nil_r.
  rewrite firstn_all2; [done|by rewrite replicate_length].
Qed.

Lemma compressed_valid (g : graph) :
  graph_ok g -> adj_ok (length g) (GraphAdjacencyToMetisAdjacency g) /\
  forall u w, net_edge (GraphAdjacencyToMetisAdjacency g) u w <-> edge g u w.
Proof.
  intros Hg. unfold GraphAdjacencyToMetisAdjacency. rewrite offsets_row_ends. split; [by apply rows_adj|]. intros u w. apply adj_edge.
Qed.
