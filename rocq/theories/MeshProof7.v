From Verif Require Import Base BaseProof CsrModel CsrSpec CsrProof MeshModel MeshSpec MeshRep
  MeshProof MeshProof2 MeshProof3 MeshProof4 MeshProof5 MeshProof6.
From Coq Require Import ZifyBool ZifyNat ZifyN.

(** ** Removing a cell *)

Lemma remove_props_spec ps names rows i :
  rep_props ps names rows -> i < length rows ->
  exists ps', remove_props (length rows) i ps = Ok ps' /\ rep_props ps' names (delete i rows).
Proof.
  intros [Hi Hn Hx Hl Hr Hv] Hlt.
  destruct (omapM_spec (fun c => csr_remove_row c (length rows) i 0%N)
    (fun p c => csr_rep c (column p (delete i rows))) (pvals ps))
    as (vs & Hvs & Hlen & Hq).
  { intros p c Hc. pose proof (Hv p c Hc) as Hrep.
    destruct (csr_remove_row_spec c _ i 0%N Hrep) as (c' & Hc' & Hrep'); [by rewrite fmap_length|].
    rewrite fmap_length in Hc'. exists c'. split; [done|]. unfold column. by rewrite fmap_delete. }
  exists (Props (pids ps) (pindex ps) vs). unfold remove_props. rewrite Hvs. split; [done|].
  split; cbn; auto.
  - congruence.
  - rewrite delete_take_drop. apply Forall_app. split; [by apply Forall_take|by apply Forall_drop].
Qed.

(** *** The genealogy map *)

Definition shift_down (i v : N) : N := if decide (v < i)%N then v else (v - 1)%N.

Lemma align_set_spec i n (s : gset N) :
  (i < n)%N -> (forall v, v ∈ s -> (v < n)%N) ->
  align_set i (n - 1) s = set_map (shift_down i) (s ∖ {[i]}).
Proof.
  intros Hi Hs. apply set_eq. intros v. unfold align_set.
  rewrite elem_of_list_to_set, elem_of_list_filter, elem_of_map. unfold align.
  rewrite elem_of_list_fmap. split.
  - intros (Hv & w & -> & Hw). apply elem_of_elements in Hw. exists w. specialize (Hs w Hw).
    rewrite elem_of_difference, elem_of_singleton. unfold align1, shift_down in *.
    destruct (N.ltb_spec i w); [|destruct (N.eqb_spec w i)]; try done;
      destruct (decide (w < i)%N); split_and!; try done; lia.
  - intros (w & -> & Hw). apply elem_of_difference in Hw as [Hw Hne].
    rewrite elem_of_singleton in Hne. specialize (Hs w Hw) as Hwn. split.
    + unfold shift_down. destruct (decide (w < i)%N); lia.
    + exists w. split; [|by apply elem_of_elements]. unfold align1, shift_down.
      destruct (decide (w < i)%N); destruct (N.ltb_spec i w); try lia;
        destruct (N.eqb_spec w i); try done; lia.
Qed.

Lemma set_map_empty i (s : gset N) :
  (set_map (shift_down i) (s ∖ {[i]}) : gset N) = ∅ <-> s ⊆ {[i]}.
Proof.
  split.
  - intros E x Hx. rewrite elem_of_singleton. destruct (decide (x = i)); [done|exfalso].
    assert (shift_down i x ∈ (∅ : gset N)) as Hy; [|by apply elem_of_empty in Hy].
    rewrite <- E. apply elem_of_map. exists x. split; [done|]. set_solver.
  - intros E. apply set_eq. intros x. rewrite elem_of_map, elem_of_empty. split; [|done].
    intros (y & _ & Hy). set_solver.
Qed.

Lemma align_map_lookup_gen i n (u : gmap N (gset N)) k :
  u !! i = None ->
  align_map i n u !! k =
    (s ← u !! (if decide (k < i)%N then k else (k + 1)%N);
     if decide (align_set i n s = ∅) then None else Some (align_set i n s)).
Proof.
  intros Hi. unfold align_map.
  set (al := align_set i n <$> u).
  set (moved := filter (fun ks : N * gset N => (i < ks.1)%N /\ ks.2 <> ∅) al).
  set (shifted := (fun ks : N * gset N => ((ks.1 - 1)%N, ks.2)) <$> map_to_list moved).
  assert (Hnd : NoDup (shifted.*1)).
  { unfold shifted. rewrite <- list_fmap_compose.
    assert (Heq : (fst ∘ (fun ks : N * gset N => ((ks.1 - 1)%N, ks.2))) <$> map_to_list moved
             = (fun x => (x - 1)%N) <$> ((map_to_list moved).*1)).
    { rewrite <- list_fmap_compose. done. }
    rewrite Heq. apply NoDup_alt. intros a b x Ha Hb.
    rewrite list_lookup_fmap in Ha, Hb.
    destruct ((map_to_list moved).*1 !! a) as [ya|] eqn:Ea; [|done].
    destruct ((map_to_list moved).*1 !! b) as [yb|] eqn:Eb; [|done].
    cbn in Ha, Hb. injection Ha as Ha. injection Hb as Hb.
    assert (Hpos : forall c y, (map_to_list moved).*1 !! c = Some y -> (i < y)%N).
    { intros c y Hc. rewrite list_lookup_fmap in Hc.
      destruct (map_to_list moved !! c) as [[y' s]|] eqn:Ec; [|done]. injection Hc as <-.
      apply elem_of_list_lookup_2, elem_of_map_to_list, map_filter_lookup_Some in Ec as [_ [? _]]. done. }
    pose proof (Hpos _ _ Ea). pose proof (Hpos _ _ Eb). assert (ya = yb) as -> by lia.
    eapply NoDup_lookup; [apply (NoDup_fst_map_to_list moved)|done|done]. }
  assert (Hsh : forall k, (list_to_map shifted : gmap N (gset N)) !! k = (if decide (i <= k)%N then moved !! (k + 1)%N else None)).
  { intros j. apply option_eq. intros s. rewrite <- elem_of_list_to_map by done.
    unfold shifted. rewrite elem_of_list_fmap. split.
    - intros ([y s'] & Heq & Hy). cbn in Heq. injection Heq as -> ->. apply elem_of_map_to_list in Hy.
      pose proof Hy as Hy'. apply map_filter_lookup_Some in Hy' as [_ [Hlt _]]. cbn in Hlt.
      rewrite decide_True by lia. replace (y - 1 + 1)%N with y by lia. done.
    - case_decide; [|done]. intros Hs. exists ((j + 1)%N, s). cbn. split; [f_equal; lia|].
      by apply elem_of_map_to_list. }
  rewrite lookup_union, Hsh. unfold moved, al.
  destruct (decide (k < i)%N) as [Hk|Hk].
  - rewrite (decide_False (P := (i <= k)%N)) by lia.
    rewrite map_filter_lookup, lookup_fmap. destruct (u !! k) as [s|]; cbn; [|done].
    destruct (decide (align_set i n s = ∅)) as [E|E].
    + rewrite option_guard_False; [done|]. by intros [_ ?].
    + rewrite option_guard_True; [done|]. split; [lia|done].
  - rewrite (decide_True (P := (i <= k)%N)) by lia.
    assert (Hl : filter (fun ks : N * gset N => (ks.1 < i)%N /\ ks.2 <> ∅) (align_set i n <$> u) !! k = None).
    { apply map_filter_lookup_None_2. right. intros s Hs [? _]. cbn in *. lia. }
    rewrite Hl, (left_id_L None _), map_filter_lookup, lookup_fmap.
    destruct (u !! (k + 1)%N) as [s|]; cbn; [|done].
    destruct (decide (align_set i n s = ∅)) as [E|E].
    + rewrite option_guard_False; [done|]. by intros [_ ?].
    + rewrite option_guard_True; [done|]. split; [lia|done].
Qed.

Lemma lookup_delete_list_cases {A} (l : list A) i k :
  delete i l !! k = if decide (k < i) then l !! k else l !! (k + 1).
Proof.
  rewrite lookup_delete_list. repeat case_decide; try lia; try done; f_equal; lia.
Qed.

Lemma align_map_spec (u : gmap N (gset N)) (upds : list (option (gset N))) i n :
  (forall k, u !! k = upds !! N.to_nat k ≫= id) ->
  (forall k s, upds !! k = Some (Some s) -> s <> ∅ /\ forall v, v ∈ s -> (v < N.of_nat n)%N) ->
  i < n ->
  forall k, align_map (N.of_nat i) (N.of_nat (n - 1)) (delete (N.of_nat i) u) !! k =
            (renumber_upd (N.of_nat i) <$> delete i upds) !! N.to_nat k ≫= id.
Proof.
  intros Hu Hok Hi k. rewrite align_map_lookup_gen by apply lookup_delete.
  rewrite lookup_delete_ne by (case_decide; lia).
  rewrite list_lookup_fmap, lookup_delete_list_cases.
  set (k' := if decide (k < N.of_nat i)%N then k else (k + 1)%N).
  replace (if decide (N.to_nat k < i) then upds !! N.to_nat k else upds !! (N.to_nat k + 1))
    with (upds !! N.to_nat k').
  2: { unfold k'. destruct (decide (k < N.of_nat i)%N); destruct (decide (N.to_nat k < i)); try lia; [done|].
       f_equal. lia. }
  rewrite Hu. destruct (upds !! N.to_nat k') as [[s|]|] eqn:E; cbn; try done.
  destruct (Hok _ _ E) as [Hne Hb].
  assert (Hal : align_set (N.of_nat i) (N.of_nat (n - 1)) s = set_map (shift_down (N.of_nat i)) (s ∖ {[N.of_nat i]})).
  { rewrite <- (align_set_spec (N.of_nat i) (N.of_nat n)) by (done || lia). f_equal. lia. }
  rewrite Hal. destruct (decide (s ⊆ {[N.of_nat i]})) as [Hs|Hs].
  - rewrite decide_True; [done|]. by apply set_map_empty.
  - rewrite decide_False; [done|]. by rewrite set_map_empty.
Qed.

Lemma renumber_upd_ok i n (upds : list (option (gset N))) :
  i < n ->
  (forall k s, upds !! k = Some (Some s) -> s <> ∅ /\ forall v, v ∈ s -> (v < N.of_nat n)%N) ->
  forall k s, (renumber_upd (N.of_nat i) <$> delete i upds) !! k = Some (Some s) ->
              s <> ∅ /\ forall v, v ∈ s -> (v < N.of_nat (n - 1))%N.
Proof.
  intros Hi Hok k s. rewrite list_lookup_fmap, lookup_delete_list_cases.
  set (k' := if decide (k < i) then k else k + 1).
  replace (if decide (k < i) then upds !! k else upds !! (k + 1)) with (upds !! k')
    by (unfold k'; by case_decide).
  destruct (upds !! k') as [[s0|]|] eqn:E; cbn; try done.
  destruct (Hok _ _ E) as [Hne Hb].
  destruct (decide (s0 ⊆ {[N.of_nat i]})) as [Hs|Hs]; [done|]. intros [= <-].
  split.
  - change (set_map (shift_down (N.of_nat i)) (s0 ∖ {[N.of_nat i]}) <> (∅ : gset N)). by rewrite set_map_empty.
  - intros v (w & -> & Hw)%elem_of_map. apply elem_of_difference in Hw as [Hw Hne'].
    rewrite elem_of_singleton in Hne'. specialize (Hb w Hw). destruct (decide (w < N.of_nat i)%N); lia.
Qed.

Lemma remove_cells_spec d c cs names i :
  rep_list d c cs names -> i < length cs ->
  let I := N.of_nat i in
  exists c', remove_cells (has_orig d) i c = Ok c' /\ cnum c' = length cs - 1 /\
    forall gone, rep_list d c' (renumber_cell d I gone d <$> delete i cs) names.
Proof.
  intros [Hn Hm Ha Ho Hu Huo Hp] Hi I.
  destruct (remove_props_spec _ _ _ i Hp) as (ps' & Hps & Hp'); [by rewrite fmap_length|].
  rewrite fmap_length in Hps. unfold remove_cells. rewrite Hn, Hps. cbn [mbind outcome_bind].
  assert (Hmk : verase (cmark c) i = Ok (delete i (ac_mark <$> cs))).
  { apply verase_ok. rewrite Hm, fmap_length. done. }
  assert (Hac : verase (cact c) i = Ok (delete i (ac_act <$> cs))).
  { apply verase_ok. rewrite Ha, fmap_length. done. }
  assert (Hor : (if has_orig d then verase (corig c) i else Ok (corig c)) =
                Ok (match d with D0 => [] | _ => delete i (ac_orig <$> cs) end)).
  { destruct d; cbn; rewrite Ho; [done|..]; apply verase_ok; by rewrite fmap_length. }
  rewrite Hor, Hmk, Hac. cbn [mbind outcome_bind]. eexists. split; [done|]. split; [done|].
  intros gone. unfold rep_list. rewrite fmap_length, delete_length by done.
  split; cbn [cnum cmark cact corig cupd cprops].
  - done.
  - rewrite <- list_fmap_compose. rewrite <- fmap_delete. by apply list_fmap_ext.
  - rewrite <- list_fmap_compose. rewrite <- fmap_delete. by apply list_fmap_ext.
  - destruct d; [done|..]; cbn [has_orig]; unfold align; rewrite <- fmap_delete, <- !list_fmap_compose;
      apply list_fmap_ext; intros ? x _; cbn; by rewrite <- renumber_align1.
  - intros k. fold I. rewrite (align_map_spec _ _ i _ Hu Huo Hi).
    rewrite <- fmap_delete, <- !list_fmap_compose. f_equal. f_equal.
    apply list_fmap_ext. intros ? x _. cbn. by rewrite decide_True.
  - intros k s Hk. eapply (renumber_upd_ok i); [done|exact Huo|].
    rewrite <- Hk, <- fmap_delete, <- !list_fmap_compose. f_equal.
    apply list_fmap_ext. intros ? x _. cbn. by rewrite decide_True.
  - replace (ac_prop <$> (renumber_cell d I gone d <$> delete i cs)) with (delete i (ac_prop <$> cs)); [done|].
    rewrite <- list_fmap_compose. rewrite <- fmap_delete. by apply list_fmap_ext.
Qed.

Lemma src_ne_tgt r : src r <> tgt r.
Proof. by destruct r. Qed.

Definition row_gone (r : rel) (gone : N) : N := if is_neighbour r then UINT_MAX else gone.

Lemma represents_remove m m' a d i :
  let I := N.of_nat i in
  let gone := N.of_nat (anum d a - 1) in
  represents m a -> i < anum d a ->
  mdim m' = mdim m ->
  rep_list d (mcells m' d) (renumber_cell d I gone d <$> delete i (am_cells a d)) (am_names a d) ->
  (forall d', d' <> d -> mcells m' d' = mcells m d') ->
  (forall r, src r = d -> csr_rep (mrel m' r) (delete i (row_of r <$> am_cells a d))) ->
  (forall r, tgt r = d -> r <> S2 -> mrel m' r = csr_align I (row_gone r gone) (mrel m r)) ->
  (forall r, src r <> d -> tgt r <> d \/ r = S2 -> mrel m' r = mrel m r) ->
  mcoord m' = (if decide (d = D0) then concat (delete i (ac_geo <$> am_cells a D0)) else mcoord m) ->
  mext m' = (if decide (d = D1) then concat (delete i (ac_geo <$> am_cells a D1))
             else if decide (d = D0) then align I gone (mext m) else mext m) ->
  represents m' (aremove d i a).
Proof.
  intros I gone H Hi Hd Hc Hc' Hr Hrt Hro Hx He.
  split; cbn [aremove am_dim am_cells am_names].
  - rewrite Hd. apply H.
  - intros d'. destruct (decide (d = d')) as [<-|E]; [apply Hc|].
    rewrite Hc' by done. eapply same_base_rep; [|apply (r_cells _ _ H)].
    unfold same_base. rewrite <- !list_fmap_compose.
    split_and!; apply list_fmap_ext; intros ? x _; cbn; try done.
    + rewrite decide_False; [done|]. by intros [? _].
    + by rewrite decide_False.
  - intros r. destruct (decide (d = src r)) as [E|E].
    + subst d. pose proof (Hr r eq_refl) as Hrr. rewrite <- fmap_delete in Hrr.
      rewrite <- list_fmap_compose. erewrite list_fmap_ext; [exact Hrr|].
      intros ? x _. cbn. unfold row_of, renumber_cell, renumber_row. cbn. rewrite decide_False; [done|].
      intros [? _]. by apply (src_ne_tgt r).
    + destruct (decide (tgt r = d /\ r <> S2)) as [[E2 E3]|E2].
      * rewrite Hrt by done. rewrite <- list_fmap_compose.
        pose proof (csr_align_spec _ _ I (row_gone r gone) (r_rel _ _ H r)) as Hal.
        unfold map_rows in Hal. rewrite <- list_fmap_compose in Hal.
        erewrite list_fmap_ext; [exact Hal|].
        intros ? x _. cbn. unfold row_of, renumber_cell, renumber_row. cbn. rewrite decide_True by done.
        apply list_fmap_ext. intros ? v _. apply renumber_align1.
      * rewrite Hro; [|done|].
        -- rewrite <- list_fmap_compose. erewrite list_fmap_ext; [apply (r_rel _ _ H r)|].
           intros ? x _. cbn. unfold row_of, renumber_cell, renumber_row. cbn. by rewrite decide_False.
        -- destruct (decide (tgt r = d)); [|by left]. right. destruct (decide (r = S2)); [done|]. tauto.
  - rewrite Hx. destruct (decide (d = D0)) as [->|E].
    + rewrite <- fmap_delete, <- list_fmap_compose. done.
    + rewrite (r_coord _ _ H), <- list_fmap_compose. f_equal. apply list_fmap_ext. intros ? x _. cbn.
      rewrite decide_False; [done|]. by intros [? _].
  - rewrite He. destruct (decide (d = D1)) as [->|E].
    + rewrite <- fmap_delete, <- list_fmap_compose. done.
    + destruct (decide (d = D0)) as [->|E2].
      * rewrite (r_ext _ _ H), <- list_fmap_compose. unfold align. rewrite <- concat_fmap. f_equal.
        unfold map_rows. rewrite <- list_fmap_compose. apply list_fmap_ext. intros ? x _. cbn.
        apply list_fmap_ext. intros ? v _. symmetry. apply renumber_align1.
      * rewrite (r_ext _ _ H), <- list_fmap_compose. f_equal. apply list_fmap_ext. intros ? x _. cbn.
        rewrite decide_False; [done|]. by intros [? _].
  - intros d'. apply Forall_fmap.
    assert (HF : Forall (fun x => length (ac_geo x) = geo_size d')
              (if decide (d = d') then delete i (am_cells a d') else am_cells a d')).
    { pose proof (r_geo _ _ H d') as HF. apply Forall_fmap in HF.
      destruct (decide (d = d')); [|exact HF].
      rewrite delete_take_drop. apply Forall_app. split; [by apply Forall_take|by apply Forall_drop]. }
    apply Forall_fmap. eapply Forall_impl; [exact HF|]. intros x Hl. cbn.
    destruct (decide (d = D0 /\ d' = D1)); [by rewrite fmap_length|done].
Qed.

Lemma remove_row_spec m a r i m' :
  represents m a -> i < anum (src r) a -> mrel m' r = mrel m r ->
  exists c, remove_row r (anum (src r) a) i m' = Ok (set_rel r c m') /\
    csr_rep c (delete i (row_of r <$> am_cells a (src r))).
Proof.
  intros H Hi E. destruct (csr_remove_row_spec _ _ i 0%N (r_rel _ _ H r)) as (c & Hc & Hr);
    [by rewrite fmap_length|]. rewrite fmap_length in Hc.
  exists c. unfold remove_row. rewrite E. unfold anum. by rewrite Hc.
Qed.

Lemma sim_Remove m a d i : represents m a -> sim (CellRemove d i m) (astep a (ORemove d i)).
Proof.
  intros H. cbn [astep]. destruct (decide (i < anum d a)) as [Hi|Hi].
  2: { assert (Hf : (i <? num d m) = false) by (rewrite (rep_num m a d H); lia).
       destruct d; cbn [CellRemove]; unfold Cell0DRemove, Cell1DRemove, Cell2DRemove, Cell3DRemove;
         by rewrite require_false. }
  assert (Ht : (i <? num d m) = true) by (rewrite (rep_num m a d H); lia).
  destruct (remove_cells_spec d (mcells m d) (am_cells a d) (am_names a d) i (r_cells _ _ H d) Hi)
    as (c' & Hc' & Hnum & Hrep).
  pose proof (fun r => remove_row_spec m a r i) as Hrow.
  destruct d; cbn [CellRemove has_orig] in *.
  - unfold Cell0DRemove. rewrite require_true by done. rewrite (rep_num m a D0 H).
    edestruct (Hrow R01) as (c1 & Hc1 & Hr1); [exact H|exact Hi| |rewrite Hc1; cbn [mbind outcome_bind]]; [done|].
    edestruct (Hrow R02) as (c2 & Hc2 & Hr2); [exact H|exact Hi| |rewrite Hc2; cbn [mbind outcome_bind]]; [done|].
    edestruct (Hrow R03) as (c3 & Hc3 & Hr3); [exact H|exact Hi| |rewrite Hc3; cbn [mbind outcome_bind]]; [done|].
    assert (Hx : verase_range (mcoord m) (3 * i) (3 * i + 3) = Ok (concat (delete i (ac_geo <$> am_cells a D0)))).
    { rewrite (r_coord _ _ H). apply (uniform_erase 3); [apply (r_geo _ _ H D0)|by rewrite fmap_length]. }
    cbn [set_rel mcoord mcells]. rewrite Hx. cbn [mbind outcome_bind].
    cbn [set_coord set_rel mcoord mcells]. rewrite Hc'. cbn [mbind outcome_bind sim].
    eapply represents_remove; [exact H|exact Hi|reflexivity|apply Hrep|..].
    + intros [] ?; done.
    + intros [] ?; done.
    + intros [] ? ?; try done; cbn; by rewrite Hnum.
    + intros [] ? [?|?]; done.
    + done.
    + first [done|cbn; by rewrite Hnum].
  - unfold Cell1DRemove. rewrite require_true by done. rewrite (rep_num m a D1 H).
    edestruct (Hrow R12) as (c1 & Hc1 & Hr1); [exact H|exact Hi| |rewrite Hc1; cbn [mbind outcome_bind]]; [done|].
    edestruct (Hrow R13) as (c2 & Hc2 & Hr2); [exact H|exact Hi| |rewrite Hc2; cbn [mbind outcome_bind]]; [done|].
    assert (Hx : verase_range (mext m) (2 * i) (2 * i + 2) = Ok (concat (delete i (ac_geo <$> am_cells a D1)))).
    { rewrite (r_ext _ _ H). apply (uniform_erase 2); [apply (r_geo _ _ H D1)|by rewrite fmap_length]. }
    cbn [set_rel mext mcells]. rewrite Hx. cbn [mbind outcome_bind].
    cbn [set_ext set_rel mext mcells]. rewrite Hc'. cbn [mbind outcome_bind sim].
    eapply represents_remove; [exact H|exact Hi|reflexivity|apply Hrep|..].
    + intros [] ?; done.
    + intros [] ?; done.
    + intros [] ? ?; try done; cbn; by rewrite Hnum.
    + intros [] ? [?|?]; done.
    + done.
    + first [done|cbn; by rewrite Hnum].
  - unfold Cell2DRemove. rewrite require_true by done. rewrite (rep_num m a D2 H).
    edestruct (Hrow R23) as (c1 & Hc1 & Hr1); [exact H|exact Hi| |rewrite Hc1; cbn [mbind outcome_bind]]; [done|].
    edestruct (Hrow V2) as (c2 & Hc2 & Hr2); [exact H|exact Hi| |rewrite Hc2; cbn [mbind outcome_bind]]; [done|].
    edestruct (Hrow E2) as (c3 & Hc3 & Hr3); [exact H|exact Hi| |rewrite Hc3; cbn [mbind outcome_bind]]; [done|].
    edestruct (Hrow S2) as (c4 & Hc4 & Hr4); [exact H|exact Hi| |rewrite Hc4; cbn [mbind outcome_bind]]; [done|].
    cbn [set_rel mcells]. rewrite Hc'. cbn [mbind outcome_bind sim].
    eapply represents_remove; [exact H|exact Hi|reflexivity|apply Hrep|..].
    + intros [] ?; done.
    + intros [] ?; done.
    + intros [] ? ?; try done; cbn; by rewrite Hnum.
    + intros [] ? [?|?]; done.
    + done.
    + first [done|cbn; by rewrite Hnum].
  - unfold Cell3DRemove. rewrite require_true by done. rewrite (rep_num m a D3 H).
    edestruct (Hrow V3) as (c1 & Hc1 & Hr1); [exact H|exact Hi| |rewrite Hc1; cbn [mbind outcome_bind]]; [done|].
    edestruct (Hrow E3) as (c2 & Hc2 & Hr2); [exact H|exact Hi| |rewrite Hc2; cbn [mbind outcome_bind]]; [done|].
    edestruct (Hrow F3) as (c3 & Hc3 & Hr3); [exact H|exact Hi| |rewrite Hc3; cbn [mbind outcome_bind]]; [done|].
    cbn [set_rel mcells]. rewrite Hc'. cbn [mbind outcome_bind sim].
    eapply represents_remove; [exact H|exact Hi|reflexivity|apply Hrep|..].
    + intros [] ?; done.
    + intros [] ?; done.
    + intros [] ? ?; try done; cbn; by rewrite Hnum.
    + intros [] ? [?|?]; done.
    + done.
    + first [done|cbn; by rewrite Hnum].
Qed.
