(** Transposition, edge lists, sub-graphs, strongly connected components. *)
From stdpp Require Import relations.
From Verif Require Import Base BaseProof GraphModel GraphSpec GraphProof GraphProof2.

(** ** Pushing into rows *)

Lemma vpush_ok {A} (l : list (list A)) i a row : l !! i = Some row -> vpush l i a = Ok (<[i := row ++ [a]]> l).
Proof.
  intros Hi. unfold vpush. rewrite (vget_Ok _ _ _ Hi). cbn [mbind outcome_bind]. unfold vset.
  rewrite decide_True by (by eapply lookup_lt_Some). done.
Qed.

Lemma push_all_spec (v : nat) adj : forall acc : list (list nat), Forall (fun w => w < length acc) adj ->
  exists acc', ofold (fun acc w => vpush acc w v) adj acc = Ok acc' /\ length acc' = length acc /\
    forall w row, acc !! w = Some row -> acc' !! w = Some (row ++ replicate (count_occ PeanoNat.Nat.eq_dec adj w) v).
Proof.
  induction adj as [|x adj IH]; intros acc Hadj; cbn [ofold].
  - exists acc. split_and!; try done. intros w row Hw. cbn. by rewrite app_nil_r.
  - inversion Hadj as [|? ? Hx Hadj']; subst. destruct (lookup_lt_is_Some_2 acc x Hx) as [rx Hrx].
    rewrite (vpush_ok _ _ _ _ Hrx). cbn [mbind outcome_bind].
    destruct (IH (<[x := rx ++ [v]]> acc)) as (acc' & E & Hl & Hrow); [by rewrite insert_length|].
    exists acc'. rewrite insert_length in Hl. split_and!; try done. intros w row Hw. cbn [count_occ].
    destruct (PeanoNat.Nat.eq_dec x w) as [->|Hne].
    + rewrite Hrx in Hw. injection Hw as ->.
      rewrite (Hrow w (row ++ [v])) by (by apply list_lookup_insert). by rewrite <- app_assoc.
    + apply Hrow. by rewrite list_lookup_insert_ne.
Qed.

(** Row [w] of the transpose, for vertices numbered from [v]. *)
Fixpoint incoming (v : nat) (rows : graph) (w : nat) : list nat :=
  match rows with
  | [] => []
  | adj :: rows' => replicate (count_occ PeanoNat.Nat.eq_dec adj w) v ++ incoming (S v) rows' w
  end.

Lemma transpose_from_spec rows : forall v (acc : list (list nat)), Forall (Forall (fun w => w < length acc)) rows ->
  exists acc', transpose_from v rows acc = Ok acc' /\ length acc' = length acc /\
    forall w row, acc !! w = Some row -> acc' !! w = Some (row ++ incoming v rows w).
Proof.
  induction rows as [|adj rows IH]; intros v acc Hr; cbn [transpose_from incoming].
  - exists acc. split_and!; try done. intros w row Hw. by rewrite app_nil_r.
  - inversion Hr as [|? ? Ha Hr']; subst. destruct (push_all_spec v adj acc Ha) as (acc1 & E1 & Hl1 & Hrow1).
    rewrite E1. cbn [mbind outcome_bind]. destruct (IH (S v) acc1) as (acc' & E & Hl & Hrow).
    { by rewrite Hl1. }
    exists acc'. split_and!; [done|lia|]. intros w row Hw. rewrite app_assoc. apply Hrow. by apply Hrow1.
Qed.

Lemma transpose_spec g :
  graph_ok g -> exists t, ComputeAdjacencyTranspose g = Ok t /\ length t = length g /\
    forall w, w < length g -> t !! w = Some (incoming 0 g w).
Proof.
  intros Hg. destruct (transpose_from_spec g 0 (replicate (length g) [])) as (t & E & Hl & Hrow).
  { by rewrite replicate_length. }
  rewrite replicate_length in Hl. exists t. split_and!; try done. intros w Hw.
  rewrite (Hrow w []); [done|]. by apply lookup_replicate_2.
Qed.

Lemma incoming_count rows v w u :
  count_occ PeanoNat.Nat.eq_dec (incoming v rows w) u = if decide (v <= u) then mult rows (u - v) w else 0.
Proof.
  revert v. induction rows as [|adj rows IH]; intros v; cbn [incoming].
  - unfold mult. cbn. by case_decide.
  - rewrite count_occ_app, IH.
    assert (Hc : count_occ PeanoNat.Nat.eq_dec (replicate (count_occ PeanoNat.Nat.eq_dec adj w) v) u =
                 if decide (v = u) then count_occ PeanoNat.Nat.eq_dec adj w else 0).
    { generalize (count_occ PeanoNat.Nat.eq_dec adj w). intros n. destruct (decide (v = u)) as [->|Hne].
      - induction n as [|n IHn]; [done|]. cbn [replicate]. rewrite count_occ_cons_eq by done. by rewrite IHn.
      - induction n as [|n IHn]; [done|]. cbn [replicate]. by rewrite count_occ_cons_neq. }
    rewrite Hc. unfold mult. destruct (decide (v = u)) as [->|Hne].
    + rewrite Nat.sub_diag. rewrite (decide_False (P := S u <= u)) by lia. rewrite (decide_True (P := u <= u)) by lia. change ((adj :: rows) !! 0) with (Some adj). cbn [default]. unfold id. lia.
    + destruct (decide (S v <= u)) as [H1|H1].
      * rewrite decide_True by lia. replace (u - v) with (S (u - S v)) by lia. cbn. done.
      * rewrite decide_False by lia. done.
Qed.

Lemma transpose_mult g :
  graph_ok g -> exists t, ComputeAdjacencyTranspose g = Ok t /\ length t = length g /\ graph_ok t /\
    forall u w, u < length g -> w < length g -> mult t w u = mult g u w.
Proof.
  intros Hg. destruct (transpose_spec g Hg) as (t & E & Hl & Hrow). exists t.
  assert (Hm : forall u w, w < length g -> mult t w u = mult g u w).
  { intros u w Hw. unfold mult at 1. rewrite Hrow by done. cbn. rewrite incoming_count, decide_True by lia.
    by rewrite Nat.sub_0_r. }
  split_and!; try done.
  - unfold graph_ok. rewrite Hl. apply Forall_forall. intros row Hin. apply elem_of_list_lookup in Hin as [w Hw].
    apply Forall_forall. intros u Hu. pose proof (lookup_lt_Some _ _ _ Hw) as Hlt. rewrite Hl in Hlt.
    assert (Hpos : count_occ PeanoNat.Nat.eq_dec row u > 0) by (by apply count_occ_In, elem_of_list_In).
    specialize (Hm u w Hlt). unfold mult in Hm. rewrite Hw in Hm. cbn in Hm. rewrite Hm in Hpos.
    destruct (g !! u) as [a|] eqn:Hu'; [by eapply lookup_lt_Some|cbn in Hpos; lia].
  - intros u w _ Hw. by apply Hm.
Qed.

Lemma mult_edge g u w : edge g u w <-> 0 < mult g u w.
Proof.
  unfold edge, mult. split.
  - intros (adj & -> & Hw). cbn. by apply count_occ_In, elem_of_list_In.
  - intros Hp. destruct (g !! u) as [adj|]; cbn in Hp; [|lia]. exists adj. split; [done|].
    by apply elem_of_list_In, (count_occ_In PeanoNat.Nat.eq_dec).
Qed.

Lemma mult_out g u w : graph_ok g -> (length g <= u \/ length g <= w) -> mult g u w = 0.
Proof.
  intros Hg Hu. destruct (mult g u w) as [|k] eqn:E; [done|]. exfalso.
  assert (He : edge g u w) by (apply mult_edge; lia). apply (edge_lt g u w Hg) in He. lia.
Qed.

Lemma transpose_edge g t :
  graph_ok g -> ComputeAdjacencyTranspose g = Ok t -> graph_ok t /\ length t = length g /\ forall u w, edge t w u <-> edge g u w.
Proof.
  intros Hg E. destruct (transpose_mult g Hg) as (t' & E' & Hl & Ht & Hm). rewrite E in E'. injection E' as <-.
  split_and!; try done. intros u w. rewrite !mult_edge.
  destruct (decide (u < length g /\ w < length g)) as [[H1 H2]|Hn]; [by rewrite Hm|].
  rewrite (mult_out g u w), (mult_out t w u); try done; [rewrite Hl|]; lia.
Qed.

(** Transposing twice: every row is a permutation of the original one. *)
Lemma transpose_twice (g t t2 : list (list nat)) :
  graph_ok g -> ComputeAdjacencyTranspose g = Ok t -> ComputeAdjacencyTranspose t = Ok t2 ->
  Forall2 (fun r1 r2 => r1 ≡ₚ r2) t2 g.
Proof.
  intros Hg E1 E2. destruct (transpose_mult g Hg) as (t' & E' & Hl & Ht & Hm). rewrite E1 in E'. injection E' as <-.
  destruct (transpose_mult t Ht) as (t' & E' & Hl2 & Ht2 & Hm2). rewrite E2 in E'. injection E' as <-.
  apply Forall2_lookup. intros u.
  destruct (t2 !! u) as [r2|] eqn:H2, (g !! u) as [r1|] eqn:H1; try constructor.
  - apply (Permutation_count_occ PeanoNat.Nat.eq_dec). intros w.
    assert (Hu : u < length g) by (by eapply lookup_lt_Some).
    assert (Hr : mult t2 u w = mult g u w).
    { destruct (decide (w < length g)) as [Hw|Hw].
      - rewrite Hm2 by lia. by rewrite Hm.
      - rewrite !mult_out; try done; lia. }
    unfold mult in Hr. rewrite H1, H2 in Hr. done.
  - apply lookup_lt_Some in H2. apply lookup_ge_None_1 in H1. lia.
  - apply lookup_lt_Some in H1. apply lookup_ge_None_1 in H2. lia.
Qed.

(** ** Filling the stack *)

Lemma fill_all_search fuel g ws : forall vis pre post,
  ofold (fun st i => b ← vget st.1 i; if b : bool then Ok st else FillOrder fuel g i st) ws (vis, rev post) =
  (r ← ofold (search_step fuel g) ws (vis, pre, post); Ok (r.1.1, rev r.2)).
Proof.
  induction ws as [|w ws IH]; intros vis pre post; [done|]. cbn [ofold].
  unfold search_step at 2. cbn [fst snd].
  destruct (vget vis w) as [[]| | | |]; try done; cbn [mbind outcome_bind]; [apply IH|].
  rewrite fill_search. destruct (search fuel g w vis) as [[[vis1 pre1] post1]| | | |]; try done.
  cbn [mbind outcome_bind fst snd]. rewrite <- rev_app_distr. apply IH.
Qed.

Lemma top_finishes g fuel vis ws pre0 post0 vis' pre' post' :
  graph_ok g -> length vis = length g -> nfalse vis <= fuel -> Forall (fun w => w < length g) ws ->
  ofold (search_step fuel g) ws (vis, pre0, post0) = Ok (vis', pre', post') ->
  exists post, post' = post0 ++ post /\ forall B, gray_ok g vis B [] -> gray_ok g vis' (B ++ post) [] /\ ordered g B post.
Proof.
  intros Hg Hl Hn Hws. revert vis pre0 post0 Hl Hn.
  induction Hws as [|w ws Hw Hws IHa]; intros vis pre0 post0 Hl Hn E; cbn [ofold] in E.
  - injection E as <- <- <-. exists []. rewrite app_nil_r. split; [done|]. intros B HB. rewrite app_nil_r.
    split; [done|apply ordered_nil].
  - destruct (mark_cases vis w) as [Hm|Hm]; [lia| |].
    + rewrite (search_step_marked _ _ _ _ _ _ Hm) in E. cbn [mbind outcome_bind] in E. by eapply IHa.
    + rewrite (search_step_unmarked _ _ _ _ _ _ Hm) in E. apply bind_ok in E as (st & E1 & E2).
      apply bind_ok in E1 as ([[vis1 pre1] post1] & E0 & E1). injection E1 as <-. cbn [fst snd] in E2.
      pose proof (search_finishes g Hg fuel w vis _ Hl Hm Hn E0) as Hf1. cbn [fst snd] in Hf1.
      destruct (search_spec fuel g w vis Hg Hl Hm Hn) as (r & Er & [Hvi _]). rewrite E0 in Er. injection Er as <-. cbn [fst snd] in Hvi.
      assert (Hl1 : length vis1 = length g) by (by rewrite (vi_len _ _ _ _ _ _ Hvi)).
      assert (Hn1 : nfalse vis1 <= fuel).
      { etrans; [|exact Hn]. apply nfalse_le; [by rewrite Hl1|]. intros x Hx. apply (vi_marks _ _ _ _ _ _ Hvi). by left. }
      destruct (IHa vis1 _ _ Hl1 Hn1 E2) as (post & -> & Hf). exists (post1 ++ post). rewrite app_assoc.
      split; [done|]. intros B HB.
      destruct (Hf1 B [] HB) as [HG1 Ho1]. { intros z Hz. by apply not_elem_of_nil in Hz. }
      destruct (Hf (B ++ post1) HG1) as [HG2 Ho2]. rewrite app_assoc. split; [done|]. by apply ordered_app.
Qed.

Lemma fill_all_spec fuel g :
  graph_ok g -> length g <= fuel ->
  exists vis stack, fill_all fuel g = Ok (vis, stack) /\ stack ≡ₚ seq 0 (length g) /\
    forall l1 y l2 x, stack = l1 ++ y :: l2 -> reach g x y -> exists z, z ∈ l1 ++ [y] /\ mutual g z x.
Proof.
  intros Hg Hf.
  destruct (search_loop_spec fuel g (replicate (length g) false) (seq 0 (length g)) [] []) as (vis' & pre & post & E & Hvi & Hall).
  { apply replicate_length. }
  { apply Forall_forall. intros w Hw%elem_of_seq. lia. }
  { etrans; [apply nfalse_length|]. by rewrite replicate_length. }
  { intros w vis Hl Hu Hn. by apply search_spec. }
  cbn [app] in E. pose proof (fill_all_search fuel g (seq 0 (length g)) (replicate (length g) false) [] []) as Hs.
  rewrite E in Hs. cbn in Hs. unfold fill_all. rewrite Hs. exists vis', (rev post). split; [done|].
  assert (Hel : forall w, w ∈ post <-> w < length g).
  { intros w. split.
    - intros Hw. apply (vi_new _ _ _ _ _ _ Hvi) in Hw. apply unmarked_lt in Hw. by rewrite replicate_length in Hw.
    - intros Hw. assert (Hm : marked vis' w) by (apply Hall, elem_of_seq; lia).
      apply (vi_marks _ _ _ _ _ _ Hvi) in Hm as [Hm|Hm]; [|done]. unfold marked in Hm.
      rewrite lookup_replicate_2 in Hm by done. done. }
  split.
  { rewrite <- Permutation_rev. apply NoDup_Permutation; [apply (vi_nodup _ _ _ _ _ _ Hvi)|apply NoDup_seq|].
    intros w. rewrite Hel, elem_of_seq. lia. }
  destruct (top_finishes g fuel (replicate (length g) false) (seq 0 (length g)) [] [] vis' pre post) as (post1 & Ep & Hord); try done.
  { apply replicate_length. }
  { etrans; [apply nfalse_length|]. by rewrite replicate_length. }
  { apply Forall_forall. intros w Hw%elem_of_seq. lia. }
  cbn in Ep. subst post1.
  destruct (Hord []) as [_ Ho].
  { split_and!.
    - intros w. unfold marked. rewrite elem_of_nil. split; [|tauto]. intros Hw. pose proof (lookup_lt_Some _ _ _ Hw) as Hlt.
      rewrite replicate_length in Hlt. by rewrite lookup_replicate_2 in Hw.
    - intros w Hw. by apply not_elem_of_nil in Hw.
    - intros u w Hu. by apply not_elem_of_nil in Hu.
    - intros x y Hx. by apply not_elem_of_nil in Hx. }
  intros l1 y l2 x Es Hr. assert (Ep : post = rev l2 ++ y :: rev l1).
  { rewrite <- (rev_involutive post), Es, rev_app_distr. cbn. by rewrite <- app_assoc. }
  destruct (Ho _ _ _ Ep x Hr) as (z & Hz & _ & Hnz). exists z. split; [|done].
  assert (Hzp : z ∈ post).
  { apply Hel. assert (Hy : y < length g). { apply Hel. rewrite Ep, elem_of_app, elem_of_cons. tauto. }
    assert (Hzy : reach g z y) by (eapply rtc_transitive; [apply Hz|done]).
    inversion Hzy as [|? z' ? He _]; subst; [done|]. by apply (edge_lt g z z' Hg). }
  rewrite Ep in Hzp. rewrite elem_of_app, elem_of_cons in Hzp. rewrite elem_of_app, elem_of_list_singleton.
  destruct Hzp as [?|[?|Hz2]]; [done|tauto|]. left. by apply elem_of_list_In, in_rev, elem_of_list_In.
Qed.

(** ** Second phase *)

Definition comps_ok (g : graph) (n : nat) (done : list nat) (vis : list bool) (comps : list (list nat)) : Prop :=
  length vis = n /\
  (forall w, marked vis w <-> w < n /\ exists y, y ∈ done /\ mutual g y w) /\
  (forall w, marked vis w <-> w ∈ concat comps) /\
  NoDup (concat comps) /\
  (forall c, c ∈ comps -> c <> [] /\ exists y, forall w, w ∈ c <-> mutual g y w).

Lemma reach_lt g u w : graph_ok g -> reach g u w -> w < length g -> u < length g.
Proof. intros Hg Hr Hw. inversion Hr as [|? z ? He _]; subst; [done|]. by apply (edge_lt g u z Hg). Qed.

Lemma reach_transpose g t u w :
  (forall u w, edge t w u <-> edge g u w) -> reach t u w <-> reach g w u.
Proof.
  intros Ht. split; intros Hr.
  - induction Hr as [x|x y z He _ IH]; [apply rtc_refl|]. eapply rtc_r; [exact IH|]. by apply Ht.
  - induction Hr as [x|x y z He _ IH]; [apply rtc_refl|]. eapply rtc_r; [exact IH|]. by apply Ht.
Qed.

Lemma scc_loop_spec fuel g t stack :
  graph_ok g -> graph_ok t -> length t = length g -> length g <= fuel ->
  (forall u w, edge t w u <-> edge g u w) ->
  (forall w, w ∈ stack -> w < length g) ->
  (forall l1 y l2 x, stack = l1 ++ y :: l2 -> reach g x y -> exists z, z ∈ l1 ++ [y] /\ mutual g z x) ->
  exists vis comps, scc_loop fuel t stack (length g) = Ok (vis, comps) /\ comps_ok g (length g) stack vis comps.
Proof.
  intros Hg Ht Hlt Hf Hte Hstk Hord. unfold scc_loop.
  assert (Hgen : forall todo don vis comps, stack = don ++ todo -> comps_ok g (length g) don vis comps ->
    exists vis' comps',
      ofold (fun st v => b ← vget st.1 v; if b : bool then Ok st
           else r ← DepthFirstSearch fuel t v (st.1, []); Ok (r.1, st.2 ++ [r.2])) todo (vis, comps) = Ok (vis', comps') /\
      comps_ok g (length g) stack vis' comps').
  { induction todo as [|y todo IH]; intros don vis comps Es (Hl & Hm & Hc & Hnd & Hcs).
    - exists vis, comps. rewrite app_nil_r in Es. subst don. split; [done|]. by split_and!.
    - assert (Hy : y < length g). { apply Hstk. rewrite Es, elem_of_app, elem_of_cons. tauto. }
      cbn [ofold fst snd]. destruct (mark_cases vis y) as [Hmy|Hmy]; [lia| |]; rewrite (vget_Ok _ _ _ Hmy); cbn [mbind outcome_bind].
      + apply (IH (don ++ [y]) vis comps); [by rewrite <- app_assoc|]. split_and!; try done.
        intros w. rewrite Hm. split; intros (Hw & z & Hz & Hzm); (split; [done|]).
        * exists z. split; [|done]. apply elem_of_app. by left.
        * apply elem_of_app in Hz as [Hz|Hz]; [by exists z|]. apply elem_of_list_singleton in Hz as ->.
          apply Hm in Hmy as (_ & z & Hz & Hzy). exists z. split; [done|]. by eapply mutual_trans.
      + destruct (dfs_spec t y vis [] Ht) as (vis' & new & E & Hn & Hin & Hl' & Hm'); [lia|done|].
        rewrite E by lia. cbn [mbind outcome_bind fst snd app].
        assert (Hmut : forall w, w ∈ y :: new <-> mutual g y w).
        { intros w. rewrite Hin. split.
          - intros Hr. assert (Hwy : reach g w y).
            { apply (reach_transpose g t); [done|]. eapply rtc_subrel; [|exact Hr]. by intros ? ? [? _]. }
            assert (Huw : w = y \/ unmarked vis w).
            { apply rtc_inv_r in Hr. destruct Hr as [->|(z & _ & _ & Hu)]; [by left|by right]. }
            destruct Huw as [->|Huw]; [apply mutual_refl|].
            destruct (Hord don y todo w Es Hwy) as (z & Hz & Hzw).
            apply elem_of_app in Hz as [Hz|Hz].
            + exfalso. eapply mark_excl; [|exact Huw]. apply Hm. split; [by eapply reach_lt|]. by exists z.
            + by apply elem_of_list_singleton in Hz as ->.
          - intros [Hyw Hwy].
            assert (Hpath : forall x, reach t x w -> mutual g y x -> reach_in t (fun x => vis !! x = Some false) x w).
            { intros x Hr. induction Hr as [x|x x' w He Hr IHr]; intros Hmx; [apply rtc_refl|].
              assert (Hmx' : mutual g y x').
              { split.
                - eapply reach_trans; [exact Hyw|]. by apply (reach_transpose g t).
                - eapply rtc_l; [by apply Hte|]. apply Hmx. }
              eapply rtc_l; [|by apply IHr]. split; [done|].
              destruct (mark_cases vis x') as [Hmk|]; [|  |done].
              - rewrite Hl, <- Hlt. by apply (edge_lt t x x' Ht).
              - exfalso. apply Hm in Hmk as (_ & z & Hz & Hzx). eapply mark_excl; [|exact Hmy]. apply Hm. split; [done|].
                exists z. split; [done|]. eapply mutual_trans; [done|]. by apply mutual_sym. }
            apply Hpath; [|apply mutual_refl]. by apply (reach_transpose g t). }
        apply (IH (don ++ [y]) vis' (comps ++ [y :: new])); [by rewrite <- app_assoc|].
        split_and!.
        * lia.
        * intros w. unfold marked. rewrite Hm'. fold (marked vis w). rewrite Hm, Hmut. split.
          -- intros [(Hw & z & Hz & Hzm)|Hyw].
             ++ split; [done|]. exists z. split; [|done]. apply elem_of_app. by left.
             ++ split; [eapply reach_lt; [done|apply Hyw|done]|]. exists y. split; [|done].
                apply elem_of_app. right. by apply elem_of_list_singleton.
          -- intros (Hw & z & Hz & Hzm). apply elem_of_app in Hz as [Hz|Hz]; [left; eauto|].
             apply elem_of_list_singleton in Hz as ->. by right.
        * intros w. unfold marked. rewrite Hm'. fold (marked vis w). rewrite Hc, concat_app, elem_of_app. cbn. rewrite app_nil_r. done.
        * rewrite concat_app. cbn. rewrite app_nil_r. apply NoDup_app. split_and!; [done| |done].
          intros w Hw1 Hw2. apply Hc, Hm in Hw1 as (_ & z & Hz & Hzw). apply Hmut in Hw2.
          eapply mark_excl; [|exact Hmy]. apply Hm. split; [done|]. exists z. split; [done|].
          eapply mutual_trans; [done|]. by apply mutual_sym.
        * intros c [Hcin|Hcin]%elem_of_app; [by apply Hcs|]. apply elem_of_list_singleton in Hcin as ->.
          split; [done|]. by exists y. }
  apply (Hgen stack [] (replicate (length g) false) []); [done|].
  split_and!.
  - apply replicate_length.
  - intros w. unfold marked. split; [|intros (_ & y & Hy & _); by apply not_elem_of_nil in Hy].
    intros Hw. pose proof (lookup_lt_Some _ _ _ Hw) as Hl. rewrite replicate_length in Hl. by rewrite lookup_replicate_2 in Hw.
  - intros w. cbn. rewrite elem_of_nil. split; [|done]. unfold marked. intros Hw.
    pose proof (lookup_lt_Some _ _ _ Hw) as Hl. rewrite replicate_length in Hl. by rewrite lookup_replicate_2 in Hw.
  - constructor.
  - intros c Hc. by apply not_elem_of_nil in Hc.
Qed.

Lemma elem_of_concat_nat (v : nat) (ks : list (list nat)) : v ∈ concat ks <-> exists l, v ∈ l /\ l ∈ ks.
Proof.
  rewrite elem_of_list_In, in_concat. setoid_rewrite elem_of_list_In. split; intros (l & H1 & H2); eauto.
Qed.

Lemma scc_spec g :
  graph_ok g ->
  exists comps, (forall fuel, length g <= fuel -> ComputeStronglyConnectedComponents fuel g = Ok comps) /\
    concat comps ≡ₚ seq 0 (length g) /\ (forall c, c ∈ comps -> c <> []) /\
    forall u w, u < length g -> w < length g -> (exists c, c ∈ comps /\ u ∈ c /\ w ∈ c) <-> mutual g u w.
Proof.
  intros Hg. destruct (transpose_mult g Hg) as (t & Et & _).
  destruct (transpose_edge g t Hg Et) as (Ht & Hlt & Hte).
  (* the components found with the smallest fuel are those found with any larger one *)
  assert (Hall : forall fuel, length g <= fuel -> exists comps, ComputeStronglyConnectedComponents fuel g = Ok comps /\
    concat comps ≡ₚ seq 0 (length g) /\ (forall c, c ∈ comps -> c <> []) /\
    forall u w, u < length g -> w < length g -> (exists c, c ∈ comps /\ u ∈ c /\ w ∈ c) <-> mutual g u w).
  { intros fuel Hf. destruct (fill_all_spec fuel g Hg Hf) as (vis & stack & E & Hp & Hord).
    assert (Hst : forall w, w ∈ stack <-> w < length g). { intros w. rewrite Hp, elem_of_seq. lia. }
    destruct (scc_loop_spec fuel g t stack Hg Ht Hlt Hf Hte) as (vis2 & comps & E2 & Hl & Hm & Hc & Hnd & Hcs).
    { intros w. by apply Hst. }
    { done. }
    exists comps. unfold ComputeStronglyConnectedComponents. rewrite E. cbn [mbind outcome_bind snd]. rewrite Et.
    cbn [mbind outcome_bind]. rewrite E2. split; [done|].
    assert (Hel : forall w, w ∈ concat comps <-> w < length g).
    { intros w. rewrite <- Hc, Hm. split; [tauto|]. intros Hw. split; [done|]. exists w. split; [by apply Hst|apply mutual_refl]. }
    split; [|split].
    - apply NoDup_Permutation; [done|apply NoDup_seq|]. intros w. rewrite Hel, elem_of_seq. lia.
    - intros c Hcin. by apply Hcs.
    - intros u w Hu Hw. split.
      + intros (c & Hcin & Huc & Hwc). destruct (Hcs c Hcin) as (_ & y & Hy). apply Hy in Huc, Hwc.
        eapply mutual_trans; [by apply mutual_sym|done].
      + intros Huw. apply Hel, elem_of_concat_nat in Hu as (c & Huc & Hcin). exists c. split; [done|]. split; [done|].
        destruct (Hcs c Hcin) as (_ & y & Hy). apply Hy. apply Hy in Huc. by eapply mutual_trans. }
  destruct (Hall (length g) (Nat.le_refl _)) as (comps & E & H1 & H2 & H3). exists comps. split_and!; try done.
  intros fuel Hf. 
  assert (Hdfs : forall v st r, DepthFirstSearch (length g) t v st = Ok r -> DepthFirstSearch fuel t v st = Ok r).
  { intros v [vis acc] r. rewrite !dfs_search. intros (q & Hq & Hr)%bind_ok. apply bind_ok. exists q. split; [|done].
    by eapply search_mono. }
  assert (Hfill : forall v st r, FillOrder (length g) g v st = Ok r -> FillOrder fuel g v st = Ok r).
  { intros v [vis acc] r. rewrite !fill_search. intros (q & Hq & Hr)%bind_ok. apply bind_ok. exists q. split; [|done].
    by eapply search_mono. }
  assert (Hof : forall {A B} (f h : B -> A -> outcome B) l b b', (forall b x b', f b x = Ok b' -> h b x = Ok b') ->
    ofold f l b = Ok b' -> ofold h l b = Ok b').
  { clear. intros A B f h l. induction l as [|x l IH]; intros b b' Hfh; cbn; [done|].
    intros (b1 & H1 & H2)%bind_ok. apply bind_ok. exists b1. split; [by apply Hfh|by apply IH]. }
  unfold ComputeStronglyConnectedComponents in *. apply bind_ok in E as (vs & E1 & E). apply bind_ok in E as (t' & E2 & E).
  apply bind_ok in E as (r & E3 & E). rewrite Et in E2. injection E2 as <-.
  apply bind_ok. exists vs. split.
  { unfold fill_all in *. eapply Hof; [|exact E1]. intros b x b' (bb & Hb & Hr)%bind_ok. apply bind_ok. exists bb.
    split; [done|]. destruct bb; [done|]. by apply Hfill. }
  apply bind_ok. exists t. split; [done|]. apply bind_ok. exists r. split; [|done].
  unfold scc_loop in *. eapply Hof; [|exact E3]. intros b x b' (bb & Hb & Hr)%bind_ok. apply bind_ok. exists bb.
  split; [done|]. destruct bb; [done|]. apply bind_ok in Hr as (q & Hq & Hr). apply bind_ok. exists q. split; [|done].
  by apply Hdfs.
Qed.
