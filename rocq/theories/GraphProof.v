(** Depth-first search: totality, soundness, completeness, finishing order. *)
From Verif Require Import Base BaseProof GraphModel GraphSpec.
From stdpp Require Import relations.

(** ** One traversal computing both orders *)

Fixpoint search (fuel : nat) (g : graph) (v : nat) (vis : list bool) : outcome (list bool * list nat * list nat) :=
  match fuel with
  | 0 => OutOfFuel
  | S fuel' =>
      vis1 ← vset vis v true;
      adj ← vget g v;
      r ← ofold (fun st w => b ← vget st.1.1 w;
                   if b : bool then Ok st
                   else q ← search fuel' g w st.1.1; Ok (q.1.1, st.1.2 ++ q.1.2, st.2 ++ q.2)) adj (vis1, [], []);
      Ok (r.1.1, v :: r.1.2, r.2 ++ [v])
  end.

Definition search_step (fuel : nat) (g : graph) (st : list bool * list nat * list nat) (w : nat) :=
  b ← vget st.1.1 w;
  if b : bool then Ok st else q ← search fuel g w st.1.1; Ok (q.1.1, st.1.2 ++ q.1.2, st.2 ++ q.2).

Lemma search_S fuel g v vis :
  search (S fuel) g v vis =
    (vis1 ← vset vis v true; adj ← vget g v; r ← ofold (search_step fuel g) adj (vis1, [], []);
     Ok (r.1.1, v :: r.1.2, r.2 ++ [v])).
Proof. reflexivity. Qed.

Lemma dfs_search fuel g v vis acc :
  DepthFirstSearch fuel g v (vis, acc) = (r ← search fuel g v vis; Ok (r.1.1, acc ++ r.1.2)).
Proof.
  revert v vis acc. induction fuel as [|fuel IH]; intros v vis acc; [done|].
  cbn [DepthFirstSearch search fst snd]. destruct (vset vis v true) as [vis1| | | |]; try done. cbn [mbind outcome_bind].
  destruct (vget g v) as [adj| | | |]; try done. cbn [mbind outcome_bind].
  assert (Hloop : forall adj vis1 pre post,
    ofold (fun st w => b ← vget st.1 w; if b : bool then Ok st else DepthFirstSearch fuel g w st) adj (vis1, (acc ++ [v]) ++ pre) =
    (r ← ofold (fun st w => b ← vget st.1.1 w;
                   if b : bool then Ok st
                   else q ← search fuel g w st.1.1; Ok (q.1.1, st.1.2 ++ q.1.2, st.2 ++ q.2)) adj (vis1, pre, post);
     Ok (r.1.1, (acc ++ [v]) ++ r.1.2))).
  { clear adj vis1. induction adj as [|w adj IHa]; intros vis1 pre post; [done|].
    cbn [ofold fst snd]. destruct (vget vis1 w) as [[]| | | |]; try done; cbn [mbind outcome_bind]; [apply IHa|].
    rewrite IH. destruct (search fuel g w vis1) as [[[vis2 pre2] post2]| | | |]; try done. cbn [mbind outcome_bind fst snd].
    rewrite <- app_assoc. apply IHa. }
  specialize (Hloop adj vis1 [] []). rewrite app_nil_r in Hloop. rewrite Hloop.
  destruct (ofold _ adj (vis1, [], [])) as [[[vis2 pre2] post2]| | | |]; try done. cbn. by rewrite <- app_assoc.
Qed.

Lemma fill_search fuel g v vis st :
  FillOrder fuel g v (vis, st) = (r ← search fuel g v vis; Ok (r.1.1, rev r.2 ++ st)).
Proof.
  revert v vis st. induction fuel as [|fuel IH]; intros v vis st; [done|].
  cbn [FillOrder search fst snd]. destruct (vset vis v true) as [vis1| | | |]; try done. cbn [mbind outcome_bind].
  destruct (vget g v) as [adj| | | |]; try done. cbn [mbind outcome_bind].
  assert (Hloop : forall adj vis1 pre post,
    ofold (fun st w => b ← vget st.1 w; if b : bool then Ok st else FillOrder fuel g w st) adj (vis1, rev post ++ st) =
    (r ← ofold (fun st w => b ← vget st.1.1 w;
                   if b : bool then Ok st
                   else q ← search fuel g w st.1.1; Ok (q.1.1, st.1.2 ++ q.1.2, st.2 ++ q.2)) adj (vis1, pre, post);
     Ok (r.1.1, rev r.2 ++ st))).
  { clear adj vis1. induction adj as [|w adj IHa]; intros vis1 pre post; [done|].
    cbn [ofold fst snd]. destruct (vget vis1 w) as [[]| | | |]; try done; cbn [mbind outcome_bind]; [apply IHa|].
    rewrite IH. destruct (search fuel g w vis1) as [[[vis2 pre2] post2]| | | |]; try done. cbn [mbind outcome_bind fst snd].
    rewrite app_assoc, <- rev_app_distr. apply IHa. }
  specialize (Hloop adj vis1 [] []). cbn [rev app] in Hloop. rewrite Hloop.
  destruct (ofold _ adj (vis1, [], [])) as [[[vis2 pre2] post2]| | | |]; try done. cbn [mbind outcome_bind fst snd].
  rewrite rev_app_distr. done.
Qed.

(** ** Marks *)

Definition marked (vis : list bool) (w : nat) : Prop := vis !! w = Some true.
Definition unmarked (vis : list bool) (w : nat) : Prop := vis !! w = Some false.
Definition nfalse (vis : list bool) : nat := count_occ bool_dec vis false.

Lemma nfalse_mark vis v : unmarked vis v -> S (nfalse (<[v := true]> vis)) = nfalse vis.
Proof.
  unfold unmarked, nfalse. revert v. induction vis as [|b vis IH]; intros [|v] Hv; try done.
  - injection Hv as ->. done.
  - specialize (IH v Hv). change (<[S v := true]> (b :: vis)) with (b :: <[v := true]> vis). cbn [count_occ].
    destruct (bool_dec b false); lia.
Qed.

Lemma nfalse_le vis vis' :
  length vis' = length vis -> (forall w, marked vis w -> marked vis' w) -> nfalse vis' <= nfalse vis.
Proof.
  unfold marked, nfalse. revert vis'. induction vis as [|b vis IH]; intros [|b' vis'] Hl Hm; try done; cbn in *.
  assert (Hr : count_occ bool_dec vis' false <= count_occ bool_dec vis false).
  { apply IH; [lia|]. intros w. exact (Hm (S w)). }
  specialize (Hm 0). cbn in Hm. destruct b, b'; cbn; try lia. specialize (Hm eq_refl). congruence.
Qed.

Lemma marked_insert vis v w : v < length vis -> marked (<[v := true]> vis) w <-> w = v \/ marked vis w.
Proof.
  unfold marked. intros Hv. destruct (decide (w = v)) as [->|E].
  - rewrite list_lookup_insert by done. tauto.
  - rewrite list_lookup_insert_ne by done. tauto.
Qed.

Lemma unmarked_lt vis v : unmarked vis v -> v < length vis.
Proof. apply lookup_lt_Some. Qed.

Lemma mark_cases vis w : w < length vis -> marked vis w \/ unmarked vis w.
Proof. intros Hw. destruct (lookup_lt_is_Some_2 vis w Hw) as [[] Hb]; [by left|by right]. Qed.

Lemma mark_excl vis w : marked vis w -> unmarked vis w -> False.
Proof. unfold marked, unmarked. congruence. Qed.

(** ** What a traversal (from the vertices satisfying [root]) does *)

Record visits (g : graph) (root : nat -> Prop) (vis vis' : list bool) (pre post : list nat) : Prop := {
  vi_len : length vis' = length vis;
  vi_perm : pre ≡ₚ post;
  vi_nodup : NoDup post;
  vi_marks : forall w, marked vis' w <-> marked vis w \/ w ∈ post;
  vi_new : forall w, w ∈ post -> unmarked vis w;
  vi_sound : forall w, w ∈ post -> exists r, root r /\ unmarked vis r /\ reach_in g (unmarked vis) r w;
  vi_closed : forall u w, u ∈ post -> edge g u w -> marked vis' w
}.

Lemma unmarked_back g root vis vis' pre post w :
  visits g root vis vis' pre post -> unmarked vis' w -> unmarked vis w.
Proof.
  intros H Hw. destruct (mark_cases vis w) as [Hm|]; [rewrite <- (vi_len _ _ _ _ _ _ H); by apply unmarked_lt| |done].
  exfalso. eapply mark_excl; [|exact Hw]. apply (vi_marks _ _ _ _ _ _ H). by left.
Qed.

Lemma reach_in_mono g (P Q : nat -> Prop) u w : (forall x, P x -> Q x) -> reach_in g P u w -> reach_in g Q u w.
Proof. intros HPQ. unfold reach_in. apply rtc_subrel. intros x y [He HP]. split; [done|by apply HPQ]. Qed.

Lemma visits_nil g root vis : visits g root vis vis [] [].
Proof. split; try done; try (intros; by apply not_elem_of_nil in H); [constructor|]. intros w. rewrite elem_of_nil. tauto. Qed.

Lemma visits_app g root vis1 vis2 vis3 pre1 post1 pre2 post2 :
  visits g root vis1 vis2 pre1 post1 -> visits g root vis2 vis3 pre2 post2 ->
  visits g root vis1 vis3 (pre1 ++ pre2) (post1 ++ post2).
Proof.
  intros H1 H2. split.
  - rewrite (vi_len _ _ _ _ _ _ H2). apply (vi_len _ _ _ _ _ _ H1).
  - by rewrite (vi_perm _ _ _ _ _ _ H1), (vi_perm _ _ _ _ _ _ H2).
  - apply NoDup_app. split_and!; [apply (vi_nodup _ _ _ _ _ _ H1)| |apply (vi_nodup _ _ _ _ _ _ H2)].
    intros w Hw1 Hw2. apply (vi_new _ _ _ _ _ _ H2) in Hw2. eapply mark_excl; [|exact Hw2].
    apply (vi_marks _ _ _ _ _ _ H1). by right.
  - intros w. rewrite (vi_marks _ _ _ _ _ _ H2), (vi_marks _ _ _ _ _ _ H1), elem_of_app. tauto.
  - intros w [Hw|Hw]%elem_of_app; [by apply (vi_new _ _ _ _ _ _ H1)|].
    eapply unmarked_back; [exact H1|]. by apply (vi_new _ _ _ _ _ _ H2).
  - intros w [Hw|Hw]%elem_of_app; [by apply (vi_sound _ _ _ _ _ _ H1)|].
    destruct (vi_sound _ _ _ _ _ _ H2 w Hw) as (r & Hr & Hur & Hreach). exists r. split; [done|].
    split; [by eapply unmarked_back|]. eapply reach_in_mono; [|exact Hreach]. intros x. by eapply unmarked_back.
  - intros u w [Hu|Hu]%elem_of_app He; [|by eapply (vi_closed _ _ _ _ _ _ H2)].
    apply (vi_marks _ _ _ _ _ _ H2). left. by eapply (vi_closed _ _ _ _ _ _ H1).
Qed.

Lemma visits_root g (root root' : nat -> Prop) vis vis' pre post :
  (forall r, root r -> root' r) -> visits g root vis vis' pre post -> visits g root' vis vis' pre post.
Proof.
  intros Hr [H1 H2 H3 H4 H5 H6 H7]. split; try done. intros w Hw. destruct (H6 w Hw) as (r & ? & ?). eauto.
Qed.

Definition call_ok (g : graph) (v : nat) (vis : list bool) (r : list bool * list nat * list nat) : Prop :=
  visits g (fun x => x = v) vis r.1.1 r.1.2 r.2 /\ marked r.1.1 v.

Lemma edge_lt g u w : graph_ok g -> edge g u w -> u < length g /\ w < length g.
Proof.
  intros Hg (adj & Hu & Hw). split; [by eapply lookup_lt_Some|].
  unfold graph_ok in Hg. rewrite Forall_forall in Hg. specialize (Hg adj (elem_of_list_lookup_2 _ _ _ Hu)).
  rewrite Forall_forall in Hg. by apply Hg.
Qed.

Lemma search_step_marked fuel g vis pre post w : marked vis w -> search_step fuel g (vis, pre, post) w = Ok (vis, pre, post).
Proof. intros Hm. unfold search_step. cbn [fst snd]. by rewrite (vget_Ok _ _ _ Hm). Qed.

Lemma search_step_unmarked fuel g vis pre post w :
  unmarked vis w ->
  search_step fuel g (vis, pre, post) w = (q ← search fuel g w vis; Ok (q.1.1, pre ++ q.1.2, post ++ q.2)).
Proof. intros Hm. unfold search_step. cbn [fst snd]. by rewrite (vget_Ok _ _ _ Hm). Qed.

Lemma search_loop_spec fuel g vis adj pre0 post0 :
  length vis = length g -> Forall (fun w => w < length g) adj -> nfalse vis <= fuel ->
  (forall w vis, length vis = length g -> unmarked vis w -> nfalse vis <= fuel ->
     exists r, search fuel g w vis = Ok r /\ call_ok g w vis r) ->
  exists vis' pre post, ofold (search_step fuel g) adj (vis, pre0, post0) = Ok (vis', pre0 ++ pre, post0 ++ post) /\
    visits g (fun x => x ∈ adj) vis vis' pre post /\ forall w, w ∈ adj -> marked vis' w.
Proof.
  intros Hl Hadj Hf IH. revert vis pre0 post0 Hl Hf. induction Hadj as [|w adj Hw Hadj IHa]; intros vis pre0 post0 Hl Hf.
  - exists vis, [], []. rewrite !app_nil_r. split; [done|]. split; [apply visits_nil|]. intros w Hw. by apply not_elem_of_nil in Hw.
  - cbn [ofold]. destruct (mark_cases vis w) as [Hm|Hm]; [lia| |];
      [rewrite (search_step_marked _ _ _ _ _ _ Hm)|rewrite (search_step_unmarked _ _ _ _ _ _ Hm)]; cbn [mbind outcome_bind].
    + destruct (IHa vis pre0 post0 Hl Hf) as (vis' & pre & post & E & Hv & Hall). exists vis', pre, post.
      split; [done|]. split.
      * eapply visits_root; [|exact Hv]. intros r Hr. by right.
      * intros x [->|Hx]%elem_of_cons; [|by apply Hall]. apply (vi_marks _ _ _ _ _ _ Hv). by left.
    + destruct (IH w vis Hl Hm Hf) as ([[vis1 pre1] post1] & E & Hv1 & Hm1). cbn [fst snd] in *. rewrite E.
      cbn [mbind outcome_bind fst snd].
      destruct (IHa vis1 (pre0 ++ pre1) (post0 ++ post1)) as (vis' & pre & post & E2 & Hv & Hall).
      { by rewrite (vi_len _ _ _ _ _ _ Hv1). }
      { etrans; [|exact Hf]. apply nfalse_le; [apply (vi_len _ _ _ _ _ _ Hv1)|].
        intros x Hx. apply (vi_marks _ _ _ _ _ _ Hv1). by left. }
      exists vis', (pre1 ++ pre), (post1 ++ post). rewrite !app_assoc. split; [done|]. split.
      * eapply visits_app; [eapply visits_root; [|exact Hv1]|eapply visits_root; [|exact Hv]].
        -- intros r ->. left.
        -- intros r Hr. by right.
      * intros x [->|Hx]%elem_of_cons; [|by apply Hall]. apply (vi_marks _ _ _ _ _ _ Hv). by left.
Qed.

Lemma search_spec fuel g v vis :
  graph_ok g -> length vis = length g -> unmarked vis v -> nfalse vis <= fuel ->
  exists r, search fuel g v vis = Ok r /\ call_ok g v vis r.
Proof.
  intros Hg. revert v vis. induction fuel as [|fuel IH]; intros v vis Hl Hv Hf.
  - pose proof (nfalse_mark vis v Hv). lia.
  - rewrite search_S. pose proof (unmarked_lt _ _ Hv) as Hlt. unfold vset. rewrite decide_True by done.
    cbn [mbind outcome_bind]. destruct (lookup_lt_is_Some_2 g v) as [adj Hadj]; [lia|].
    rewrite (vget_Ok _ _ _ Hadj). cbn [mbind outcome_bind].
    assert (Hb : Forall (fun w => w < length g) adj).
    { unfold graph_ok in Hg. rewrite Forall_forall in Hg. apply Hg. by eapply elem_of_list_lookup_2. }
    destruct (search_loop_spec fuel g (<[v := true]> vis) adj [] []) as (vis' & pre & post & E & Hvi & Hall).
    { by rewrite insert_length. }
    { done. }
    { pose proof (nfalse_mark vis v Hv). lia. }
    { intros w vis0 Hl0 Hu0 Hf0. by apply IH. }
    rewrite E. cbn [mbind outcome_bind fst snd app]. eexists. split; [done|].
    assert (Hun : forall x, unmarked (<[v:=true]> vis) x -> unmarked vis x).
    { intros x Hx. destruct (mark_cases vis x) as [Hm|]; [| |done].
      - apply unmarked_lt in Hx. by rewrite insert_length in Hx.
      - exfalso. eapply mark_excl; [|exact Hx]. apply marked_insert; [done|]. by right. }
    assert (Hvm : marked vis' v).
    { apply (vi_marks _ _ _ _ _ _ Hvi). left. apply marked_insert; [done|]. by left. }
    split; cbn [fst snd]; [|done]. split.
    + rewrite (vi_len _ _ _ _ _ _ Hvi). by rewrite insert_length.
    + rewrite (vi_perm _ _ _ _ _ _ Hvi). by rewrite Permutation_app_comm.
    + apply NoDup_app. split_and!; [apply (vi_nodup _ _ _ _ _ _ Hvi)| |apply NoDup_singleton].
      intros w Hw ->%elem_of_list_singleton. apply (vi_new _ _ _ _ _ _ Hvi) in Hw.
      eapply mark_excl; [|exact Hw]. apply marked_insert; [done|]. by left.
    + intros w. rewrite (vi_marks _ _ _ _ _ _ Hvi), marked_insert, elem_of_app, elem_of_list_singleton by done. tauto.
    + intros w [Hw|Hw]%elem_of_app.
      * apply Hun. by apply (vi_new _ _ _ _ _ _ Hvi).
      * apply elem_of_list_singleton in Hw as ->. done.
    + intros w [Hw|Hw]%elem_of_app.
      * destruct (vi_sound _ _ _ _ _ _ Hvi w Hw) as (r & Hr & Hur & Hreach). exists v. split; [done|]. split; [done|].
        eapply rtc_l; [split; [exists adj; split; [done|exact Hr]|by apply Hun]|]. by eapply reach_in_mono.
      * apply elem_of_list_singleton in Hw as ->. exists v. split; [done|]. split; [done|]. apply rtc_refl.
    + intros u w [Hu|Hu]%elem_of_app He; [by eapply (vi_closed _ _ _ _ _ _ Hvi)|].
      apply elem_of_list_singleton in Hu as ->. destruct He as (adj' & Hadj' & Hw). rewrite Hadj in Hadj'. injection Hadj' as <-.
      by apply Hall.
Qed.

(** Completeness: every vertex reachable through unmarked vertices is visited. *)
Lemma call_complete g v vis r w :
  graph_ok g -> length vis = length g -> unmarked vis v -> call_ok g v vis r ->
  w ∈ r.2 <-> reach_in g (unmarked vis) v w.
Proof.
  intros Hg Hl Hv [Hvi Hm]. split.
  - intros Hw. destruct (vi_sound _ _ _ _ _ _ Hvi w Hw) as (x & -> & _ & Hreach). done.
  - intros Hreach.
    assert (Hin : forall x, unmarked vis x -> marked r.1.1 x -> x ∈ r.2).
    { intros x Hu Hx. apply (vi_marks _ _ _ _ _ _ Hvi) in Hx as [Hx|Hx]; [|done]. exfalso. by eapply mark_excl. }
    assert (Hv2 : v ∈ r.2) by (by apply Hin).
    pose proof (vi_closed _ _ _ _ _ _ Hvi) as Hcl. clear Hv Hm Hvi.
    induction Hreach as [x|x y z [He Hy] _ IH]; [done|].
    apply IH. apply Hin; [done|]. by eapply Hcl.
Qed.

(** ** The property of depth-first search *)
Lemma nfalse_length vis : nfalse vis <= length vis.
Proof. unfold nfalse. apply count_occ_bound. Qed.

Lemma search_mono g k f v vis r : k <= f -> search k g v vis = Ok r -> search f g v vis = Ok r.
Proof.
  revert f v vis r. induction k as [|k IH]; intros f v vis r Hf; [done|]. destruct f as [|f]; [lia|]. rewrite !search_S.
  intros (vis1 & H1 & E)%bind_ok. apply bind_ok in E as (adj & H2 & E). apply bind_ok in E as (q & H3 & E).
  rewrite H1. cbn [mbind outcome_bind]. rewrite H2. cbn [mbind outcome_bind].
  apply bind_ok. exists q. split; [|done]. clear E H1 H2. revert H3. generalize (vis1, [] : list nat, [] : list nat).
  induction adj as [|w adj IHa]; intros st; [done|]. cbn [ofold]. intros (st1 & H1 & H2)%bind_ok.
  apply bind_ok. exists st1. split; [|by apply IHa]. revert H1. unfold search_step.
  intros (b & Hb & H1)%bind_ok. rewrite Hb. cbn [mbind outcome_bind]. destruct b; [done|].
  apply bind_ok in H1 as (q' & Hq & H1). apply bind_ok. exists q'. split; [|done]. apply IH; [lia|done].
Qed.

Lemma dfs_spec g v vis acc :
  graph_ok g -> length vis = length g -> vis !! v = Some false ->
  exists vis' new, (forall fuel, length g <= fuel -> DepthFirstSearch fuel g v (vis, acc) = Ok (vis', acc ++ v :: new)) /\
    NoDup (v :: new) /\
    (forall w, w ∈ v :: new <-> reach_in g (fun x => vis !! x = Some false) v w) /\
    length vis' = length vis /\
    (forall w, vis' !! w = Some true <-> vis !! w = Some true \/ w ∈ v :: new).
Proof.
  intros Hg Hl Hv.
  destruct (search_spec (length g) g v vis Hg Hl Hv) as ([[vis' pre] post] & E & Hok).
  { rewrite <- Hl. apply nfalse_length. }
  assert (Hhead : exists new, pre = v :: new).
  { destruct (length g) as [|n]; [done|]. rewrite search_S in E. apply bind_ok in E as (vis1 & _ & E).
    apply bind_ok in E as (adj & _ & E). apply bind_ok in E as ([[? ?] ?] & _ & E). cbn in E. injection E as _ <- _. eauto. }
  destruct Hhead as [new ->]. exists vis', new.
  assert (Hel : forall w, w ∈ v :: new <-> w ∈ post).
  { intros w. destruct Hok as [Hvi _]. cbn in Hvi. by rewrite (vi_perm _ _ _ _ _ _ Hvi). }
  split_and!.
  - intros fuel Hf. rewrite dfs_search.
    assert (Hmono : search fuel g v vis = Ok (vis', v :: new, post)); [|by rewrite Hmono].
    by eapply search_mono.
  - destruct Hok as [Hvi _]. cbn in Hvi. rewrite (vi_perm _ _ _ _ _ _ Hvi). apply (vi_nodup _ _ _ _ _ _ Hvi).
  - intros w. rewrite Hel. by apply (call_complete g v vis (vis', v :: new, post) w).
  - destruct Hok as [Hvi _]. apply (vi_len _ _ _ _ _ _ Hvi).
  - intros w. rewrite Hel. destruct Hok as [Hvi _]. apply (vi_marks _ _ _ _ _ _ Hvi).
Qed.
