(** Breadth-first search: every reachable vertex once, in order of distance. *)
From stdpp Require Import relations sorting.
From Verif Require Import Base BaseProof GraphModel GraphSpec GraphProof GraphProof2 GraphProof3.

Lemma sorted_snoc (l : list nat) a : StronglySorted le l -> (forall x, x ∈ l -> x <= a) -> StronglySorted le (l ++ [a]).
Proof.
  induction l as [|b l IH]; intros Hs Ha; cbn; [by repeat constructor|].
  inversion Hs as [|? ? Hs' Hb]; subst. constructor.
  - apply IH; [done|]. intros x Hx. apply Ha. by right.
  - apply Forall_app. split; [done|]. constructor; [|done]. apply Ha. by left.
Qed.

Section Bfs.
Context (g : list (list nat)) (Hg : graph_ok g) (s : nat).

(** The search with the queued vertices labelled by the length of the path that found them. *)
Record bfs_inv (mk : list bool) (out queue : list (nat * nat)) : Prop := {
  bi_len : length mk = length g;
  bi_nodup : NoDup (out ++ queue).*1;
  bi_marks : forall w, marked mk w <-> w ∈ (out ++ queue).*1;
  bi_root : (s, 0) ∈ out ++ queue;
  bi_path : forall w n, (w, n) ∈ out ++ queue -> nsteps (edge g) n s w;
  bi_sorted : StronglySorted le (out ++ queue).*2;
  bi_near : forall x y, x ∈ queue -> y ∈ queue -> y.2 <= S x.2;
  bi_done : forall u n w, (u, n) ∈ out -> edge g u w -> exists m, (w, m) ∈ out ++ queue /\ m <= S n
}.

Lemma bfs_push_loop adj v n out : forall mk q,
  bfs_inv mk out ((v, n) :: q) -> Forall (fun w => edge g v w) adj ->
  exists mk' q', ofold bfs_push adj (mk, q.*1) = Ok (mk', q'.*1) /\ bfs_inv mk' out ((v, n) :: q') /\
    (forall x, x ∈ q -> x ∈ q') /\
    (forall w, w ∈ adj -> exists m, (w, m) ∈ out ++ (v, n) :: q' /\ m <= S n) /\
    nfalse mk' + length q' = nfalse mk + length q.
Proof.
  induction adj as [|w adj IH]; intros mk q HI Hadj; cbn [ofold].
  - exists mk, q. split_and!; try done. intros w Hw. by apply not_elem_of_nil in Hw.
  - inversion Hadj as [|? ? Hw Hadj']; subst.
    assert (Hmax : forall w m, (w, m) ∈ out ++ (v, n) :: q -> m <= S n).
    { intros w' m [Hin|Hin]%elem_of_app.
      - pose proof (bi_sorted _ _ _ HI) as Hs. rewrite fmap_app in Hs. cbn in Hs.
        eapply (elem_of_StronglySorted_app le _ _ m n) in Hs; [lia| |by left].
        apply elem_of_list_fmap. by exists (w', m).
      - apply (bi_near _ _ _ HI (v, n) (w', m)); [by left|done]. }
    assert (Hwl : w < length mk). { rewrite (bi_len _ _ _ HI). by apply (edge_lt g v w Hg). }
    unfold bfs_push at 2. cbn [fst snd].
    destruct (mark_cases mk w Hwl) as [Hm|Hm]; rewrite (vget_Ok _ _ _ Hm); cbn [mbind outcome_bind].
    + destruct (IH mk q HI Hadj') as (mk' & q' & E & HI' & Hsub & Hall & Hn). exists mk', q'. split_and!; try done.
      intros x [->|Hx]%elem_of_cons; [|by apply Hall].
      apply (bi_marks _ _ _ HI), elem_of_list_fmap in Hm as ([w' m] & -> & Hin). cbn. exists m. split; [|by eapply Hmax].
      rewrite elem_of_app, elem_of_cons in *. destruct Hin as [?|[?|?]]; auto.
    + unfold vset. rewrite decide_True by done. cbn [mbind outcome_bind].
      assert (HI1 : bfs_inv (<[w := true]> mk) out ((v, n) :: (q ++ [(w, S n)]))).
      { assert (Eq : out ++ (v, n) :: (q ++ [(w, S n)]) = (out ++ (v, n) :: q) ++ [(w, S n)]) by (by rewrite <- app_assoc).
        split.
        - rewrite insert_length. apply (bi_len _ _ _ HI).
        - rewrite Eq, fmap_app. apply NoDup_app. split_and!; [apply (bi_nodup _ _ _ HI)| |apply NoDup_singleton].
          intros x Hx Hx2. apply elem_of_list_singleton in Hx2. cbn in Hx2. subst x.
          apply (bi_marks _ _ _ HI) in Hx. by eapply mark_excl.
        - intros x. rewrite marked_insert by done. rewrite Eq, fmap_app, elem_of_app, <- (bi_marks _ _ _ HI).
          cbn. rewrite elem_of_list_singleton. tauto.
        - rewrite Eq. apply elem_of_app. left. apply (bi_root _ _ _ HI).
        - intros x m. rewrite Eq. intros [Hin|Hin]%elem_of_app; [by apply (bi_path _ _ _ HI)|].
          apply elem_of_list_singleton in Hin. injection Hin as -> ->. eapply nsteps_r; [|exact Hw].
          apply (bi_path _ _ _ HI). apply elem_of_app. right. by left.
        - rewrite Eq, fmap_app. apply sorted_snoc; [apply (bi_sorted _ _ _ HI)|].
          intros x ([y m] & -> & Hin)%elem_of_list_fmap. by eapply Hmax.
        - intros x y Hx Hy.
          assert (Hlo : forall z, z ∈ (v, n) :: q -> n <= z.2 <= S n).
          { intros z Hz. split; [|by apply (bi_near _ _ _ HI (v, n) z); [left|]].
            pose proof (bi_sorted _ _ _ HI) as Hs. rewrite fmap_app in Hs. apply StronglySorted_app_inv_r in Hs. cbn in Hs.
            apply elem_of_cons in Hz as [->|Hz]; [done|]. inversion Hs as [|? ? _ Hf]; subst.
            rewrite Forall_forall in Hf. apply Hf. apply elem_of_list_fmap. by exists z. }
          assert (Hlo' : forall z, z ∈ (v, n) :: q ++ [(w, S n)] -> n <= z.2 <= S n).
          { intros z. rewrite app_comm_cons. intros [Hz|Hz]%elem_of_app; [by apply Hlo|].
            apply elem_of_list_singleton in Hz as ->. cbn. lia. }
          apply Hlo' in Hx, Hy. lia.
        - intros u m x Hu Hx. destruct (bi_done _ _ _ HI u m x Hu Hx) as (k & Hk & Hle). exists k. split; [|done].
          rewrite Eq. apply elem_of_app. by left. }
      destruct (IH _ _ HI1 Hadj') as (mk' & q' & E & HI' & Hsub & Hall & Hn). exists mk', q'.
      rewrite fmap_app in E. cbn in E. split_and!; try done.
      * intros x Hx. apply Hsub, elem_of_app. by left.
      * intros x [->|Hx]%elem_of_cons; [|by apply Hall]. exists (S n). split; [|done].
        apply elem_of_app. right. right. apply Hsub, elem_of_app. right. by left.
      * rewrite Hn, app_length. cbn. rewrite <- (nfalse_mark mk w Hm). lia.
Qed.

Lemma bfs_loop_spec fuel : forall mk out queue,
  bfs_inv mk out queue -> nfalse mk + length queue <= fuel ->
  exists mk' out', bfs_loop fuel g mk queue.*1 out.*1 = Ok out'.*1 /\ bfs_inv mk' out' [].
Proof.
  induction fuel as [|fuel IH]; intros mk out [|[v n] queue] HI Hf; cbn [length] in Hf; try lia.
  - exists mk, out. done.
  - exists mk, out. done.
  - cbn [fmap list_fmap fst bfs_loop].
    assert (Hv : v < length g).
    { rewrite <- (bi_len _ _ _ HI). assert (Hm : marked mk v).
      { apply (bi_marks _ _ _ HI). rewrite fmap_app. apply elem_of_app. right. by left. }
      by eapply lookup_lt_Some. }
    destruct (lookup_lt_is_Some_2 g v Hv) as [adj Hadj]. rewrite (vget_Ok _ _ _ Hadj). cbn [mbind outcome_bind].
    destruct (bfs_push_loop adj v n out mk queue HI) as (mk' & q' & E & HI' & Hsub & Hall & Hn).
    { apply Forall_forall. intros w Hw. by exists adj. }
    rewrite E. cbn [mbind outcome_bind fst snd].
    assert (HI2 : bfs_inv mk' (out ++ [(v, n)]) q').
    { assert (Eq : (out ++ [(v, n)]) ++ q' = out ++ (v, n) :: q') by (by rewrite <- app_assoc).
      destruct HI' as [H1 H2 H3 H4 H5 H6 H7 H8]. split; rewrite ?Eq; try done.
      - intros x y Hx Hy. apply H7; by right.
      - intros u m w [Hu|Hu]%elem_of_app Hw.
        + by eapply H8.
        + apply elem_of_list_singleton in Hu. injection Hu as -> ->. apply Hall.
          destruct Hw as (adj' & Ha & Hw). rewrite Hadj in Ha. by injection Ha as <-. }
    destruct (IH _ _ _ HI2) as (mk2 & out2 & E2 & HI3); [lia|].
    rewrite fmap_app in E2. cbn in E2. by exists mk2, out2.
Qed.

Lemma bfs_final mk out :
  bfs_inv mk out [] ->
  NoDup out.*1 /\ (forall w, w ∈ out.*1 <-> reach g s w) /\
  (forall i j u w n m, i <= j -> out.*1 !! i = Some u -> out.*1 !! j = Some w ->
     distance g s u n -> distance g s w m -> n <= m).
Proof.
  intros [H1 H2 H3 H4 H5 H6 H7 H8]. rewrite app_nil_r in *.
  assert (Hcl : forall k w, nsteps (edge g) k s w -> exists m, (w, m) ∈ out /\ m <= k).
  { induction k as [|k IH]; intros w Hk.
    - inversion Hk; subst. by exists 0.
    - apply nsteps_inv_r in Hk as (u & Hk & He). destruct (IH u Hk) as (m & Hm & Hle).
      destruct (H8 u m w Hm He) as (m' & Hm' & Hle'). exists m'. split; [done|lia]. }
  assert (Hdist : forall w m n, (w, m) ∈ out -> distance g s w n -> n = m).
  { intros w m n Hin [Hn Hmin]. pose proof (Hmin m (H5 w m Hin)) as Hle.
    destruct (Hcl n w Hn) as (m' & Hin' & Hle').
    assert (Heq : m = m').
    { apply elem_of_list_lookup in Hin as [i Hi]. apply elem_of_list_lookup in Hin' as [j Hj].
      assert (i = j) as ->. { eapply (NoDup_lookup _ i j w H2); rewrite list_lookup_fmap; [by rewrite Hi|by rewrite Hj]. }
      rewrite Hi in Hj. by injection Hj. }
    lia. }
  split_and!.
  - done.
  - intros w. split.
    + intros ([w' m] & -> & Hin)%elem_of_list_fmap. cbn. apply rtc_nsteps. eauto.
    + intros Hr. apply rtc_nsteps in Hr as [k Hk]. destruct (Hcl k w Hk) as (m & Hm & _).
      apply elem_of_list_fmap. by exists (w, m).
  - intros i j u w n m Hij Hi Hj Hn Hm. rewrite list_lookup_fmap in Hi, Hj.
    destruct (out !! i) as [[u' n']|] eqn:Ei; [|done]. destruct (out !! j) as [[w' m']|] eqn:Ej; [|done].
    cbn in Hi, Hj. injection Hi as ->. injection Hj as ->.
    rewrite (Hdist u n' n), (Hdist w m' m); try done; try (by eapply elem_of_list_lookup_2).
    destruct (decide (i = j)) as [->|Hne]; [rewrite Ei in Ej; by injection Ej as <- <-|].
    rewrite <- (take_drop j out) in H6. rewrite fmap_app in H6.
    eapply (elem_of_StronglySorted_app le _ _ n' m' H6).
    + apply elem_of_list_fmap. exists (u, n'). split; [done|]. apply (elem_of_list_lookup_2 _ i).
      by rewrite lookup_take by lia.
    + apply elem_of_list_fmap. exists (w, m'). split; [done|]. apply (elem_of_list_lookup_2 _ 0).
      by rewrite lookup_drop, Nat.add_0_r.
Qed.

End Bfs.

Lemma bfs_loop_mono k f g mk queue out r :
  k <= f -> bfs_loop k g mk queue out = Ok r -> bfs_loop f g mk queue out = Ok r.
Proof.
  revert f mk queue out. induction k as [|k IH]; intros f mk queue out Hf; destruct queue as [|v queue]; cbn; try done.
  - by destruct f.
  - by destruct f.
  - destruct f as [|f]; [lia|]. intros (adj & H1 & H2)%bind_ok. apply bind_ok in H2 as (mq & H2 & H3). cbn.
    rewrite H1. cbn [mbind outcome_bind]. rewrite H2. cbn [mbind outcome_bind]. apply IH; [lia|done].
Qed.

Lemma bfs_spec g s :
  graph_ok g -> s < length g ->
  exists out, (forall fuel, length g <= fuel -> BreadthFirstSearch fuel s g = Ok out) /\
    NoDup out /\ (forall w, w ∈ out <-> reach g s w) /\
    (forall i j u w n m, i <= j -> out !! i = Some u -> out !! j = Some w ->
       distance g s u n -> distance g s w m -> n <= m).
Proof.
  intros Hg Hs. set (mk := <[s := true]> (replicate (length g) false)).
  assert (Hu : unmarked (replicate (length g) false) s) by (by apply lookup_replicate_2).
  assert (HI : bfs_inv g s mk [] [(s, 0)]).
  { split; cbn.
    - unfold mk. by rewrite insert_length, replicate_length.
    - apply NoDup_singleton.
    - intros w. unfold mk. rewrite marked_insert by (by rewrite replicate_length). rewrite elem_of_list_singleton.
      split; [|tauto]. intros [?|Hw]; [done|]. exfalso. eapply mark_excl; [exact Hw|].
      apply lookup_replicate_2. apply lookup_lt_Some in Hw. by rewrite replicate_length in Hw.
    - by left.
    - intros w n Hw%elem_of_list_singleton. injection Hw as -> ->. constructor.
    - repeat constructor.
    - intros x y Hx%elem_of_list_singleton Hy%elem_of_list_singleton. subst. cbn. lia.
    - intros u n w Hn. by apply not_elem_of_nil in Hn. }
  destruct (bfs_loop_spec g Hg s (length g) mk [] [(s, 0)] HI) as (mk' & out & E & HI').
  { pose proof (nfalse_mark _ _ Hu) as H1. pose proof (nfalse_length (replicate (length g) false)) as H2.
    rewrite replicate_length in H2. unfold mk. cbn. lia. }
  exists out.*1. split; [|by eapply bfs_final].
  intros fuel Hf. unfold BreadthFirstSearch, vset. rewrite decide_True by (by rewrite replicate_length).
  cbn [mbind outcome_bind]. eapply bfs_loop_mono; [exact Hf|]. exact E.
Qed.
