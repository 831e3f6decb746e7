From Verif Require Import Base BaseProof CsrModel CsrSpec CsrProof MeshModel MeshSpec MeshRep MeshHist
  MeshProof MeshProof2 MeshProof3 MeshProof4 MeshProof5 MeshProof6 MeshProof7 MeshProof8.
From Coq Require Import ZifyBool ZifyNat ZifyN.

(** ** Reachable meshes are represented *)

Lemma prop_row_len m a d i x :
  represents m a -> am_cells a d !! i = Some x -> length (ac_prop x) = length (am_names a d).
Proof.
  intros H Hx. pose proof (prop_rows_len m a d H) as Hr. rewrite Forall_forall in Hr. apply Hr.
  by eapply elem_of_list_lookup_2.
Qed.

Lemma allowed_pre m a o : represents m a -> allowed m o -> pre a o.
Proof.
  intros H Ha. destruct o; cbn in *; try done.
  - rewrite (rep_num m a d H) in Ha. destruct Ha as [->|[Hle Hb]]; [by left|right]. split; [done|].
    apply Forall_forall. intros x Hx. pose proof Hx as [i Hi]%elem_of_list_lookup.
    pose proof (lookup_lt_Some _ _ _ Hi) as Hlt. destruct (Hb i Hlt) as [Hr Hp]. split.
    + intros r E. destruct (Hr r) as [Hn|Hn]; [|done].
      rewrite (g_count m a H) in Hn. unfold look in Hn.
      rewrite E, Hi in Hn. injection Hn as Hn.
      unfold row_of in Hn. destruct (ac_rel x r); [done|cbn in Hn; lia].
    + apply Forall_forall. intros l [p Hl]%elem_of_list_lookup.
      pose proof (prop_row_len m a d i x H Hi) as Hlen. pose proof (lookup_lt_Some _ _ _ Hl) as Hpl.
      destruct (Hp p) as [Hz|Hz].
      * rewrite (g_propsize m a H), Hi in Hz. rewrite decide_True in Hz by lia. injection Hz as Hz.
        unfold prop_of in Hz. rewrite Hl in Hz. cbn in Hz. destruct l; [done|cbn in Hz; lia].
      * rewrite (names_len m a H) in Hz. lia.
  - destruct Ha as (n & Hn & Hk). rewrite (g_count m a H) in Hn. unfold look in Hn.
    destruct (am_cells a (src r) !! i) as [x|]; [|done]. injection Hn as <-. exists x. split; [done|].
    unfold row_of in Hk. lia.
  - intros x0 l Hx Hl. specialize (Ha (N.of_nat (length l))).
    rewrite (g_propsize m a H), Hx in Ha. pose proof (prop_row_len m a d i x0 H Hx) as Hlen.
    pose proof (lookup_lt_Some _ _ _ Hl). rewrite decide_True in Ha by lia. unfold prop_of in Ha.
    rewrite Hl in Ha. cbn in Ha. specialize (Ha eq_refl). lia.
Qed.

Lemma allowed_sim m a o : represents m a -> allowed m o -> sim (step m o) (astep a o).
Proof. intros H Ha. apply step_sim; [done|]. by eapply allowed_pre. Qed.

Lemma reachable_rep m : reachable m -> exists a, represents m a.
Proof.
  induction 1 as [|m o m' Hm [a H] Ha Hs]; [exists aempty; apply represents_empty|].
  pose proof (allowed_sim m a o H Ha) as Hsim. rewrite Hs in Hsim.
  destruct (astep a o) as [a'|]; [|done]. by exists a'.
Qed.

(** Reduce a successful call on a reachable mesh to the abstract call. *)
Lemma reachable_step m o m' :
  reachable m -> allowed m o -> step m o = Ok m' ->
  exists a a', represents m a /\ represents m' a' /\ astep a o = Some a'.
Proof.
  intros Hm Ha Hs. destruct (reachable_rep m Hm) as [a H]. exists a.
  pose proof (allowed_sim m a o H Ha) as Hsim. rewrite Hs in Hsim.
  destruct (astep a o) as [a'|]; [|done]. by exists a'.
Qed.

Lemma no_ub m o : reachable m -> allowed m o -> (exists m', step m o = Ok m' /\ reachable m') \/ step m o = Abort.
Proof.
  intros Hm Ha. destruct (reachable_rep m Hm) as [a H].
  pose proof (allowed_sim m a o H Ha) as Hsim. destruct (step m o) as [m'| | | |] eqn:E; try done; [|by right].
  left. exists m'. split; [done|]. by eapply reach_step.
Qed.

Lemma run_reachable ops m :
  reachable m -> all_allowed ops m -> (exists m', run ops m = Ok m' /\ reachable m') \/ run ops m = Abort.
Proof.
  revert m. induction ops as [|o ops IH]; intros m Hm Ha; cbn; [eauto|].
  destruct Ha as [Ha Hs]. destruct (no_ub m o Hm Ha) as [(m' & E & Hm')|E]; rewrite E in *; cbn; [|by right].
  by apply IH.
Qed.
