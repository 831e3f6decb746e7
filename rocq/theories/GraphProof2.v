(** Finishing order of depth-first search and strongly connected components. *)
From Verif Require Import Base BaseProof GraphModel GraphSpec GraphProof.
From stdpp Require Import relations.

Section order.
Context (g : graph) (Hg : graph_ok g).

Lemma reach_trans u v w : reach g u v -> reach g v w -> reach g u w.
Proof. apply rtc_transitive. Qed.
Lemma reach_edge u w : edge g u w -> reach g u w.
Proof. apply rtc_once. Qed.
Lemma mutual_refl u : mutual g u u.
Proof. split; apply rtc_refl. Qed.
Lemma mutual_sym u w : mutual g u w -> mutual g w u.
Proof. intros []. by split. Qed.
Lemma mutual_trans u v w : mutual g u v -> mutual g v w -> mutual g u w.
Proof. intros [H1 H2] [H3 H4]. split; by eapply reach_trans. Qed.

(** Black and gray vertices. *)
Definition closed (B G : list nat) : Prop := forall u w, u ∈ B -> edge g u w -> w ∈ B \/ w ∈ G.
Definition anchored (B G : list nat) : Prop :=
  forall x y, x ∈ B -> y ∉ B -> reach g x y -> exists z, z ∈ G /\ mutual g z x.
(** For each finished vertex [y] and each [x] from which it can be reached, a vertex equivalent to [x] is not
    finished before [y]. *)
Definition ordered (B post : list nat) : Prop :=
  forall l1 y l2, post = l1 ++ y :: l2 -> forall x, reach g x y -> exists z, mutual g z x /\ z ∉ B /\ z ∉ l1.

Lemma ordered_nil B : ordered B [].
Proof. intros l1 y l2 E. by destruct l1. Qed.

Lemma ordered_app B p1 p2 : ordered B p1 -> ordered (B ++ p1) p2 -> ordered B (p1 ++ p2).
Proof.
  intros H1 H2 l1 y l2 E x Hx.
  apply app_eq_inv in E as [(k & E1 & E2)|(k & E1 & E2)].
  - destruct k as [|k0 k].
    + rewrite app_nil_r in E1. subst l1. cbn in E2.
      destruct (H2 [] y l2 (eq_sym E2) x Hx) as (z & Hz & Hn & _). exists z.
      rewrite elem_of_app in Hn. split; [done|]. tauto.
    + injection E2 as <- E2. by apply (H1 l1 y k E1).
  - subst l1. destruct (H2 k y l2 E2 x Hx) as (z & Hz & Hn & Hn2). exists z.
    rewrite elem_of_app in Hn |- *. split; [done|]. tauto.
Qed.

(** The last step out of [B] on a path. *)
Lemma path_exit (B : list nat) x y :
  reach g x y -> x ∈ B -> y ∉ B -> exists u w, u ∈ B /\ w ∉ B /\ edge g u w /\ reach g x u /\ reach g w y.
Proof.
  intros Hr0. induction Hr0 as [x|x y z He Hr IH]; intros Hx Hz; [done|].
  destruct (decide (y ∈ B)) as [Hy|Hy].
  - destruct (IH Hy Hz) as (u & w & Hu & Hw & Huw & H1 & H2). exists u, w. split_and!; try done.
    by eapply rtc_l.
  - exists x, y. split_and!; try done; apply rtc_refl.
Qed.

Definition gray_ok (vis : list bool) (B G : list nat) : Prop :=
  (forall w, marked vis w <-> w ∈ B \/ w ∈ G) /\ (forall w, w ∈ B -> w ∉ G) /\ closed B G /\ anchored B G.

Definition finishes (v : nat) (vis vis' : list bool) (post : list nat) : Prop :=
  forall B G, gray_ok vis B G -> (forall z, z ∈ G -> reach g z v) ->
    gray_ok vis' (B ++ post) G /\ ordered B post.

Lemma loop_finishes fuel v vis adj pre0 post0 vis' pre' post' :
  length vis = length g -> nfalse vis <= fuel ->
  (forall w vis r, length vis = length g -> unmarked vis w -> nfalse vis <= fuel -> search fuel g w vis = Ok r ->
     finishes w vis r.1.1 r.2) ->
  Forall (fun w => edge g v w) adj ->
  ofold (search_step fuel g) adj (vis, pre0, post0) = Ok (vis', pre', post') ->
  exists post, post' = post0 ++ post /\ finishes v vis vis' post.
Proof.
  intros Hl Hn IH Hadj. revert vis pre0 post0 Hl Hn.
  induction Hadj as [|w adj Hw Hadj IHa]; intros vis pre0 post0 Hl Hn E; cbn [ofold] in E.
  - injection E as <- <- <-. exists []. rewrite app_nil_r. split; [done|]. intros B G HG _. rewrite app_nil_r.
    split; [done|apply ordered_nil].
  - destruct (mark_cases vis w) as [Hm|Hm]; [rewrite Hl; by apply (edge_lt g v w Hg)| |].
    + rewrite (search_step_marked _ _ _ _ _ _ Hm) in E. cbn [mbind outcome_bind] in E. by eapply IHa.
    + rewrite (search_step_unmarked _ _ _ _ _ _ Hm) in E. apply bind_ok in E as (st & E1 & E2).
      apply bind_ok in E1 as ([[vis1 pre1] post1] & E0 & E1). injection E1 as <-. cbn [fst snd] in E2.
      pose proof (IH w vis _ Hl Hm Hn E0) as Hf1. cbn [fst snd] in Hf1.
      destruct (search_spec fuel g w vis Hg Hl Hm Hn) as (r & Er & [Hvi _]). rewrite E0 in Er. injection Er as <-. cbn [fst snd] in Hvi.
      assert (Hl1 : length vis1 = length g) by (by rewrite (vi_len _ _ _ _ _ _ Hvi)).
      assert (Hn1 : nfalse vis1 <= fuel).
      { etrans; [|exact Hn]. apply nfalse_le; [by rewrite Hl1|]. intros x Hx. apply (vi_marks _ _ _ _ _ _ Hvi). by left. }
      destruct (IHa vis1 _ _ Hl1 Hn1 E2) as (post & -> & Hf). exists (post1 ++ post). rewrite app_assoc.
      split; [done|]. intros B G HG Hz.
      destruct (Hf1 B G HG) as [HG1 Ho1]. { intros z Hzg. eapply rtc_r; [by apply Hz|done]. }
      destruct (Hf (B ++ post1) G HG1 Hz) as [HG2 Ho2]. rewrite app_assoc. split; [done|]. by apply ordered_app.
Qed.

Lemma search_finishes fuel v vis r :
  length vis = length g -> unmarked vis v -> nfalse vis <= fuel -> search fuel g v vis = Ok r -> finishes v vis r.1.1 r.2.
Proof.
  revert v vis r. induction fuel as [|fuel IH]; intros v vis r Hl Hv Hn E; [done|].
  destruct (search_spec (S fuel) g v vis Hg Hl Hv Hn) as (r' & Er & [Hvi Hmv]). rewrite E in Er. injection Er as <-.
  rewrite search_S in E. apply bind_ok in E as (vis1 & E1 & E). apply bind_ok in E as (adj & E2 & E).
  apply bind_ok in E as ([[vis2 pre2] post2] & E3 & E). injection E as <-. cbn [fst snd] in *.
  unfold vset in E1. case_decide as Hlt; [|done]. injection E1 as <-. apply vget_ok in E2.
  assert (Hadj : Forall (fun w => edge g v w) adj). { apply Forall_forall. intros w Hw. by exists adj. }
  destruct (loop_finishes fuel v (<[v:=true]> vis) adj [] [] vis2 pre2 post2) as (post & -> & Hf); try done.
  { by rewrite insert_length. }
  { pose proof (nfalse_mark vis v Hv). lia. }
  cbn [app]. intros B G (Hvis & Hdis & Hcl & Hanc) Hchain.
  assert (HvB : v ∉ B). { intros Hin. eapply mark_excl; [|exact Hv]. apply Hvis. by left. }
  assert (HvG : v ∉ G). { intros Hin. eapply mark_excl; [|exact Hv]. apply Hvis. by right. }
  destruct (Hf B (v :: G)) as [(Hvis' & Hdis' & Hcl' & Hanc') Hord].
  { split_and!.
    - intros w. rewrite (marked_insert _ _ _ Hlt), Hvis, elem_of_cons. tauto.
    - intros w Hw. rewrite elem_of_cons. intros [->|Hwg]; [done|]. by eapply Hdis.
    - intros u w Hu He. rewrite elem_of_cons. destruct (Hcl u w Hu He); tauto.
    - intros x y Hx Hy Hr. destruct (Hanc x y Hx Hy Hr) as (z & Hz & Hm). exists z. rewrite elem_of_cons. tauto. }
  { intros z [->|Hz]%elem_of_cons; [apply rtc_refl|by apply Hchain]. }
  cbn [app] in *.
  assert (HvB' : v ∉ B ++ post). { intros Hin. apply (Hdis' v Hin). left. }
  assert (Hcl2 : closed (B ++ post ++ [v]) G).
  { intros u w Hu He. rewrite app_assoc, elem_of_app, elem_of_list_singleton in Hu |- *. destruct Hu as [Hu| ->].
    - destruct (Hcl' u w Hu He) as [Hw|Hw]; [tauto|]. apply elem_of_cons in Hw as [->|Hw]; tauto.
    - assert (Hmk : marked vis2 w). { eapply (vi_closed _ _ _ _ _ _ Hvi); [|exact He]. apply elem_of_app. right. by apply elem_of_list_singleton. }
      apply Hvis' in Hmk as [Hw|Hw]; [tauto|]. apply elem_of_cons in Hw as [->|Hw]; tauto. }
  assert (Hv2 : forall y, y ∉ B ++ post ++ [v] -> reach g v y -> exists z, z ∈ G /\ mutual g z v).
  { intros y Hy Hr. destruct (path_exit (B ++ post ++ [v]) v y Hr) as (u & w & Hu & Hw & He & Hvu & _); [|done|].
    { rewrite !elem_of_app, elem_of_list_singleton. tauto. }
    destruct (Hcl2 u w Hu He) as [?|Hwg]; [done|]. exists w. split; [done|]. split; [by apply Hchain|].
    eapply rtc_r; [exact Hvu|exact He]. }
  split; [split_and!|].
  - intros w. rewrite Hvis', !elem_of_app, elem_of_cons, elem_of_list_singleton. tauto.
  - intros w. rewrite app_assoc, elem_of_app, elem_of_list_singleton. intros [Hw| ->] Hwg; [|done].
    apply (Hdis' w Hw). by right.
  - done.
  - intros x y Hx Hy Hr. rewrite app_assoc, elem_of_app, elem_of_list_singleton in Hx. destruct Hx as [Hx| ->].
    + assert (Hy' : y ∉ B ++ post). { rewrite app_assoc, elem_of_app in Hy. tauto. }
      destruct (Hanc' x y Hx Hy' Hr) as (z & Hz & Hm). apply elem_of_cons in Hz as [->|Hz]; [|by exists z].
      destruct (Hv2 y Hy) as (z & Hz & Hm2). { eapply reach_trans; [apply Hm|done]. }
      exists z. split; [done|]. by eapply mutual_trans.
    + by eapply Hv2.
  - apply ordered_app; [done|]. intros l1 y l2 E x Hx. destruct l1 as [|? l1]; [|by destruct l1].
    cbn in E. injection E as <- <-. destruct (decide (x ∈ B ++ post)) as [Hin|Hin].
    + destruct (Hanc' x v Hin HvB' Hx) as (z & Hz & Hm). exists z. split; [done|]. split; [|by apply not_elem_of_nil].
      intros Hzb. by eapply Hdis'.
    + exists x. split; [apply mutual_refl|]. split; [done|]. apply not_elem_of_nil.
Qed.
End order.
