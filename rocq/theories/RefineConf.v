(** * Conforming meshes and the invariant. *)
From Coq Require Import QArith Qcanon.
From Verif Require Import Base BaseProof CsrModel MeshModel MeshSpec MeshRep MeshHist MeshProof8 MeshProofF MeshProg
  UtilModel UtilSpec UtilProofD RefineModel RefineSpec RefineView RefineSplit RefineReplace RefineStep RefineStep2 RefineUndo.
From Coq Require Import ZifyBool ZifyNat ZifyN.
Local Open Scope nat_scope.

Lemma joins_joined m e v w : joins m e v w <-> joined (view_of m) e v w.
Proof. unfold joins, joined. by rewrite !ve_ends. Qed.

Lemma linked_index V l w : linked V l w <->
  forall p v e, l !! p = Some (v, e) -> joined V e v (match l !! S p with Some q => q.1 | None => w end).
Proof.
  induction l as [|[v0 e0] l IH]; cbn; [split; [by intros _ p v e|done]|]. rewrite IH. split.
  - intros [H1 H2] [|p] v e; cbn; [|apply H2]. intros [= <- <-]. destruct l as [|[v1 e1] l]; exact H1.
  - intros H. split.
    + specialize (H 0 v0 e0 eq_refl). cbn in H. destruct l as [|[v1 e1] l]; exact H.
    + intros p v e Hp. exact (H (S p) v e Hp).
Qed.

Lemma linked_mod V l : linked V l (start l 0) <->
  forall p v e w e', l !! p = Some (v, e) -> l !! ((p + 1) mod length l) = Some (w, e') -> joined V e v w.
Proof.
  rewrite linked_index. split.
  - intros H p v e w e' Hp Hw. specialize (H p v e Hp). pose proof (lookup_lt_Some _ _ _ Hp) as Lp.
    destruct (decide (S p < length l)) as [L|L].
    + rewrite Nat.mod_small in Hw by lia. rewrite Nat.add_1_r in Hw. by rewrite Hw in H.
    + assert (X : p + 1 = length l) by lia. rewrite X, Nat.mod_same in Hw by lia. rewrite lookup_ge_None_2 in H by lia.
      destruct l as [|[v1 e1] l]; [done|]. cbn in Hw. by injection Hw as -> ->.
  - intros H p v e Hp. pose proof (lookup_lt_Some _ _ _ Hp) as Lp. destruct (l !! S p) as [[w e']|] eqn:Hw.
    + apply (H p v e w e' Hp). rewrite Nat.mod_small; [by rewrite Nat.add_1_r|]. apply lookup_lt_Some in Hw. lia.
    + apply lookup_ge_None in Hw. destruct l as [|[v1 e1] l]; [done|]. apply (H p v e v1 e1 Hp).
      replace (p + 1) with (length ((v1, e1) :: l)) by lia. by rewrite Nat.mod_same.
Qed.

Lemma chain_good m l : closed_chain m l <-> good (view_of m) l.
Proof.
  unfold closed_chain. split.
  - intros (H1 & H2 & H3 & H4 & H5). split; [done..|]. apply linked_mod. intros p v e w e' Hp Hw. apply joins_joined. by eapply H5.
  - intros [H1 H2 H3 H4 H5]. split_and!; [done..|]. intros p v e w e' Hp Hw. apply joins_joined. by eapply linked_mod.
Qed.

Lemma virt_empty l : virt ∅ l = l.
Proof. apply virt_none. intros v e _. apply lookup_empty. Qed.

Lemma small_inv m : reachable m -> (N.of_nat (num D2 m) <= UINT_MAX)%N -> conforming m -> inv ∅ (view_of m) /\ ends (view_of m).
Proof.
  intros R Hs [Cp Ce].
  assert (Sl : forall e x v (Q : nat -> Prop), (forall c, Q c <-> exists l, polygon m c l /\ (v, e) ∈ l) -> the_only m Q x -> slot ∅ (view_of m) (v, e) x).
  { intros e x v Q HQ [A B]. split.
    - intros c l Hc Hl M. rewrite virt_empty in M. rewrite (A (N.to_nat c) Hc); [lia|]. apply HQ. exists l. split; [by apply vp_polygon|done].
    - destruct B as [->|(c & -> & Hc & HQc)]; [by left|right]. apply HQ in HQc as (l & Hl & M). exists l. cbn [view_of va]. rewrite Nat2N.id.
      split_and!; [done|apply vp_polygon; by rewrite Nat2N.id|by rewrite virt_empty]. }
  split; [split|].
  - intros d i Hi. cbn in *. apply active_num in Hi; [lia|done].
  - cbn. done.
  - intros c Hc. destruct (Cp (N.to_nat c) Hc) as (Hu & l & Hl & Hg). split.
    + cbn. by rewrite Hu.
    + exists l. split; [by apply vp_polygon|]. rewrite virt_empty. by apply chain_good.
  - intros e He. destruct (Ce (N.to_nat e) He) as (a & b & r & l & Ha & Hb & _ & _ & Hr & S1' & S2'). exists a, b, r, l.
    split_and!; [by apply ve_ends|cbn; by rewrite Hr|..].
    + eapply Sl; [|exact S1']. intros c. unfold passes_against. rewrite N2Nat.id. split.
      * intros (k & v & Hk & Hv & M). rewrite Hb in Hv. injection Hv as <-. by exists k.
      * intros (k & Hk & M). by exists k, b.
    + eapply Sl; [|exact S2']. intros c. unfold passes_along. rewrite N2Nat.id. split.
      * intros (k & v & Hk & Hv & M). rewrite Ha in Hv. injection Hv as <-. by exists k.
      * intros (k & Hk & M). by exists k, a.
  - intros e x Hx. by rewrite lookup_empty in Hx.
  - intros e a b He Hab. destruct (Ce (N.to_nat e) He) as (a' & b' & r & l & Ha & Hb & A1 & A2 & _).
    apply ve_ends in Hab as [Ha' Hb']. rewrite Ha in Ha'. rewrite Hb in Hb'. injection Ha' as <-. injection Hb' as <-. done.
Qed.

Lemma inv_conforming m : reachable m -> inv ∅ (view_of m) -> ends (view_of m) -> conforming m.
Proof.
  intros R I En.
  assert (Sl : forall e x v (Q : nat -> Prop), (forall c, Q c <-> exists l, polygon m c l /\ (v, e) ∈ l) -> slot ∅ (view_of m) (v, e) x -> the_only m Q x).
  { intros e x v Q HQ [A B]. split.
    - intros c Hc (l & Hl & M)%HQ. apply (A (N.of_nat c) l); [cbn; by rewrite Nat2N.id|apply vp_polygon; by rewrite Nat2N.id|by rewrite virt_empty].
    - destruct B as [->|(l & Hc & Hl & M)]; [by left|right]. exists (N.to_nat x). split_and!; [lia|done|]. apply HQ. exists l.
      split; [by apply vp_polygon|by rewrite virt_empty in M]. }
  split.
  - intros c Hc. destruct (i_poly _ _ I (N.of_nat c)) as (Hu & l & Hl & G); [cbn; by rewrite Nat2N.id|]. split.
    + destruct (getters_ok m R) as (_ & _ & _ & _ & _ & _ & U & _). destruct (U D2 c) as [u Eu]; [by apply active_num|].
      cbn in Hu. rewrite Nat2N.id, Eu in Hu. by subst u.
    + exists l. apply vp_polygon in Hl. rewrite Nat2N.id in Hl. split; [done|]. apply chain_good. by rewrite virt_empty in G.
  - intros e He. destruct (i_edge _ _ I (N.of_nat e)) as (a & b & r & l & Hab & Hr & S1' & S2'); [cbn; by rewrite Nat2N.id|].
    destruct (En (N.of_nat e) a b) as [Aa Ab]; [cbn; by rewrite Nat2N.id|done|].
    apply ve_ends in Hab as [Ha Hb]. rewrite Nat2N.id in Ha, Hb. cbn in Hr. rewrite Nat2N.id in Hr.
    destruct (RelRow R12 e m) as [row| | | |] eqn:Er; try done. injection Hr as ->.
    exists a, b, r, l. split_and!; [done..| |].
    + eapply Sl; [|exact S1']. intros c. unfold passes_against. split.
      * intros (k & v & Hk & Hv & M). rewrite Hb in Hv. injection Hv as <-. by exists k.
      * intros (k & Hk & M). by exists k, b.
    + eapply Sl; [|exact S2']. intros c. unfold passes_along. split.
      * intros (k & v & Hk & Hv & M). rewrite Ha in Hv. injection Hv as <-. by exists k.
      * intros (k & Hk & M). by exists k, a.
Qed.
