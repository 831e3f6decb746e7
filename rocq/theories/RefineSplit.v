(** * Splitting an edge makes it pending. *)
From Verif Require Import Base MeshModel RefineView.

Record edge_split (e w s0 s1 a b : N) (V V' : view) : Prop := {
  es_act : va V D1 e = true;
  es_ends : ve V e = Some (a, b);
  es_w : w = vn V D0;
  es_s0 : s0 = vn V D1;
  es_s1 : s1 = (vn V D1 + 1)%N;
  es_n0 : vn V' D0 = (vn V D0 + 1)%N;
  es_n1 : vn V' D1 = (vn V D1 + 2)%N;
  es_n2 : vn V' D2 = vn V D2;
  es_va0 : forall i, va V' D0 i = if decide (i = w) then true else va V D0 i;
  es_va1 : forall i, va V' D1 i = if decide (i = e) then false else if decide (i = s0 \/ i = s1) then true else va V D1 i;
  es_va2 : forall i, va V' D2 i = va V D2 i;
  es_va3 : forall i, va V' D3 i = true -> (i < vn V' D3)%N;
  es_ve : forall i, i <> s0 -> i <> s1 -> ve V' i = ve V i;
  es_ve0 : ve V' s0 = Some (a, w);
  es_ve1 : ve V' s1 = Some (w, b);
  es_vp : forall i, vp V' i = vp V i;
  es_vr : forall i, i <> s0 -> i <> s1 -> vr V' i = vr V i;
  es_vrs : forall s, s = s0 \/ s = s1 -> forall l, vr V e = Some l -> vr V' s = Some ((fun v => if (v <? vn V D2)%N then v else UINT_MAX) <$> l);
  es_vu : forall i, vu V' i = vu V i
}.

Lemma expand1_two x v : pa x <> pb x -> v = pa x \/ v = pb x ->
  expand1 x v = [(v, if decide (v = pa x) then p0 x else p1 x); (pw x, if decide (v = pa x) then p1 x else p0 x)].
Proof. intros _ _. unfold expand1. by case_decide. Qed.

Lemma virt_insert P e x l : P !! e = None -> (forall g y, P !! g = Some y -> p0 y <> e /\ p1 y <> e) ->
  virt (<[e := x]> P) l = virt {[e := x]} (virt P l).
Proof.
  intros He Hc. induction l as [|[v g] l IH]; [done|]. rewrite !virt_cons, virt_app, IH. f_equal.
  unfold expand. cbn [snd fst]. destruct (decide (g = e)) as [->|Hg].
  - rewrite lookup_insert, He. rewrite virt_cons. unfold expand. cbn [fst snd]. rewrite lookup_singleton. cbn. by rewrite app_nil_r.
  - rewrite lookup_insert_ne by done. destruct (P !! g) as [y|] eqn:E.
    + destruct (Hc g y E) as [H0 H1]. symmetry. apply virt_none. intros u k M. apply elem_expand1 in M.
      apply lookup_singleton_ne. naive_solver.
    + symmetry. apply virt_none. intros u k M%elem_of_list_singleton. injection M as -> ->. by apply lookup_singleton_ne.
Qed.

(** Occurrences of one edge. *)
Lemma only_once (l1 l2 : list (N * N)) v e : NoDup ((l1 ++ (v, e) :: l2).*2) -> e ∉ l1.*2 /\ e ∉ l2.*2.
Proof.
  rewrite fmap_app, fmap_cons. cbn. intros H. apply NoDup_app in H as (_ & H1 & H2). apply NoDup_cons in H2 as [H2 _].
  split; [|done]. intros M. apply (H1 e M). apply elem_of_list_here.
Qed.

Lemma virt_single e x l1 l2 v : e ∉ l1.*2 -> e ∉ l2.*2 ->
  virt {[e := x]} (l1 ++ (v, e) :: l2) = l1 ++ expand1 x v ++ l2.
Proof.
  intros H1 H2. rewrite virt_app, virt_cons. unfold expand. cbn [fst snd]. rewrite lookup_singleton.
  assert (A : forall l, e ∉ l.*2 -> virt {[e := x]} l = l).
  { intros l Hl. apply virt_none. intros u k M. apply lookup_singleton_ne. intros <-. apply Hl.
    apply elem_of_list_fmap. by exists (u, e). }
  by rewrite !A.
Qed.

Section split.
Context (P : gmap N pend) (V V' : view) (e w s0 s1 a b : N).
Context (I : inv P V) (H : edge_split e w s0 s1 a b V V').
Context (Hch : forall g y, P !! g = Some y -> p0 y <> e /\ p1 y <> e).
Notation x := (Pend a b w s0 s1).
Notation P' := (<[e := x]> P).

Local Lemma e_lt : (e < vn V D1)%N.
Proof. apply (i_lt P V I D1). apply H. Qed.
Local Lemma e_none : P !! e = None.
Proof. destruct (P !! e) as [y|] eqn:E; [|done]. destruct (i_pend P V I e y E) as [A _]. rewrite (es_act _ _ _ _ _ _ _ _ H) in A. done. Qed.
Local Lemma s0_no : va V D1 s0 = false.
Proof.
  destruct (va V D1 s0) eqn:E; [|done]. apply (i_lt P V I) in E. rewrite (es_s0 _ _ _ _ _ _ _ _ H) in E. lia.
Qed.
Local Lemma s1_no : va V D1 s1 = false.
Proof.
  destruct (va V D1 s1) eqn:E; [|done]. apply (i_lt P V I) in E. rewrite (es_s1 _ _ _ _ _ _ _ _ H) in E. lia.
Qed.
Local Lemma w_no : va V D0 w = false.
Proof.
  destruct (va V D0 w) eqn:E; [|done]. apply (i_lt P V I) in E. rewrite (es_w _ _ _ _ _ _ _ _ H) in E. lia.
Qed.
Local Lemma s01 : s0 <> s1.
Proof. rewrite (es_s0 _ _ _ _ _ _ _ _ H), (es_s1 _ _ _ _ _ _ _ _ H). lia. Qed.
Local Lemma ne0 : e <> s0.
Proof. pose proof e_lt. rewrite (es_s0 _ _ _ _ _ _ _ _ H). lia. Qed.
Local Lemma ne1 : e <> s1.
Proof. pose proof e_lt. rewrite (es_s1 _ _ _ _ _ _ _ _ H). lia. Qed.

Local Lemma virtE l : virt P' l = virt {[e := x]} (virt P l).
Proof. apply virt_insert; [apply e_none|apply Hch]. Qed.

Local Lemma keep_act i : va V D1 i = true -> i <> e -> va V' D1 i = true.
Proof. intros A B. rewrite (es_va1 _ _ _ _ _ _ _ _ H), decide_False by done. by case_decide. Qed.
Local Lemma keep_ve i : va V D1 i = true -> ve V' i = ve V i.
Proof.
  intros A. apply (es_ve _ _ _ _ _ _ _ _ H); intros ->; [rewrite s0_no in A|rewrite s1_no in A]; done.
Qed.
Local Lemma keep_vert i : va V D0 i = true -> va V' D0 i = true.
Proof. intros A. rewrite (es_va0 _ _ _ _ _ _ _ _ H). by case_decide. Qed.

(** The ends of the edge are different when a polygon has it. *)
Local Lemma at_end L v : good V L -> (v, e) ∈ L -> v = a \/ v = b.
Proof.
  intros G M. destruct (linked_at V L _ v e (gd_link V L G) M) as (u & [J|J] & _); rewrite (es_ends _ _ _ _ _ _ _ _ H) in J;
    injection J as -> ->; auto.
Qed.

Local Lemma good_split L : a <> b -> good V L -> good V' (virt {[e := x]} L).
Proof.
  intros Hab G. destruct (decide (e ∈ L.*2)) as [M|M].
  2:{ rewrite virt_none.
      - eapply good_mono; [apply keep_vert| | |exact G].
        + intros v g Mg A. apply keep_act; [done|]. intros ->. apply M. apply elem_of_list_fmap. by exists (v, e).
        + intros v g Mg. apply keep_ve. by apply (gd_act V L G v g).
      - intros v g Mg. apply lookup_singleton_ne. intros <-. apply M. apply elem_of_list_fmap. by exists (v, e). }
  apply elem_of_list_fmap in M as ([v g] & E & M). cbn in E. subst g.
  pose proof (at_end L v G M) as Hv. apply elem_of_list_split in M as (l1 & l2 & ->).
  destruct (only_once l1 l2 v e (gd_es V _ G)) as [N1 N2]. rewrite virt_single by done.
  destruct G as [G1 G2 G3 G4 G5].
  assert (Hnew : forall u g, (u, g) ∈ l1 ++ (v, e) :: l2 -> u <> w /\ g <> s0 /\ g <> s1).
  { intros u g M. destruct (G4 u g M) as [A B]. split_and!; intros ->.
    - by rewrite w_no in A. - by rewrite s0_no in B. - by rewrite s1_no in B. }
  assert (F : forall l, (forall u g, (u, g) ∈ l -> (u, g) ∈ l1 ++ (v, e) :: l2) -> w ∉ l.*1 /\ s0 ∉ l.*2 /\ s1 ∉ l.*2).
  { intros l Hl. split_and!; intros ([u g] & E & M)%elem_of_list_fmap; cbn in E; subst; apply Hl, Hnew in M; naive_solver. }
  destruct (F l1) as (F1 & F2 & F3). { intros u g M. apply elem_of_app. by left. }
  destruct (F l2) as (F4 & F5 & F6). { intros u g M. apply elem_of_app. right. by apply elem_of_list_further. }
  assert (Hvw : v <> w). { apply (Hnew v e). apply elem_of_app. right. apply elem_of_list_here. }
  set (q0 := if decide (v = a) then s0 else s1). set (q1 := if decide (v = a) then s1 else s0).
  assert (Eq : expand1 x v = [(v, q0); (w, q1)]). { unfold expand1, q0, q1. cbn. by case_decide. }
  rewrite Eq. rewrite fmap_app, fmap_cons in G2, G3. cbn in G2, G3.
  apply NoDup_app in G2 as (D1' & D2' & D3'). apply NoDup_cons in D3' as [D3' D4'].
  apply NoDup_app in G3 as (D5' & D6' & D7'). apply NoDup_cons in D7' as [D7' D8'].
  assert (Hq : q0 <> q1 /\ (q0 = s0 \/ q0 = s1) /\ (q1 = s0 \/ q1 = s1)).
  { unfold q0, q1. pose proof s01. case_decide; auto. }
  destruct Hq as (Hq01 & Hq0 & Hq1).
  split.
  - rewrite !app_length in *. cbn in *. lia.
  - rewrite !fmap_app. cbn. apply NoDup_app. split_and!; [done| |].
    + intros y My [->|[->|Mm]%elem_of_cons]%elem_of_cons; [|done|].
      * apply (D2' v My). apply elem_of_list_here.
      * apply (D2' y My). by apply elem_of_list_further.
    + apply NoDup_cons. split; [|by apply NoDup_cons]. rewrite elem_of_cons. intros [E|E]; [by apply Hvw|by apply D3'].
  - rewrite !fmap_app. cbn. apply NoDup_app. split_and!; [done| |].
    + intros y My [->|[->|Mm]%elem_of_cons]%elem_of_cons.
      * destruct Hq0 as [E|E]; rewrite E in My; [by apply F2|by apply F3].
      * destruct Hq1 as [E|E]; rewrite E in My; [by apply F2|by apply F3].
      * apply (D6' y My). by apply elem_of_list_further.
    + apply NoDup_cons. split.
      * rewrite elem_of_cons. intros [E|E]; [done|]. destruct Hq0 as [E'|E']; rewrite E' in E; [by apply F5|by apply F6].
      * apply NoDup_cons. split; [|done]. intros E. destruct Hq1 as [E'|E']; rewrite E' in E; [by apply F5|by apply F6].
  - intros u g. rewrite elem_of_app, elem_of_app, !elem_of_cons.
    assert (Anew : forall s, s = s0 \/ s = s1 -> va V' D1 s = true).
    { intros s Hs. rewrite (es_va1 _ _ _ _ _ _ _ _ H), decide_False, decide_True by (done || (pose proof ne0; pose proof ne1; naive_solver)). done. }
    assert (Aold : forall u g, (u, g) ∈ l1 \/ (u, g) ∈ l2 -> va V' D0 u = true /\ va V' D1 g = true).
    { intros u' g' M. assert (M' : (u', g') ∈ l1 ++ (v, e) :: l2).
      { apply elem_of_app. rewrite elem_of_cons. destruct M; auto. }
      destruct (G4 u' g' M') as [A B]. split; [by apply keep_vert|]. apply keep_act; [done|]. intros ->.
      destruct M as [M|M]; [apply N1|apply N2]; apply elem_of_list_fmap; by exists (u', e). }
    intros [M|[[M|[M|M]]|M]].
    + apply Aold; auto.
    + injection M as -> ->. split; [|by apply Anew]. apply keep_vert. apply (G4 v e). apply elem_of_app. right. apply elem_of_list_here.
    + injection M as -> ->. split; [|by apply Anew]. by rewrite (es_va0 _ _ _ _ _ _ _ _ H), decide_True.
    + by apply elem_of_nil in M.
    + apply Aold; auto.
  - assert (Hst : start (l1 ++ [(v, q0); (w, q1)] ++ l2) 0 = start (l1 ++ (v, e) :: l2) 0) by (rewrite !start_app; done).
    rewrite Hst. set (z := start (l1 ++ (v, e) :: l2) 0) in *. clearbody z.
    rewrite linked_app in G5. cbn in G5. destruct G5 as (L1 & L2 & L3).
    assert (K : forall l t, (forall u g, (u, g) ∈ l -> (u, g) ∈ l1 ++ (v, e) :: l2) -> linked V l t -> linked V' l t).
    { intros l t Hl. apply linked_mono. intros g v' w' [u Mu]. unfold joined. rewrite keep_ve; [done|]. by apply (G4 u g), Hl. }
    rewrite linked_app. cbn. split.
    { apply K; [|done]. intros u g M. apply elem_of_app. by left. }
    split_and!.
    + unfold joined, q0. unfold joined in L2. rewrite (es_ends _ _ _ _ _ _ _ _ H) in L2.
      destruct (decide (v = a)) as [->|Hne].
      * left. apply (es_ve0 _ _ _ _ _ _ _ _ H).
      * right. rewrite (es_ve1 _ _ _ _ _ _ _ _ H). destruct Hv; congruence.
    + unfold joined, q1. unfold joined in L2. rewrite (es_ends _ _ _ _ _ _ _ _ H) in L2.
      destruct (decide (v = a)) as [->|Hne].
      * left. rewrite (es_ve1 _ _ _ _ _ _ _ _ H). destruct L2 as [L2|L2]; injection L2; intros; congruence.
      * right. rewrite (es_ve0 _ _ _ _ _ _ _ _ H). destruct L2 as [L2|L2]; injection L2; intros; congruence.
    + apply K; [|done]. intros u g M. apply elem_of_app. right. by apply elem_of_list_further.
Qed.

Local Lemma slot_old p q : p.2 <> e -> p.2 <> s0 -> p.2 <> s1 -> slot P V p q -> slot P' V' p q.
Proof.
  destruct p as [v g]. cbn. intros Hg H0 H1 [A B].
  assert (E : forall l, (v, g) ∈ virt P' l <-> (v, g) ∈ virt P l).
  { intros l. rewrite virtE. rewrite elem_virt. split.
    - intros [[_ M]|(u & k & y & E & M & Q)]; [done|]. apply lookup_singleton_Some in E as [<- <-].
      apply elem_expand1 in Q. cbn in Q. naive_solver.
    - intros M. left. split; [by apply lookup_singleton_ne|done]. }
  split.
  - intros c l Hc Hl M. rewrite (es_va2 _ _ _ _ _ _ _ _ H) in Hc. rewrite (es_vp _ _ _ _ _ _ _ _ H) in Hl. apply E in M.
    by eapply A.
  - destruct B as [->|(l & Hc & Hl & M)]; [by left|right]. exists l. rewrite (es_va2 _ _ _ _ _ _ _ _ H), (es_vp _ _ _ _ _ _ _ _ H).
    split_and!; [done..|]. by apply E.
Qed.

(** A side of the edge becomes the same side of both halves. *)
Local Lemma slot_new v u s q : (forall L, good V L -> (u, s) ∈ virt {[e := x]} L <-> (v, e) ∈ L) ->
  slot P V (v, e) q -> slot P' V' (u, s) q.
Proof.
  intros E [A B]. split.
  - intros c l Hc Hl M. rewrite (es_va2 _ _ _ _ _ _ _ _ H) in Hc. rewrite (es_vp _ _ _ _ _ _ _ _ H) in Hl.
    destruct (i_poly P V I c Hc) as (_ & l' & Hl' & G). rewrite Hl in Hl'. injection Hl' as <-.
    rewrite virtE in M. apply E in M; [|done]. by eapply A.
  - destruct B as [->|(l & Hc & Hl & M)]; [by left|right]. exists l. rewrite (es_va2 _ _ _ _ _ _ _ _ H), (es_vp _ _ _ _ _ _ _ _ H).
    split_and!; [done..|]. destruct (i_poly P V I q Hc) as (_ & l' & Hl' & G). rewrite Hl in Hl'. injection Hl' as <-.
    rewrite virtE. by apply E.
Qed.

Local Lemma in_half L u s : good V L -> s = s0 \/ s = s1 ->
  (u, s) ∈ virt {[e := x]} L <-> exists k, (k, e) ∈ L /\ (u, s) ∈ expand1 x k.
Proof.
  intros G Hs. rewrite elem_virt. split.
  - intros [[_ M]|(k & g & y & E & M & Q)].
    + exfalso. destruct (gd_act V L G u s M) as [_ A]. destruct Hs as [->| ->]; [rewrite s0_no in A|rewrite s1_no in A]; done.
    + apply lookup_singleton_Some in E as [<- <-]. by exists k.
  - intros (k & M & Q). right. exists k, e, x. split; [apply lookup_singleton|done].
Qed.

Lemma split_inv : a <> b -> va V D0 a = true -> va V D0 b = true -> inv P' V'.
Proof.
  intros Hab Ha Hb.
  assert (Haw : a <> w) by (intros E; rewrite E, w_no in Ha; done).
  assert (Hbw : b <> w) by (intros E; rewrite E, w_no in Hb; done).
  split.
  - intros d i Hi. destruct d.
    + rewrite (es_va0 _ _ _ _ _ _ _ _ H) in Hi. rewrite (es_n0 _ _ _ _ _ _ _ _ H). case_decide as E.
      * rewrite E, (es_w _ _ _ _ _ _ _ _ H). lia.
      * apply (i_lt P V I) in Hi. lia.
    + rewrite (es_va1 _ _ _ _ _ _ _ _ H) in Hi. rewrite (es_n1 _ _ _ _ _ _ _ _ H). case_decide; [done|]. case_decide as E.
      * rewrite (es_s0 _ _ _ _ _ _ _ _ H), (es_s1 _ _ _ _ _ _ _ _ H) in E. lia.
      * apply (i_lt P V I) in Hi. lia.
    + rewrite (es_va2 _ _ _ _ _ _ _ _ H) in Hi. rewrite (es_n2 _ _ _ _ _ _ _ _ H). by apply (i_lt P V I) in Hi.
    + by apply (es_va3 _ _ _ _ _ _ _ _ H).
  - rewrite (es_n2 _ _ _ _ _ _ _ _ H). apply (i_small P V I).
  - intros c Hc. rewrite (es_va2 _ _ _ _ _ _ _ _ H) in Hc. destruct (i_poly P V I c Hc) as (U & l & Hl & G).
    rewrite (es_vu _ _ _ _ _ _ _ _ H), (es_vp _ _ _ _ _ _ _ _ H). split; [done|]. exists l. split; [done|].
    rewrite virtE. by apply good_split.
  - intros g Hg. rewrite (es_va1 _ _ _ _ _ _ _ _ H) in Hg. case_decide as Hge; [done|].
    destruct (i_edge P V I e (es_act _ _ _ _ _ _ _ _ H)) as (a' & b' & r & l & E1 & E2 & Sr & Sl).
    rewrite (es_ends _ _ _ _ _ _ _ _ H) in E1. injection E1 as <- <-.
    assert (Fix : forall q p, slot P V p q -> (if (q <? vn V D2)%N then q else UINT_MAX) = q).
    { intros q p [_ [->|(k & Hk & _)]]; [by destruct (_ <? _)%N|]. apply (i_lt P V I) in Hk. by apply N.ltb_lt in Hk as ->. }
    assert (Row : forall s, s = s0 \/ s = s1 -> vr V' s = Some [r; l]).
    { intros s Hs. rewrite (es_vrs _ _ _ _ _ _ _ _ H s Hs _ E2). cbn. by rewrite (Fix r _ Sr), (Fix l _ Sl). }
    destruct (decide (g = s0)) as [->|Hs0].
    { exists a, w, r, l. rewrite (es_ve0 _ _ _ _ _ _ _ _ H), (Row s0 (or_introl eq_refl)). split_and!; [done..| |].
      - eapply slot_new; [|exact Sr]. intros L G. rewrite in_half by auto. split.
        + intros (k & M & Q). apply elem_expand1 in Q. cbn in Q. pose proof s01. destruct (at_end L k G M); naive_solver.
        + intros M. exists b. split; [done|]. apply elem_expand1. cbn. right. split; [congruence|]. by right.
      - eapply slot_new; [|exact Sl]. intros L G. rewrite in_half by auto. split.
        + intros (k & M & Q). apply elem_expand1 in Q. cbn in Q. pose proof s01. destruct (at_end L k G M); naive_solver.
        + intros M. exists a. split; [done|]. apply elem_expand1. cbn. left. split; [done|]. by left. }
    destruct (decide (g = s1)) as [->|Hs1].
    { exists w, b, r, l. rewrite (es_ve1 _ _ _ _ _ _ _ _ H), (Row s1 (or_intror eq_refl)). split_and!; [done..| |].
      - eapply slot_new; [|exact Sr]. intros L G. rewrite in_half by auto. split.
        + intros (k & M & Q). apply elem_expand1 in Q. cbn in Q. pose proof s01. destruct (at_end L k G M); naive_solver.
        + intros M. exists b. split; [done|]. apply elem_expand1. cbn. right. split; [congruence|]. by left.
      - eapply slot_new; [|exact Sl]. intros L G. rewrite in_half by auto. split.
        + intros (k & M & Q). apply elem_expand1 in Q. cbn in Q. pose proof s01. destruct (at_end L k G M); naive_solver.
        + intros M. exists a. split; [done|]. apply elem_expand1. cbn. left. split; [done|]. by right. }
    rewrite decide_False in Hg by naive_solver.
    destruct (i_edge P V I g Hg) as (ga & gb & gr & gl & G1 & G2 & G3 & G4). exists ga, gb, gr, gl.
    rewrite (es_ve _ _ _ _ _ _ _ _ H), (es_vr _ _ _ _ _ _ _ _ H) by done. split_and!; [done..| |]; by apply slot_old.
  - assert (PS : forall g v q, pslot V g v q -> pslot V' g v q).
    { intros g v q [A B]. split.
      - intros c l Hc Hl. rewrite (es_va2 _ _ _ _ _ _ _ _ H) in Hc. rewrite (es_vp _ _ _ _ _ _ _ _ H) in Hl. by eapply A.
      - rewrite (es_vu _ _ _ _ _ _ _ _ H), (es_n2 _ _ _ _ _ _ _ _ H), (es_va2 _ _ _ _ _ _ _ _ H), (es_vp _ _ _ _ _ _ _ _ H). done. }
    intros g y Hy. destruct (decide (g = e)) as [->|Hge].
    { rewrite lookup_insert in Hy. injection Hy as <-. cbn. pose proof ne0. pose proof ne1. pose proof s01.
      rewrite !(es_va1 _ _ _ _ _ _ _ _ H), (decide_True (P := e = e)) by done.
      rewrite !(decide_False (P := s0 = e)), !(decide_False (P := s1 = e)) by congruence.
      rewrite !decide_True by auto. rewrite (es_va0 _ _ _ _ _ _ _ _ H), decide_True by done.
      rewrite (es_ve _ _ _ _ _ _ _ _ H), (es_vr _ _ _ _ _ _ _ _ H), (es_n1 _ _ _ _ _ _ _ _ H) by done.
      pose proof e_lt. split_and!; [done|lia|apply (es_ends _ _ _ _ _ _ _ _ H)|done..|apply (es_ve0 _ _ _ _ _ _ _ _ H)|apply (es_ve1 _ _ _ _ _ _ _ _ H)|].
      destruct (i_edge P V I e (es_act _ _ _ _ _ _ _ _ H)) as (a' & b' & r & l & E1 & E2 & Sr & Sl).
      rewrite (es_ends _ _ _ _ _ _ _ _ H) in E1. injection E1 as <- <-. exists r, l. split; [done|].
      assert (Mk : forall v q, slot P V (v, e) q -> pslot V e v q).
      { intros v q [A B]. split.
        - intros c k Hc Hk M. eapply A; [done..|]. apply elem_virt. left. split; [apply e_none|done].
        - destruct B as [->|(k & Hc & Hk & M)]; [by left|right; right]. exists k, v. split_and!; [done..|].
          apply elem_virt in M as [[_ M]|(u & g & y & Ey & M & Q)]; [done|]. exfalso. destruct (Hch g y Ey). apply elem_expand1 in Q. naive_solver. }
      split; apply PS, Mk; done. }
    rewrite lookup_insert_ne in Hy by done. destruct (i_pend P V I g y Hy) as (A1 & A2 & A3 & A4 & A5 & A6 & A7 & A8 & A9 & A10 & r & l & A11 & A12 & A13).
    destruct (Hch g y Hy) as [C0 C1].
    assert (G0 : g <> s0) by (rewrite (es_s0 _ _ _ _ _ _ _ _ H); lia).
    assert (G1 : g <> s1) by (rewrite (es_s1 _ _ _ _ _ _ _ _ H); lia).
    assert (B0 : p0 y <> s0 /\ p0 y <> s1 /\ p1 y <> s0 /\ p1 y <> s1).
    { split_and!; intros E; rewrite E in *; (rewrite s0_no in * || rewrite s1_no in *); done. }
    destruct B0 as (B1 & B2 & B3 & B4).
    rewrite (es_va1 _ _ _ _ _ _ _ _ H), decide_False, decide_False by naive_solver.
    rewrite (es_ve _ _ _ _ _ _ _ _ H), (es_vr _ _ _ _ _ _ _ _ H), (es_n1 _ _ _ _ _ _ _ _ H), !keep_ve by done.
    split_and!; [done|lia|done|done|by apply keep_act|by apply keep_act|done|by apply keep_vert|done|done|].
    exists r, l. split; [done|]. split; by apply PS.
Qed.
End split.
