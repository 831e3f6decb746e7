(** * Replacing a polygon. *)
From Verif Require Import Base MeshModel RefineView.

(** The references to [c] next to edge [g] become references to the first new polygon having [g]. *)
Definition redirect (c n : N) (subs : list (list (N * N))) (g q : N) : N :=
  match list_find (fun row => g ∈ row.*2) subs with
  | Some (j, _) => if (q =? c)%N then (n + N.of_nat j)%N else q
  | None => q
  end.

Record replaced (c : N) (subs : list (list (N * N))) (V V' : view) : Prop := {
  rp_n0 : vn V' D0 = vn V D0;
  rp_n1 : (vn V D1 <= vn V' D1)%N;
  rp_n2 : vn V' D2 = (vn V D2 + N.of_nat (length subs))%N;
  rp_va0 : forall i, va V' D0 i = va V D0 i;
  rp_va1 : forall i, va V D1 i = true -> va V' D1 i = true;
  rp_lt1 : forall i, va V' D1 i = true -> (i < vn V' D1)%N;
  rp_old1 : forall i, (i < vn V D1)%N -> va V' D1 i = va V D1 i;
  rp_va2 : forall i, va V' D2 i = if decide (i = c) then false else if decide (vn V D2 <= i < vn V' D2)%N then true else va V D2 i;
  rp_lt3 : forall i, va V' D3 i = true -> (i < vn V' D3)%N;
  rp_ve : forall i, (i < vn V D1)%N -> ve V' i = ve V i;
  rp_vp : forall i, (i < vn V D2)%N -> vp V' i = vp V i;
  rp_new : forall j row, subs !! j = Some row -> vp V' (vn V D2 + N.of_nat j) = Some row;
  rp_vr : forall i l, (i < vn V D1)%N -> vr V i = Some l -> vr V' i = Some (redirect c (vn V D2) subs i <$> l);
  rp_vu : forall i, (i < vn V D2)%N -> i <> c -> vu V' i = vu V i;
  rp_vuc : vu V' c = true;
  rp_vun : forall i, (vn V D2 <= i < vn V' D2)%N -> vu V' i = false
}.

(** The active polygons. *)
Lemma act_cases P V V' c subs i : inv P V -> replaced c subs V V' -> va V' D2 i = true ->
  (va V D2 i = true /\ i <> c /\ (i < vn V D2)%N /\ vp V' i = vp V i) \/
  (exists j row, i = (vn V D2 + N.of_nat j)%N /\ subs !! j = Some row /\ vp V' i = Some row).
Proof.
  intros I H A. set (n := vn V D2) in *. rewrite (rp_va2 _ _ _ _ H) in A. case_decide as E; [done|]. case_decide as F.
  - right. rewrite (rp_n2 _ _ _ _ H) in F. destruct (lookup_lt_is_Some_2 subs (N.to_nat (i - n))) as [row Hrow]; [lia|].
    exists (N.to_nat (i - n)), row. assert (Ei : i = (n + N.of_nat (N.to_nat (i - n)))%N) by lia.
    split_and!; [done..|]. rewrite Ei. by apply (rp_new _ _ _ _ H).
  - left. pose proof (i_lt P V I D2 i A). split_and!; [done..|]. by apply (rp_vp _ _ _ _ H).
Qed.

Section replace.
Context (P : gmap N pend) (V V' : view) (c : N) (l : list (N * N)) (subs : list (list (N * N))).
Context (I : inv P V) (H : replaced c subs V V').
Context (Hc : va V D2 c = true) (Hl : vp V c = Some l).
Context (Hsmall : (vn V' D2 <= UINT_MAX)%N).
Context (Hgood : forall j row, subs !! j = Some row -> good V' row).
Context (Hsame : forall v g, va V D1 g = true -> (v, g) ∈ virt P l <-> exists j row, subs !! j = Some row /\ (v, g) ∈ row).
Context (Honce : forall g i j row row', va V D1 g = true -> subs !! i = Some row -> subs !! j = Some row' ->
  g ∈ row.*2 -> g ∈ row'.*2 -> i = j).
Context (Hnew : forall g, va V' D1 g = true -> va V D1 g = false ->
  exists a b r t, ve V' g = Some (a, b) /\ vr V' g = Some [r; t] /\ slot P V' (b, g) r /\ slot P V' (a, g) t).

Notation n := (vn V D2).

Local Lemma c_lt : (c < n)%N.
Proof. by apply (i_lt P V I D2). Qed.

(** The new polygons have no pending edge. *)
Local Lemma pend_out e x : P !! e = Some x -> va V' D1 e = false.
Proof. intros E. destruct (i_pend P V I e x E) as (A & B & _). by rewrite (rp_old1 _ _ _ _ H). Qed.
Local Lemma sub_virt j row : subs !! j = Some row -> virt P row = row.
Proof.
  intros E. apply virt_none. intros v e M. destruct (P !! e) as [x|] eqn:Ex; [|done].
  pose proof (pend_out e x Ex) as A. destruct (gd_act V' row (Hgood j row E) v e M) as [_ B]. by rewrite A in B.
Qed.

Local Lemma act_old i : va V D2 i = true -> i <> c -> va V' D2 i = true /\ vp V' i = vp V i.
Proof.
  intros A B. pose proof (i_lt P V I D2 i A). split; [|by apply (rp_vp _ _ _ _ H)].
  rewrite (rp_va2 _ _ _ _ H), decide_False by done. by case_decide.
Qed.
Local Lemma act_sub j row : subs !! j = Some row -> va V' D2 (n + N.of_nat j) = true /\ vp V' (n + N.of_nat j) = Some row.
Proof.
  intros E. pose proof (lookup_lt_Some _ _ _ E). pose proof c_lt. split; [|by apply (rp_new _ _ _ _ H)].
  rewrite (rp_va2 _ _ _ _ H), decide_False, decide_True; [done| |lia]. rewrite (rp_n2 _ _ _ _ H). lia.
Qed.

(** In which new polygon an edge is. *)
Local Lemma redirect_in v g j row q : va V D1 g = true -> subs !! j = Some row -> (v, g) ∈ row ->
  redirect c n subs g q = if (q =? c)%N then (n + N.of_nat j)%N else q.
Proof.
  intros A E M. unfold redirect. assert (Mg : g ∈ row.*2) by (apply elem_of_list_fmap; by exists (v, g)).
  destruct (list_find (fun row => g ∈ row.*2) subs) as [[j' row']|] eqn:F.
  - apply list_find_Some in F as (F1 & F2 & _). by rewrite (Honce g j' j row' row A F1 E F2 Mg).
  - exfalso. apply list_find_None in F. rewrite Forall_lookup in F. by apply (F j row E).
Qed.

Local Lemma slot_replaced v g q : va V D1 g = true -> slot P V (v, g) q -> slot P V' (v, g) (redirect c n subs g q).
Proof.
  intros A [S1 S2]. destruct (decide ((v, g) ∈ virt P l)) as [M|M].
  - assert (q = c) as -> by (by eapply S1). apply Hsame in M as (j & row & Ej & M); [|done].
    rewrite (redirect_in v g j row c A Ej M), N.eqb_refl. split.
    + intros i k Hi Hk Mk. destruct (act_cases P V V' c subs i I H Hi) as [(B1 & B2 & B3 & B4)|(j' & row' & -> & E' & B)].
      * rewrite B4 in Hk. exfalso. apply B2. symmetry. by eapply S1.
      * rewrite Hk in B. injection B as <-. rewrite (sub_virt j' k E') in Mk.
        rewrite (Honce g j j' row k A Ej E'); [done|..]; apply elem_of_list_fmap; by exists (v, g).
    + right. exists row. destruct (act_sub j row Ej). rewrite (sub_virt j row Ej). done.
  - assert (Hq : redirect c n subs g q = q).
    { unfold redirect. destruct (list_find _ _) as [[j row]|]; [|done]. destruct (N.eqb_spec q c) as [->|]; [|done].
      exfalso. destruct S2 as [E|(k & B1 & B2 & B3)].
      - pose proof c_lt. rewrite E in *. rewrite (rp_n2 _ _ _ _ H) in Hsmall. lia.
      - rewrite Hl in B2. by injection B2 as <-. }
    rewrite Hq. split.
    + intros i k Hi Hk Mk. destruct (act_cases P V V' c subs i I H Hi) as [(B1 & B2 & B3 & B4)|(j' & row' & -> & E' & B)].
      * rewrite B4 in Hk. by eapply S1.
      * rewrite Hk in B. injection B as <-. rewrite (sub_virt j' k E') in Mk. exfalso. apply M, Hsame; [done|]. by exists j', k.
    + destruct S2 as [->|(k & B1 & B2 & B3)]; [by left|right]. exists k.
      destruct (act_old q B1) as [C1 C2]; [|by rewrite C2]. intros ->. rewrite Hl in B2. by injection B2 as <-.
Qed.

Lemma replace_inv : inv P V'.
Proof.
  split.
  - intros d i Hi. destruct d.
    + rewrite (rp_va0 _ _ _ _ H) in Hi. rewrite (rp_n0 _ _ _ _ H). by apply (i_lt P V I) in Hi.
    + by apply (rp_lt1 _ _ _ _ H).
    + destruct (act_cases P V V' c subs i I H Hi) as [(B1 & B2 & B3 & B4)|(j' & row' & -> & E' & B)]; rewrite (rp_n2 _ _ _ _ H); [lia|].
      apply lookup_lt_Some in E'. lia.
    + by apply (rp_lt3 _ _ _ _ H).
  - done.
  - intros i Hi. destruct (act_cases P V V' c subs i I H Hi) as [(B1 & B2 & B3 & B4)|(j' & row' & -> & E' & B)].
    + destruct (i_poly P V I i B1) as (U & k & Hk & G). split; [by rewrite (rp_vu _ _ _ _ H)|]. exists k. split; [by rewrite B4|].
      eapply good_mono; [| | |exact G].
      * intros v. by rewrite (rp_va0 _ _ _ _ H).
      * intros v e _. apply (rp_va1 _ _ _ _ H).
      * intros v e M. apply (rp_ve _ _ _ _ H). apply (i_lt P V I D1). by apply (gd_act V _ G v e M).
    + split.
      * apply (rp_vun _ _ _ _ H). rewrite (rp_n2 _ _ _ _ H). apply lookup_lt_Some in E'. lia.
      * exists row'. split; [done|]. rewrite (sub_virt j' row' E'). by eapply Hgood.
  - intros g Hg. destruct (va V D1 g) eqn:E; [|by apply Hnew].
    destruct (i_edge P V I g E) as (a & b & r & t & E1 & E2 & S1 & S2). pose proof (i_lt P V I D1 g E).
    exists a, b, (redirect c n subs g r), (redirect c n subs g t). split_and!.
    + by rewrite (rp_ve _ _ _ _ H).
    + by rewrite (rp_vr _ _ _ _ H g _ ltac:(done) E2).
    + by apply slot_replaced.
    + by apply slot_replaced.
  - intros e x Hx. destruct (i_pend P V I e x Hx) as (A1 & A2 & A3 & A4 & A5 & A6 & A7 & A8 & A9 & A10 & r & t & A11 & A12 & A13).
    rewrite (rp_old1 _ _ _ _ H), (rp_ve _ _ _ _ H), (rp_va0 _ _ _ _ H) by done.
    rewrite !(rp_ve _ _ _ _ H) by (by apply (i_lt P V I D1)). pose proof (rp_n1 _ _ _ _ H).
    split_and!; [done|lia|done|done|by apply (rp_va1 _ _ _ _ H)|by apply (rp_va1 _ _ _ _ H)|done..|].
    assert (NF : list_find (fun row => e ∈ row.*2) subs = None).
    { apply list_find_None, Forall_lookup. intros j row Ej ([v e'] & E & M)%elem_of_list_fmap. cbn in E. subst e'.
      destruct (gd_act V' row (Hgood j row Ej) v e M) as [_ B]. by rewrite (pend_out e x Hx) in B. }
    exists r, t. rewrite (rp_vr _ _ _ _ H e _ A2 A11). unfold redirect. rewrite NF. cbn. split; [done|].
    assert (PS : forall v q, pslot V e v q -> pslot V' e v q).
    { intros v q [B1 B2]. split.
      - intros i k Hi Hk M. destruct (act_cases P V V' c subs i I H Hi) as [(C1 & C2 & C3 & C4)|(j' & row' & -> & E' & B)].
        + rewrite C4 in Hk. by eapply B1.
        + rewrite Hk in B. injection B as <-. exfalso. destruct (gd_act V' k (Hgood j' k E') v e M) as [_ C]. by rewrite (pend_out e x Hx) in C.
      - destruct B2 as [->|[[C1 C2]|(k & w & C1 & C2 & C3)]]; [by left| |].
        + right. left. rewrite (rp_n2 _ _ _ _ H). split; [|lia]. destruct (decide (q = c)) as [->|Hq]; [apply (rp_vuc _ _ _ _ H)|].
          by rewrite (rp_vu _ _ _ _ H).
        + destruct (decide (q = c)) as [->|Hq].
          * right. left. split; [apply (rp_vuc _ _ _ _ H)|]. rewrite (rp_n2 _ _ _ _ H). pose proof c_lt. lia.
          * right. right. exists k, w. destruct (act_old q C1 Hq) as [D1' D2']. by rewrite D2'. }
    split; by apply PS.
Qed.
End replace.

(** Dropping a pending edge which no polygon has any more. *)
Lemma drop_inv P V e : inv P V -> (forall c l v, va V D2 c = true -> vp V c = Some l -> (v, e) ∉ l) -> inv (delete e P) V.
Proof.
  intros I Hno.
  assert (Ev : forall c l, va V D2 c = true -> vp V c = Some l -> virt (delete e P) l = virt P l).
  { intros c l Hc Hl. apply virt_ext. intros v g M. apply lookup_delete_ne. intros <-. by eapply Hno. }
  assert (Sl : forall p q, slot P V p q -> slot (delete e P) V p q).
  { intros p q [A B]. split.
    - intros c l Hc Hl M. rewrite (Ev c l Hc Hl) in M. by eapply A.
    - destruct B as [->|(l & Hc & Hl & M)]; [by left|right]. exists l. rewrite (Ev q l Hc Hl). done. }
  split; [apply (i_lt P V I)|apply (i_small P V I)|..].
  - intros c Hc. destruct (i_poly P V I c Hc) as (U & l & Hl & G). split; [done|]. exists l. split; [done|]. by rewrite (Ev c l Hc Hl).
  - intros g Hg. destruct (i_edge P V I g Hg) as (a & b & r & t & E1 & E2 & S1 & S2). exists a, b, r, t. split_and!; [done..| |]; by apply Sl.
  - intros g x. rewrite lookup_delete_Some. intros [_ Hx]. by apply (i_pend P V I g x).
Qed.
