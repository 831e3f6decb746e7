(** Genealogy queries (C08, C09) and look-ups (C13). *)
From Verif Require Import Base BaseProof CsrModel CsrSpec CsrProof MeshModel MeshSpec MeshRep MeshHist
  MeshProof MeshProof2 MeshProof3 MeshProof4 MeshProof5 MeshProof6 MeshProof7 MeshProof8 MeshProof9 MeshProofA MeshProofB
  MeshProofC MeshProofD.
From stdpp Require Import relations.
From Coq Require Import ZifyBool ZifyNat ZifyN.

Lemma replaced_set m a d i x :
  represents m a -> am_cells a d !! i = Some x ->
  forall s, ac_upd x = Some s -> forall v, v ∈ s <-> exists j, v = N.of_nat j /\ replaced_by d m i j.
Proof.
  intros H Hx s Hu v. pose proof (rc_upd_ok _ _ _ _ _ _ _ _ _ (r_cells _ _ H d) i s) as Hok.
  rewrite list_lookup_fmap, Hx in Hok. cbn in Hok. rewrite Hu in Hok. destruct (Hok eq_refl) as [Hne Hb].
  setoid_rewrite (replaced_by_abs _ _ _ _ _ H). split.
  - intros Hv. exists (N.to_nat v). rewrite N2Nat.id. split; [done|]. specialize (Hb v Hv).
    split; [unfold anum; lia|]. by exists x, s.
  - intros (j & -> & _ & x' & s' & Hx' & Hu' & Hin). rewrite Hx in Hx'. injection Hx' as <-.
    rewrite Hu in Hu'. by injection Hu' as <-.
Qed.

Lemma replaced_lt m a d i j : represents m a -> replaced_by d m i j -> i < anum d a /\ j < anum d a.
Proof.
  intros H Hr. apply (replaced_by_abs _ _ _ _ _ H) in Hr as (Hj & x & s & Hx & _). split; [|done].
  by eapply lookup_lt_Some.
Qed.

Lemma current_upd m a d i x :
  represents m a -> am_cells a d !! i = Some x -> current d m i <-> ac_upd x = None.
Proof.
  intros H Hx. unfold current. split.
  - intros Hc. destruct (ac_upd x) as [s|] eqn:Hu; [exfalso|done].
    pose proof (rc_upd_ok _ _ _ _ _ _ _ _ _ (r_cells _ _ H d) i s) as Hok.
    rewrite list_lookup_fmap, Hx in Hok. cbn in Hok. rewrite Hu in Hok. destruct (Hok eq_refl) as [Hne _].
    apply set_choose_L in Hne as [v Hv]. apply (replaced_set m a d i x H Hx s Hu) in Hv as (j & _ & Hr).
    by apply (Hc j).
  - intros Hu j Hr. apply (replaced_by_abs _ _ _ _ _ H) in Hr as (_ & x' & s & Hx' & Hu' & _). congruence.
Qed.

Lemma elem_of_concat {A} (v : A) (ks : list (list A)) : v ∈ concat ks <-> exists l, v ∈ l /\ l ∈ ks.
Proof.
  rewrite elem_of_list_In, in_concat. setoid_rewrite elem_of_list_In. split; intros (l & H1 & H2); eauto.
Qed.

(** Collecting over a list of children. *)
Lemma ofold_collect {A} (f : N -> outcome (A * list N)) (Q : N -> list N -> Prop) l acc :
  (forall c, c ∈ l -> exists b k, f c = Ok (b, k) /\ Q c k) ->
  exists ks, Forall2 Q l ks /\
    ofold (fun acc ch => bl ← f ch; Ok (acc ++ bl.2)) l acc = Ok (acc ++ concat ks).
Proof.
  revert acc. induction l as [|c l IH]; intros acc Hf.
  - exists []. split; [constructor|]. cbn. by rewrite app_nil_r.
  - destruct (Hf c) as (b & k & Hc & HQ); [left|].
    destruct (IH (acc ++ k)) as (ks & Hks & E); [intros c' Hc'; apply Hf; by right|].
    exists (k :: ks). split; [by constructor|]. cbn. rewrite Hc. cbn. rewrite E. by rewrite <- app_assoc.
Qed.

Definition query_ok (d : dim) (m : mesh) (c : nat) (b : bool) (l : list N) : Prop :=
  (b = true <-> current d m c) /\
  forall v, v ∈ l <-> exists j, v = N.of_nat j /\ rtc (replaced_by d m) c j /\ current d m j.

(** Deterministic in the fuel once it succeeds. *)
Lemma ofold_ext_in {A B} (f g : B -> A -> outcome B) l b b' :
  (forall x b b', x ∈ l -> f b x = Ok b' -> g b x = Ok b') -> ofold f l b = Ok b' -> ofold g l b = Ok b'.
Proof.
  revert b. induction l as [|x l IH]; intros b Hfg; cbn; [done|].
  destruct (f b x) as [b1| | | |] eqn:E; cbn; try done. intros Hb.
  rewrite (Hfg x b b1); [|left|done]. cbn. apply IH; [|done]. intros y c c' Hy. apply Hfg. by right.
Qed.

Lemma query_mono fuel d c m r : UpdatedQuery fuel d c m = Ok r -> UpdatedQuery (S fuel) d c m = Ok r.
Proof.
  revert c r. induction fuel as [|fuel IH]; intros c r; [done|].
  cbn [UpdatedQuery]. destruct (c <? N.of_nat (num d m))%N; cbn [require mbind outcome_bind]; [|done].
  destruct (cupd (mcells m d) !! c) as [s|]; [|done].
  intros (l & Hl & Hr)%bind_ok. apply bind_ok. exists l. split; [|done].
  eapply ofold_ext_in; [|exact Hl]. cbn beta. intros x b b' _ (q & Hq & Hb)%bind_ok.
  apply bind_ok. exists q. split; [|done]. by apply IH.
Qed.

Lemma query_mono_le fuel fuel' d c m r : fuel <= fuel' -> UpdatedQuery fuel d c m = Ok r -> UpdatedQuery fuel' d c m = Ok r.
Proof. induction 1 as [|fuel' _ IH]; [done|]. intros Hq. by apply query_mono, IH. Qed.

Lemma max_fuel {A} (P : A -> nat -> Prop) (l : list A) :
  (forall x n n', n <= n' -> P x n -> P x n') -> (forall x, x ∈ l -> exists n, P x n) ->
  exists n, forall x, x ∈ l -> P x n.
Proof.
  intros Hmono. induction l as [|x l IH]; intros Hl; [exists 0; by intros x Hx%elem_of_nil|].
  destruct (Hl x) as [n1 H1]; [left|]. destruct IH as [n2 H2]; [intros y Hy; apply Hl; by right|].
  exists (n1 `max` n2). intros y [->|Hy]%elem_of_cons.
  - eapply Hmono; [|exact H1]. lia.
  - eapply Hmono; [|by apply H2]. lia.
Qed.

Lemma query_spec m d c :
  reachable m -> c < num d m -> Acc (fun y x => replaced_by d m x y) c ->
  exists fuel b l, UpdatedQuery fuel d (N.of_nat c) m = Ok (b, l) /\ query_ok d m c b l.
Proof.
  intros Hm. destruct (reachable_rep m Hm) as [a H]. rewrite (g_num _ _ H). intros Hc Hacc.
  revert Hc. induction Hacc as [c _ IH]. intros Hc.
  destruct (lookup_lt_is_Some_2 _ _ Hc) as [x Hx].
  destruct (ac_upd x) as [s|] eqn:Hu.
  - pose proof (replaced_set m a d c x H Hx s Hu) as Hs.
    destruct (max_fuel (fun v n => exists b l, UpdatedQuery n d v m = Ok (b, l) /\ query_ok d m (N.to_nat v) b l) (elements s))
      as [fuel Hfuel].
    { intros v n n' Hn (b & l & E & Hq). exists b, l. split; [|done]. by eapply query_mono_le. }
    { intros v Hv%elem_of_elements. apply Hs in Hv as (j & -> & Hr). rewrite Nat2N.id.
      apply IH; [done|]. by eapply replaced_lt. }
    destruct (ofold_collect (fun ch => UpdatedQuery fuel d ch m)
      (fun v l => forall w, w ∈ l <-> exists j, w = N.of_nat j /\ rtc (replaced_by d m) (N.to_nat v) j /\ current d m j)
      (elements s) []) as (ks & Hks & E).
    { intros v Hv. destruct (Hfuel v Hv) as (b & l & El & Hq). exists b, l. split; [done|]. apply Hq. }
    exists (S fuel), false, (concat ks). cbn [UpdatedQuery]. rewrite (g_num _ _ H).
    rewrite require_true by lia. rewrite (upd_cell m a H d c x Hx), Hu, E. cbn [mbind outcome_bind app].
    split; [done|]. split.
    + rewrite (current_upd m a d c x H Hx). split; [done|]. congruence.
    + intros w. rewrite elem_of_concat. split.
      * intros (l & Hw & Hl). apply elem_of_list_lookup in Hl as [q Hq].
        destruct (Forall2_lookup_r _ _ _ _ _ Hks Hq) as (v & Hv & HQ).
        apply HQ in Hw as (j & -> & Hrtc & Hcur). exists j. split; [done|]. split; [|done].
        apply elem_of_list_lookup_2, elem_of_elements, Hs in Hv as (i & -> & Hr). rewrite Nat2N.id in Hrtc.
        by eapply rtc_l.
      * intros (j & -> & Hrtc & Hcur). inversion Hrtc as [|? y ? Hy Hrest]; subst.
        { exfalso. apply (current_upd m a d j x H Hx) in Hcur. congruence. }
        assert (Hv : N.of_nat y ∈ elements s). { apply elem_of_elements, Hs. eauto. }
        apply elem_of_list_lookup in Hv as [q Hq]. destruct (Forall2_lookup_l _ _ _ _ _ Hks Hq) as (l & Hl & HQ).
        exists l. split; [|by eapply elem_of_list_lookup_2]. apply HQ. exists j. rewrite Nat2N.id. done.
  - exists 1, true, [N.of_nat c]. cbn [UpdatedQuery]. rewrite (g_num _ _ H).
    rewrite require_true by lia. rewrite (upd_cell m a H d c x Hx), Hu. split; [done|].
    pose proof (proj2 (current_upd m a d c x H Hx) Hu) as Hcur. split; [done|].
    intros v. rewrite elem_of_list_singleton. split.
    + intros ->. exists c. split; [done|]. split; [apply rtc_refl|done].
    + intros (j & -> & Hrtc & _). inversion Hrtc as [|? y ? Hy Hrest]; subst; [done|]. exfalso. by eapply Hcur.
Qed.

Lemma acyclic_acc m d c :
  reachable m -> (forall x, ~ tc (replaced_by d m) x x) -> Acc (fun y x => replaced_by d m x y) c.
Proof.
  intros Hm Hirr. destruct (reachable_rep m Hm) as [a H].
  change (sn (replaced_by d m) c). apply tc_finite_sn; [done|].
  exists (seq 0 (anum d a)). intros y Hy. apply elem_of_seq.
  apply tc_r in Hy || idtac.
  assert (Hlt : forall x y, tc (replaced_by d m) x y -> y < anum d a).
  { clear -H. induction 1 as [x y Hr|x y z Hr _ IH]; [by eapply replaced_lt|done]. }
  split; [lia|]. cbn. by eapply Hlt.
Qed.

(** ** Look-ups *)

Lemma find_edge_from_spec (ext : list N) o t e k n :
  e + k = n -> 2 * n <= length ext ->
  exists f, find_edge_from ext o t e k = Ok f /\ e <= f <= n /\
    (forall g, e <= g < f -> ~ (ext !! (2 * g) = Some o /\ ext !! (2 * g + 1) = Some t)) /\
    (f < n -> ext !! (2 * f) = Some o /\ ext !! (2 * f + 1) = Some t).
Proof.
  revert e. induction k as [|k IH]; intros e He Hl.
  - exists e. cbn. split_and!; try done; try lia.
  - cbn [find_edge_from].
    destruct (lookup_lt_is_Some_2 ext (2 * e)) as [p Hp]; [lia|].
    destruct (lookup_lt_is_Some_2 ext (2 * e + 1)) as [q Hq]; [lia|].
    rewrite (vget_Ok _ _ _ Hp), (vget_Ok _ _ _ Hq). cbn [mbind outcome_bind].
    destruct ((p =? o)%N && (q =? t)%N) eqn:E.
    + exists e. split_and!; try done; try lia. intros _. split; [rewrite Hp|rewrite Hq]; f_equal; lia.
    + destruct (IH (S e)) as (f & Hf & Hr & Hn & Hy); [lia|done|]. exists f. split_and!; try done; try lia.
      intros g Hg. destruct (decide (g = e)) as [->|]; [|apply Hn; lia].
      intros [H1 H2]. assert (p = o) by congruence. assert (q = t) by congruence. lia.
Qed.

Lemma by_extremes_spec m o t :
  reachable m -> o < num D0 m -> t < num D0 m ->
  exists f, Cell1DByExtremes (N.of_nat o) (N.of_nat t) m = Ok f /\ f <= num D1 m /\
    (forall g, g < f -> ~ (Cell1DOrigin g m = Ok (N.of_nat o) /\ Cell1DEnd g m = Ok (N.of_nat t))) /\
    (f < num D1 m -> Cell1DOrigin f m = Ok (N.of_nat o) /\ Cell1DEnd f m = Ok (N.of_nat t)).
Proof.
  intros Hm Ho Ht. destruct (reachable_rep m Hm) as [a H]. unfold Cell1DByExtremes.
  rewrite !require_true by lia.
  assert (Hlen : length (mext m) = 2 * num D1 m).
  { rewrite (r_ext _ _ H), (uniform_concat_length 2) by apply (r_geo _ _ H D1). rewrite fmap_length, (g_num _ _ H). done. }
  destruct (find_edge_from_spec (mext m) (N.of_nat o) (N.of_nat t) 0 (num D1 m) (num D1 m)) as (f & Hf & Hr & Hn & Hy); [done|lia|].
  exists f. split_and!; [done|lia| |].
  - intros g Hg. unfold Cell1DOrigin, Cell1DEnd. rewrite !require_true by lia. rewrite !vget_ok. apply Hn. lia.
  - intros Hlt. unfold Cell1DOrigin, Cell1DEnd. rewrite !require_true by lia. rewrite !vget_ok. by apply Hy.
Qed.

Lemma find_pos_spec v l :
  find_pos v l <= length l /\
  (forall k, k < find_pos v l -> l !! k <> Some v) /\
  (find_pos v l < length l -> l !! find_pos v l = Some v).
Proof.
  induction l as [|x l (H1 & H2 & H3)]; cbn; [split_and!; [done|lia|lia]|].
  destruct (N.eqb_spec x v) as [->|E]; [split_and!; [lia|lia|done]|].
  split_and!; [lia| |].
  - intros [|k] Hk; cbn; [congruence|]. apply H2. lia.
  - intros Hlt. cbn. apply H3. lia.
Qed.

Lemma rel_find_spec m r i v l :
  RelRow r i m = Ok l ->
  exists f, RelFind r i v m = Ok f /\ f <= length l /\
    (forall k, k < f -> l !! k <> Some v) /\ (f < length l -> l !! f = Some v).
Proof.
  intros Hl. unfold RelFind. rewrite Hl. cbn. exists (find_pos v l). split; [done|]. apply find_pos_spec.
Qed.

Lemma find_edge_in_spec m o t edges pos :
  reachable m -> Forall (fun e => (e < N.of_nat (num D1 m))%N) edges ->
  exists f, find_edge_in m o t edges pos = Ok (pos + f) /\ f <= length edges /\
    (forall k e, k < f -> edges !! k = Some e ->
       ~ (Cell1DOrigin (N.to_nat e) m = Ok o /\ Cell1DEnd (N.to_nat e) m = Ok t)) /\
    (forall e, edges !! f = Some e ->
       Cell1DOrigin (N.to_nat e) m = Ok o /\ Cell1DEnd (N.to_nat e) m = Ok t).
Proof.
  intros Hm. destruct (reachable_rep m Hm) as [a H].
  assert (Hlen : length (mext m) = 2 * num D1 m).
  { rewrite (r_ext _ _ H), (uniform_concat_length 2) by apply (r_geo _ _ H D1). rewrite fmap_length, (g_num _ _ H). done. }
  intros Hv. revert pos. induction Hv as [|e edges He Hv IH]; intros pos; cbn [find_edge_in].
  - exists 0. rewrite Nat.add_0_r. split_and!; try done; lia.
  - unfold ext_unchecked. rewrite !(proj2 (N.ltb_lt _ _)) by lia. rewrite Nat.add_0_r.
    destruct (lookup_lt_is_Some_2 (mext m) (2 * N.to_nat e)) as [p Hp]; [lia|].
    destruct (lookup_lt_is_Some_2 (mext m) (2 * N.to_nat e + 1)) as [q Hq]; [lia|].
    rewrite (vget_Ok _ _ _ Hp), (vget_Ok _ _ _ Hq). cbn [mbind outcome_bind].
    assert (Ho : Cell1DOrigin (N.to_nat e) m = Ok p).
    { unfold Cell1DOrigin. rewrite require_true by lia. by apply vget_Ok. }
    assert (Ht : Cell1DEnd (N.to_nat e) m = Ok q).
    { unfold Cell1DEnd. rewrite require_true by lia. by apply vget_Ok. }
    destruct ((p =? o)%N && (q =? t)%N) eqn:E.
    + exists 0. rewrite Nat.add_0_r. split_and!; [done|lia|lia|]. intros e' [= <-].
      rewrite Ho, Ht. split; f_equal; lia.
    + destruct (IH (S pos)) as (f & Hf & Hle & Hn & Hy). exists (S f). rewrite Hf.
      split_and!; [f_equal; lia|cbn; lia| |].
      * intros [|k] e' Hk Hl; cbn in Hl; [|eapply Hn; [|done]; lia]. injection Hl as <-. rewrite Ho, Ht.
        intros [[= ->] [= ->]]. lia.
      * intros e' Hl. by apply Hy.
Qed.
