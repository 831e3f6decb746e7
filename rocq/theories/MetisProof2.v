(** Splitting the parts into connected parts. *)
From stdpp Require Import relations.
From Verif Require Import Base BaseProof CsrModel CsrSpec CsrProof GraphModel GraphSpec GraphProof GraphProof3 GraphProof5
  MetisModel MetisSpec MetisProof.

Lemma elem_concat {A} (x : A) (ls : list (list A)) : x ∈ concat ls <-> exists l, l ∈ ls /\ x ∈ l.
Proof.
  rewrite elem_of_list_In, in_concat. split; intros (l & H1 & H2); exists l; split; by apply elem_of_list_In.
Qed.

Lemma imap_fst {A} (l : list A) k0 : (imap (fun k v => (v, k0 + k)) l).*1 = l.
Proof.
  revert k0. induction l as [|x l IH]; intros k0; cbn; [done|]. f_equal. rewrite <- (IH (S k0)) at 2. f_equal.
  apply imap_ext. intros i y _. cbn. f_equal. lia.
Qed.

Lemma imap_snd {A} (l : list A) k0 : (imap (fun k v => (v, k0 + k)) l).*2 = seq k0 (length l).
Proof.
  revert k0. induction l as [|x l IH]; intros k0; cbn; [done|]. f_equal; [lia|]. rewrite <- (IH (S k0)). f_equal.
  apply imap_ext. intros i y _. cbn. f_equal. lia.
Qed.

Lemma part_filter_fst parts n p : (part_filter parts n p).*1 = part_vertices parts n p.
Proof. apply (imap_fst _ 0). Qed.
Lemma part_filter_snd parts n p : (part_filter parts n p).*2 = seq 0 (length (part_vertices parts n p)).
Proof. apply (imap_snd _ 0). Qed.

Lemma part_vertices_spec parts n p u : u ∈ part_vertices parts n p <-> parts !! u = Some p /\ u < n.
Proof. unfold part_vertices. rewrite elem_of_list_filter, elem_of_seq. split; intros [H1 H2]; (split; [done|lia]). Qed.

Lemma part_vertices_nodup parts n p : NoDup (part_vertices parts n p).
Proof. unfold part_vertices. apply NoDup_filter, NoDup_seq. Qed.

Lemma part_filter_in parts n p u k : part_vertices parts n p !! k = Some u -> (u, k) ∈ part_filter parts n p.
Proof.
  intros Hk. unfold part_filter. apply (elem_of_list_lookup_2 _ k). rewrite list_lookup_imap, Hk. done.
Qed.

(** Numbering of the vertices of one part turns reachability in the extracted graph into reachability inside the part. *)
Lemma sub_reach (g : graph) (sub : graph) parts n p :
  graph_ok g -> length g = n -> length parts = n -> graph_ok sub -> length sub = length (part_vertices parts n p) ->
  (forall k1 k2 u1 u2, part_vertices parts n p !! k1 = Some u1 -> part_vertices parts n p !! k2 = Some u2 ->
     edge sub k1 k2 <-> edge g u1 u2) ->
  forall k1 k2 u1 u2, part_vertices parts n p !! k1 = Some u1 -> part_vertices parts n p !! k2 = Some u2 ->
    reach sub k1 k2 <-> rtc (fun x y => edge g x y /\ parts !! x = parts !! y) u1 u2.
Proof.
  intros Hg Hgl Hpl Hs Hsl He k1 k2 u1 u2 H1 H2. set (vs := part_vertices parts n p) in *. split.
  - intros Hr. revert u1 H1. induction Hr as [k|k k' k2 Hkk _ IH]; intros u1 H1.
    + rewrite H1 in H2. injection H2 as ->. apply rtc_refl.
    + pose proof (edge_lt sub k k' Hs Hkk) as [_ Hlt]. rewrite Hsl in Hlt.
      destruct (lookup_lt_is_Some_2 vs k' Hlt) as [u' Hu']. apply (rtc_l _ _ u'); [|by apply IH].
      split; [by apply (He k k')|].
      pose proof (elem_of_list_lookup_2 _ _ _ H1) as A1. pose proof (elem_of_list_lookup_2 _ _ _ Hu') as A2.
      apply part_vertices_spec in A1 as [-> _], A2 as [-> _]. done.
  - intros Hr. revert k1 H1. induction Hr as [u|u u' u2 [Huu Hp] _ IH]; intros k1 H1.
    + assert (k1 = k2) as -> by (eapply NoDup_lookup; [apply part_vertices_nodup|done|done]). apply rtc_refl.
    + assert (A : u' ∈ vs).
      { apply part_vertices_spec. pose proof (elem_of_list_lookup_2 _ _ _ H1) as A1.
        apply part_vertices_spec in A1 as [A1 _]. split; [congruence|]. apply (edge_lt g u u' Hg) in Huu. lia. }
      apply elem_of_list_lookup in A as [k' Hk']. apply (rtc_l _ _ k'); [|by apply IH]. by apply (He k1 k' u u').
Qed.

Lemma relabel_ok vs comp top (parts : list nat) :
  (forall k, k ∈ comp -> exists u, vs !! k = Some u /\ u < length parts) ->
  exists parts', relabel vs (top, parts) comp = Ok (S top, parts') /\ length parts' = length parts /\
    (forall k u, k ∈ comp -> vs !! k = Some u -> parts' !! u = Some (S top)) /\
    (forall u, (forall k, k ∈ comp -> vs !! k <> Some u) -> parts' !! u = parts !! u).
Proof.
  intros Hc. unfold relabel. cbn [fst snd].
  assert (Hgen : forall comp ps, length ps = length parts -> (forall k, k ∈ comp -> exists u, vs !! k = Some u /\ u < length parts) ->
    exists ps', ofold (fun ps k => w ← vat vs k; vset ps w (S top)) comp ps = Ok ps' /\ length ps' = length ps /\
      (forall k u, k ∈ comp -> vs !! k = Some u -> ps' !! u = Some (S top)) /\
      (forall u, ps !! u = Some (S top) -> ps' !! u = Some (S top)) /\
      (forall u, (forall k, k ∈ comp -> vs !! k <> Some u) -> ps' !! u = ps !! u)).
  { clear. induction comp as [|k comp IH]; intros ps Hl Hc; cbn [ofold].
    - exists ps. split_and!; try done. intros k u Hk. by apply elem_of_nil in Hk.
    - destruct (Hc k) as (w & Hw & Hlt); [left|]. rewrite (vat_Ok _ _ _ Hw). cbn [mbind outcome_bind].
      rewrite vset_Ok by lia. cbn [mbind outcome_bind].
      destruct (IH (<[w := S top]> ps)) as (ps' & E & Hl' & H1 & H2 & H3).
      + by rewrite insert_length.
      + intros k' Hk'. apply Hc. by right.
      + rewrite insert_length in Hl'. exists ps'. split_and!; try done.
        * intros k' u [->|Hk']%elem_of_cons Hu; [|by apply (H1 k')]. rewrite Hw in Hu. injection Hu as <-.
          apply H2. apply list_lookup_insert. lia.
        * intros u Hu. apply H2. destruct (decide (u = w)) as [->|]; [apply list_lookup_insert; lia|].
          by rewrite list_lookup_insert_ne.
        * intros u Hu. rewrite H3; [|intros k' Hk'; apply Hu; by right]. apply list_lookup_insert_ne.
          intros ->. apply (Hu k); [left|done]. }
  destruct (Hgen comp parts eq_refl Hc) as (ps' & -> & Hl & H1 & _ & H3). cbn [mbind outcome_bind]. by exists ps'.
Qed.

Lemma relabel_all_ok vs n cs : forall top parts,
  NoDup vs -> NoDup (concat cs) -> length parts = n ->
  (forall c k, c ∈ cs -> k ∈ c -> exists u, vs !! k = Some u /\ u < n) ->
  exists parts', ofold (relabel vs) cs (top, parts) = Ok (top + length cs, parts') /\ length parts' = n /\
    (forall i c k u, cs !! i = Some c -> k ∈ c -> vs !! k = Some u -> parts' !! u = Some (S (top + i))) /\
    (forall u, (forall c k, c ∈ cs -> k ∈ c -> vs !! k <> Some u) -> parts' !! u = parts !! u).
Proof.
  induction cs as [|c cs IH]; intros top parts Hvs Hnd Hl Hc; cbn [ofold].
  - exists parts. rewrite Nat.add_0_r. split_and!; try done.
  - destruct (relabel_ok vs c top parts) as (p1 & E1 & L1 & A1 & B1).
    { rewrite Hl. intros k Hk. apply (Hc c); [left|done]. }
    rewrite E1. cbn [mbind outcome_bind]. cbn [concat] in Hnd. apply NoDup_app in Hnd as (_ & Hdis & Hnd).
    destruct (IH (S top) p1) as (p2 & E2 & L2 & A2 & B2); [done|done|congruence|intros c' k Hc'; apply (Hc c'); by right|].
    exists p2. split_and!; [|done| |].
    + rewrite E2. f_equal. f_equal. cbn. lia.
    + intros [|i] c' k u Hi Hk Hu.
      * injection Hi as <-. rewrite Nat.add_0_r. rewrite <- (A1 k u Hk Hu). apply B2. intros c' k' Hc' Hk' Hu'.
        assert (k = k') as <- by exact (NoDup_lookup vs k k' u Hvs Hu Hu'). apply (Hdis k Hk). apply elem_concat. by exists c'.
      * replace (top + S i) with (S top + i) by lia. by apply (A2 i c' k).
    + intros u Hu. rewrite B2; [|intros c' k Hc'; apply (Hu c'); by right]. apply B1. intros k Hk. apply (Hu c); [left|done].
Qed.

Definition comp_inv (inside : nat -> nat -> Prop) (n top : nat) (parts : list nat) (p : nat) (st : nat * list nat) : Prop :=
  top <= st.1 /\ length st.2 = n /\ part_bound st.1 st.2 /\
  (forall u q, parts !! u = Some q -> p <= q -> st.2 !! u = Some q) /\
  (forall u w q r, parts !! u = Some q -> parts !! w = Some r ->
     st.2 !! u = st.2 !! w <-> q = r /\ (q < p -> inside u w)).

Lemma part_step_ok (inside : nat -> nat -> Prop) n top parts p st vs comps :
  length parts = n -> p <= top -> comp_inv inside n top parts p st -> NoDup vs ->
  (forall u, u ∈ vs <-> parts !! u = Some p) ->
  concat comps ≡ₚ seq 0 (length vs) ->
  (forall k1 k2 u1 u2, vs !! k1 = Some u1 -> vs !! k2 = Some u2 ->
     (exists c, c ∈ comps /\ k1 ∈ c /\ k2 ∈ c) <-> inside u1 u2) ->
  exists st', ofold (relabel vs) (tail comps) st = Ok st' /\ comp_inv inside n top parts (S p) st'.
Proof.
  intros Hl Hp (Ht & Hl' & Hb & Hk & Heq) Hvs Hin Hperm Hc. destruct st as [t ps]. cbn [fst snd] in *.
  assert (Hnd : NoDup (concat comps)) by (rewrite Hperm; apply NoDup_seq).
  assert (Hidx : forall c k, c ∈ comps -> k ∈ c -> exists u, vs !! k = Some u /\ parts !! u = Some p).
  { intros c k Hc' Hk'. assert (A : k ∈ concat comps) by (apply elem_concat; by exists c).
    rewrite Hperm, elem_of_seq in A. destruct (lookup_lt_is_Some_2 vs k) as [u Hu]; [lia|]. exists u. split; [done|].
    apply Hin. by eapply elem_of_list_lookup_2. }
  destruct (relabel_all_ok vs n (tail comps) t ps) as (ps' & E & L & A & B); [done| |done| |].
  { destruct comps; [done|]. cbn [concat tail] in *. by apply NoDup_app in Hnd as (_ & _ & ?). }
  { intros c k Hc' Hk'. destruct (Hidx c k) as (u & Hu & Hpu); [destruct comps; [done|by right]|done|]. exists u. split; [done|].
    apply lookup_lt_Some in Hpu. lia. }
  exists (t + length (tail comps), ps'). split; [done|].
  (* the label of a vertex of part p is given by the number of its component *)
  assert (Hlab : forall u, parts !! u = Some p -> exists i k c, comps !! i = Some c /\ k ∈ c /\ vs !! k = Some u /\
     ps' !! u = Some (match i with 0 => p | _ => t + i end)).
  { intros u Hu. apply Hin in Hu as Hu'. apply elem_of_list_lookup in Hu' as [k Hku].
    assert (Hkc : k ∈ concat comps). { rewrite Hperm, elem_of_seq. apply lookup_lt_Some in Hku. lia. }
    apply elem_concat in Hkc as (c & Hcc & Hkc). apply elem_of_list_lookup in Hcc as [i Hi]. exists i, k, c. split_and!; try done.
    destruct comps as [|c0 comps]; [done|]. cbn [tail] in *. destruct i as [|i].
    - injection Hi as <-. rewrite B; [by apply Hk|]. intros c' k' Hc' Hk' Hu'.
      assert (k = k') as <- by exact (NoDup_lookup vs k k' u Hvs Hku Hu'). cbn [concat] in Hnd. apply NoDup_app in Hnd as (_ & Hd & _).
      apply (Hd k Hkc). apply elem_concat. by exists c'.
    - rewrite (A i c k u) by done. f_equal. lia. }
  assert (Hold : forall u q, parts !! u = Some q -> q <> p -> ps' !! u = ps !! u).
  { intros u q Hu Hq. apply B. intros c k Hc' Hk' Hv. destruct (Hidx c k) as (u' & Hu1 & Hu2); [destruct comps; [done|by right]|done|].
    rewrite Hv in Hu1. injection Hu1 as <-. congruence. }
  assert (Hps : forall u q, parts !! u = Some q -> exists x, ps !! u = Some x /\ x <= t).
  { intros u q Hu. destruct (lookup_lt_is_Some_2 ps u) as [x Hx]; [apply lookup_lt_Some in Hu; lia|]. exists x. split; [done|by eapply Hb]. }
  unfold comp_inv. cbn [fst snd]. split_and!.
  - lia.
  - done.
  - intros u x Hx. assert (Hun : u < n) by (apply lookup_lt_Some in Hx; lia).
    destruct (lookup_lt_is_Some_2 parts u) as [q Hq]; [lia|]. destruct (decide (q = p)) as [->|Hne].
    + destruct (Hlab u Hq) as (i & k & c & Hi & _ & _ & Hxi). rewrite Hx in Hxi. injection Hxi as ->.
      apply lookup_lt_Some in Hi. destruct comps; [cbn in Hi; lia|]. cbn in *. destruct i; lia.
    + rewrite (Hold u q Hq Hne) in Hx. apply Hb in Hx. lia.
  - intros u q Hq Hpq. rewrite (Hold u q) by (done || lia). apply Hk; [done|lia].
  - intros u w q r Hu Hw. destruct (decide (q = p)) as [->|Hq], (decide (r = p)) as [->|Hr].
    + destruct (Hlab u Hu) as (i1 & k1 & c1 & Hi1 & Hk1 & Hv1 & ->). destruct (Hlab w Hw) as (i2 & k2 & c2 & Hi2 & Hk2 & Hv2 & ->).
      rewrite <- (Hc k1 k2 u w) by done. split.
      * intros Hlabels. split; [done|]. intros _. assert (i1 = i2) as <-.
        { injection Hlabels as Hlabels. destruct i1, i2; lia. }
        rewrite Hi1 in Hi2. injection Hi2 as <-. exists c1. split_and!; try done. by eapply elem_of_list_lookup_2.
      * intros [_ Hcomp]. destruct (Hcomp ltac:(lia)) as (c & Hcc & Hck1 & Hck2). apply elem_of_list_lookup in Hcc as [i Hi].
        assert (Hone : forall j c' k, comps !! j = Some c' -> k ∈ c' -> k ∈ c -> j = i).
        { intros j c' k Hj Hkc' Hkc. destruct (decide (j = i)) as [|Hji]; [done|]. exfalso.
          clear -Hnd Hj Hkc' Hkc Hi Hji. revert i j Hi Hj Hji. induction comps as [|d comps IH]; intros i j Hi Hj Hji; [done|].
          cbn [concat] in Hnd. apply NoDup_app in Hnd as (_ & Hd & Hnd). destruct i as [|i], j as [|j].
          - done.
          - injection Hi as ->. apply (Hd k Hkc). apply elem_concat. exists c'. split; [by eapply elem_of_list_lookup_2|done].
          - injection Hj as ->. apply (Hd k Hkc'). apply elem_concat. exists c. split; [by eapply elem_of_list_lookup_2|done].
          - apply (IH Hnd i j); [done|done|lia]. }
        rewrite (Hone i1 c1 k1), (Hone i2 c2 k2) by done. done.
    + destruct (Hlab u Hu) as (i1 & k1 & c1 & Hi1 & _ & _ & Hx). rewrite (Hold w r Hw Hr). destruct (Hps w r Hw) as (x & Hxw & Hxt).
      split; [|intros [? _]; congruence]. intros Hsame. exfalso.
      destruct i1 as [|i1]; [|rewrite Hx, Hxw in Hsame; injection Hsame as Hs; lia].
      rewrite Hx in Hsame. rewrite <- (Hk u p Hu ltac:(lia)) in Hsame. apply (Heq u w p r Hu Hw) in Hsame as [? _]. congruence.
    + destruct (Hlab w Hw) as (i1 & k1 & c1 & Hi1 & _ & _ & Hx). rewrite (Hold u q Hu Hq). destruct (Hps u q Hu) as (x & Hxu & Hxt).
      split; [|intros [? _]; congruence]. intros Hsame. exfalso.
      destruct i1 as [|i1]; [|rewrite Hx, Hxu in Hsame; injection Hsame as Hs; lia].
      rewrite Hx in Hsame. rewrite <- (Hk w p Hw ltac:(lia)) in Hsame. apply (Heq u w q p Hu Hw) in Hsame as [? _]. congruence.
    + rewrite (Hold u q), (Hold w r) by done. rewrite (Heq u w q r) by done. split; intros [-> H2]; (split; [done|intros H3; apply H2; lia]).
Qed.

Lemma components_ok order fuel net n parts :
  (forall l, order l ≡ₚ l) -> n <= fuel -> adj_ok n (nadj net) -> 0 < n -> length parts = n ->
  exists parts', PartitionCheckConnectedComponents order fuel net parts = Ok parts' /\ length parts' = n /\
    forall u w, u < n -> w < n ->
      parts' !! u = parts' !! w <->
      parts !! u = parts !! w /\ reach_inside (nadj net) parts u w /\ reach_inside (nadj net) parts w u.
Proof.
  intros Hord Hf Ha Hn Hl. unfold PartitionCheckConnectedComponents. pose proof Ha as (Hr & _).
  destruct (Rows (nadj net)) as [|r0 rs] eqn:Er; [cbn in Hr; lia|]. rewrite <- Er in *. clear r0 rs Er.
  replace (length (Rows (nadj net)) - 1) with n by lia.
  destruct parts as [|p0 ps] eqn:Ep; [cbn in Hl; lia|]. unfold max_element. rewrite <- Ep in *. clear p0 ps Ep.
  cbn [mbind outcome_bind]. rewrite (proj2 (Nat.ltb_ge (length parts) n)) by lia.
  destruct (adj_rows n (nadj net) Ha) as (g & Hgl & Hrows & Hcols & Hg).
  assert (Eadj : nadj net = MAdj (row_ends 0 g) (concat g)) by (destruct (nadj net); cbn in *; congruence).
  rewrite Eadj, to_graph_rows. cbn [mbind outcome_bind].
  set (ins := fun u w => rtc (fun x y => edge g x y /\ parts !! x = parts !! y) u w).
  assert (Hins : forall u w, reach_inside (MAdj (row_ends 0 g) (concat g)) parts u w <-> ins u w).
  { intros u w. unfold reach_inside, ins. split; (intros H; induction H as [|x y z [H1 H2] _ IH];
      [apply rtc_refl|apply (rtc_l _ _ y); [split; [by apply adj_edge|done]|done]]). }
  set (body := fun (st : nat * list nat) p => _).
  assert (Hloop : forall k p st, p + k = S (max_list parts) -> comp_inv (fun u w => ins u w /\ ins w u) n (max_list parts) parts p st ->
    exists st', ofold body (seq p k) st = Ok st' /\ comp_inv (fun u w => ins u w /\ ins w u) n (max_list parts) parts (p + k) st').
  { induction k as [|k IH]; intros p st Hpk Hinv; cbn [seq ofold].
    - exists st. by rewrite Nat.add_0_r.
    - set (vs := part_vertices parts n p).
      destruct (subgraph_spec g (order (part_filter parts n p))) as (sub & Es & Hsl & Hsg & Hm).
      { done. }
      { rewrite (fmap_Permutation fst _ _ (Hord (part_filter parts n p))), part_filter_fst. apply part_vertices_nodup. }
      { intros o Ho. rewrite (fmap_Permutation fst _ _ (Hord (part_filter parts n p))), part_filter_fst in Ho.
        apply part_vertices_spec in Ho. lia. }
      { rewrite (fmap_Permutation snd _ _ (Hord (part_filter parts n p))), part_filter_snd.
        rewrite (Permutation_length (Hord _)). unfold part_filter. by rewrite imap_length. }
      rewrite (Permutation_length (Hord _)) in Hsl. unfold part_filter in Hsl. rewrite imap_length in Hsl. fold vs in Hsl.
      assert (Hse : forall k1 k2 u1 u2, vs !! k1 = Some u1 -> vs !! k2 = Some u2 -> edge sub k1 k2 <-> edge g u1 u2).
      { intros k1 k2 u1 u2 H1 H2. rewrite !mult_edge. rewrite (Hm u1 k1 u2 k2); [done| |]; rewrite Hord; by apply part_filter_in. }
      destruct (scc_spec sub Hsg) as (comps & Ec & Hperm & _ & Hcs).
      assert (Hvl : length vs <= n).
      { unfold vs, part_vertices. etrans; [apply filter_length|]. by rewrite seq_length. }
      destruct (part_step_ok (fun u w => ins u w /\ ins w u) n (max_list parts) parts p st vs comps) as (st' & E' & Hinv'); try done.
      { lia. }
      { apply part_vertices_nodup. }
      { intros u. unfold vs. rewrite part_vertices_spec. split; [by intros [? _]|]. intros Hu. split; [done|].
        apply lookup_lt_Some in Hu. lia. }
      { by rewrite Hperm, Hsl. }
      { intros k1 k2 u1 u2 H1 H2. rewrite (Hcs k1 k2); [|rewrite Hsl; by eapply lookup_lt_Some..]. unfold mutual.
        pose proof (sub_reach g sub parts n p Hg Hgl Hl Hsg Hsl Hse) as Hsr. fold vs in Hsr.
        rewrite (Hsr k1 k2 u1 u2), (Hsr k2 k1 u2 u1) by done. done. }
      assert (Eb : body st p = Ok st').
      { unfold body. rewrite Es. cbn [mbind outcome_bind]. rewrite (Ec fuel) by lia. cbn [mbind outcome_bind].
        destruct (Nat.ltb_spec (length comps) 2) as [Hc2|_]; [|done].
        destruct comps as [|c0 [|c1 comps]]; cbn in E', Hc2; [by injection E' as ->..|lia]. }
      rewrite Eb. cbn [mbind outcome_bind]. replace (p + S k) with (S p + k) by lia. apply IH; [lia|done]. }
  destruct (Hloop (S (max_list parts)) 0 (max_list parts, parts)) as (st' & E & Ht & Hl' & Hb & Hk & Heq).
  { lia. }
  { unfold comp_inv. cbn [fst snd]. split_and!; try done; [apply max_list_bound|]. intros u w q r -> ->. split; [|by intros [-> _]].
    intros H. injection H as ->. split; [done|lia]. }
  rewrite E. cbn [mbind outcome_bind]. exists st'.2. split_and!; try done. intros u w Hu Hw.
  destruct (lookup_lt_is_Some_2 parts u) as [q Hq]; [lia|]. destruct (lookup_lt_is_Some_2 parts w) as [r Hr']; [lia|].
  rewrite (Heq u w q r) by done. rewrite !Hins, Hq, Hr'. pose proof (max_list_bound parts u q Hq). cbn [Nat.add]. split.
  - intros [-> H2]. split; [done|]. apply H2. lia.
  - intros [H1 H2]. injection H1 as ->. done.
Qed.
