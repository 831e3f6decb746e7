(** Extraction of the active mesh. *)
From Verif Require Import Base BaseProof CsrModel CsrSpec CsrProof MeshModel MeshSpec MeshRep MeshHist
  MeshProof MeshProof2 MeshProof3 MeshProof4 MeshProof5 MeshProof6 MeshProof7 MeshProof8 MeshProof9 MeshProofA MeshProofB
  MeshProg UtilModel UtilSpec UtilProofA.
From Coq Require Import ZifyBool ZifyNat ZifyN Sorted.

(** ** Removing a sorted list of cells *)

Definition ren_list (n : dim -> nat) (d : dim) (k : nat) (rem : list nat) : ren := fun d' i =>
  if decide (i < n d') then
    if decide (d' = d) then
      if decide (i + k ∈ rem) then None else Some (i - length (filter (fun c => c < i + k) rem))
    else Some i
  else None.

Lemma filter_none {A} (P : A -> Prop) `{forall x, Decision (P x)} l : Forall (fun x => ~ P x) l -> filter P l = [].
Proof. induction 1; [done|]. by rewrite filter_cons_False. Qed.

Lemma remove_list_ok d rem : forall m a k,
  rr m a -> StronglySorted lt rem -> Forall (fun c => k <= c /\ c - k < anum d a) rem ->
  (N.of_nat (anum d a) <= UINT_MAX)%N ->
  exists m' b k', ofold (fun mk c => m' ← CellRemove d (c - mk.2) mk.1; Ok (m', S mk.2)) rem (m, k) = Ok (m', k') /\
    rr m' b /\ renamed (ren_list (fun d => anum d a) d k rem) a b.
Proof.
  induction rem as [|c rem IH]; intros m a k Hm Hs Hc Hmax.
  - exists m, a, k. split; [done|]. split; [done|].
    eapply renamed_ext; [| |apply renamed_id; by eapply rep_good_upd, Hm].
    + intros d' i Hi. unfold ren_id, ren_list. rewrite !decide_True by done. case_decide; [|done].
      rewrite decide_False by (by apply not_elem_of_nil). cbn. f_equal. lia.
    + intros d' i j. unfold ren_list. by case_decide.
  - inversion Hs as [|? ? Hs1 Hs2]; subst. inversion Hc as [|? ? [Hc1 Hc2] Hc3]; subst.
    destruct (rr_step m a (ORemove d (c - k)) (aremove d (c - k) a) Hm I) as (m1 & E1 & Hm1).
    { cbn [astep]. by rewrite decide_True. }
    cbn [step] in E1. cbn [ofold]. cbn [fst snd]. rewrite E1. cbn [mbind outcome_bind].
    assert (Hn1 : forall d', anum d' (aremove d (c - k) a) = if decide (d' = d) then anum d a - 1 else anum d' a).
    { intros d'. rewrite aremove_num by done. repeat case_decide; subst; done. }
    destruct (IH m1 (aremove d (c - k) a) (S k) Hm1 Hs1) as (m' & b & k' & E & Hm' & Hren).
    { rewrite Hn1, decide_True by done. rewrite Forall_forall in Hc3, Hs2. apply Forall_forall. intros e He.
      specialize (Hs2 e He). specialize (Hc3 e He). cbn in Hc3. lia. }
    { rewrite Hn1, decide_True by done. lia. }
    exists m', b, k'. split; [exact E|]. split; [done|].
    pose proof (renamed_remove a d (c - k) (rep_good_upd _ _ (proj2 Hm)) Hc2 Hmax) as H1.
    pose proof (renamed_comp _ _ _ _ _ H1 Hren) as H2.
    eapply renamed_ext; [| |exact H2].
    + intros d' i Hi. unfold ren_comp, ren_list, ren_remove, moved. rewrite !(decide_True (P := i < anum d' a)) by done.
      destruct (decide (d' = d)) as [->|Ed].
      * destruct (decide (i = c - k)) as [->|Ei].
        { rewrite decide_True by done. cbn. rewrite decide_True; [done|]. apply elem_of_cons. left. lia. }
        rewrite decide_False by (intros [_ ?]; done). cbn [mbind option_bind]. rewrite Hn1, (decide_True (P := d = d)) by done.
        unfold new_number. rewrite Forall_forall in Hs2. destruct (Nat.ltb_spec i (c - k)) as [Hlt|Hge].
        -- rewrite decide_True by lia.
           rewrite (decide_False (P := i + S k ∈ rem)) by (intros Hin; specialize (Hs2 _ Hin); lia).
           rewrite (decide_False (P := i + k ∈ c :: rem)) by (intros [?|Hin]%elem_of_cons; [lia|specialize (Hs2 _ Hin); lia]).
           rewrite !filter_none; [cbn; done|..].
           ++ apply Forall_cons. split; [lia|]. apply Forall_forall. intros e He. specialize (Hs2 _ He). lia.
           ++ apply Forall_forall. intros e He. specialize (Hs2 _ He). lia.
        -- rewrite decide_True by lia. assert (i - 1 + S k = i + k) as -> by lia.
           destruct (decide (i + k ∈ rem)) as [Hin|Hin].
           ++ rewrite decide_True; [done|]. apply elem_of_cons. by right.
           ++ rewrite decide_False by (intros [?|?]%elem_of_cons; [lia|done]).
              rewrite filter_cons_True by lia. cbn [length]. f_equal. lia.
      * rewrite decide_False by tauto. cbn [mbind option_bind]. rewrite Hn1. rewrite (decide_False (P := d' = d)) by done. rewrite decide_True by done. done.
    + intros d' i j. unfold ren_list. by case_decide.
Qed.

(** ** Active cells *)

Definition aact (a : amesh) (d : dim) (i : nat) : bool :=
  match am_cells a d !! i with Some x => ac_act x | None => false end.
Definition arank (a : amesh) (d : dim) (i : nat) : nat := length (filter (fun j => aact a d j = true) (seq 0 i)).

Lemma active_aact m a d i : represents m a -> active d m i = aact a d i.
Proof.
  intros H. unfold active, aact. rewrite (g_active _ _ H). unfold look. by destruct (am_cells a d !! i).
Qed.
Lemma rank_arank m a d i : represents m a -> rank d m i = arank a d i.
Proof.
  intros H. unfold rank, arank. f_equal. apply list_filter_iff. intros j. by rewrite (active_aact m a).
Qed.

Definition inactive (a : amesh) (d : dim) : list nat := filter (fun j => aact a d j = false) (seq 0 (anum d a)).

Lemma seq_snoc n : seq 0 (S n) = seq 0 n ++ [n].
Proof. rewrite <- Nat.add_1_r. by rewrite seq_app. Qed.

Lemma arank_S a d i : arank a d (S i) = arank a d i + (if aact a d i then 1 else 0).
Proof.
  unfold arank. rewrite seq_snoc, filter_app, app_length, filter_cons, filter_nil.
  destruct (aact a d i); [rewrite decide_True by done|rewrite decide_False by done]; done.
Qed.

Lemma filter_every {A} (P : A -> Prop) `{forall x, Decision (P x)} l : Forall P l -> filter P l = l.
Proof. induction 1; [done|]. by rewrite filter_cons_True, IHForall. Qed.

Lemma filter_seq_below (P : nat -> Prop) `{forall x, Decision (P x)} i n : i <= n ->
  filter (fun c => c < i) (filter P (seq 0 n)) = filter P (seq 0 i).
Proof.
  intros Hi. assert (n = i + (n - i)) as -> by lia. rewrite seq_app, !filter_app.
  rewrite (filter_none _ (filter _ (seq (0 + i) _))).
  - rewrite app_nil_r. apply filter_every. apply Forall_forall. intros c [_ Hc]%elem_of_list_filter.
    apply elem_of_seq in Hc. lia.
  - apply Forall_forall. intros c [_ Hc]%elem_of_list_filter. apply elem_of_seq in Hc. lia.
Qed.

Lemma filter_split_len (f : nat -> bool) l :
  length (filter (fun j => f j = true) l) + length (filter (fun j => f j = false) l) = length l.
Proof.
  induction l as [|x l IH]; [done|]. rewrite !filter_cons. destruct (f x) eqn:E.
  - rewrite decide_True by done. rewrite decide_False by done. cbn. lia.
  - rewrite decide_False by done. rewrite decide_True by done. cbn. lia.
Qed.

Lemma arank_inactive a d i : i <= anum d a ->
  arank a d i + length (filter (fun c => c < i) (inactive a d)) = i.
Proof.
  intros Hi. unfold inactive. rewrite filter_seq_below by done. unfold arank.
  rewrite filter_split_len. apply seq_length.
Qed.

Lemma inactive_in a d i : i ∈ inactive a d <-> i < anum d a /\ aact a d i = false.
Proof. unfold inactive. rewrite elem_of_list_filter, elem_of_seq. naive_solver lia. Qed.

Lemma filter_seq_sorted (P : nat -> Prop) `{forall x, Decision (P x)} n k : StronglySorted lt (filter P (seq k n)).
Proof.
  revert k. induction n as [|n IH]; intros k; cbn [seq]; [constructor|]. rewrite filter_cons. case_decide; [|apply IH].
  constructor; [apply IH|]. apply Forall_forall. intros c [_ Hc]%elem_of_list_filter. apply elem_of_seq in Hc. lia.
Qed.

(** The index maps [u] (old to new) and [v] (new to old) of the first [n] cells of dimension [d]. *)
Definition maps_ok (a : amesh) (d : dim) (n : nat) (u v : gmap nat nat) : Prop :=
  (forall i j, u !! i = Some j <-> i < n /\ aact a d i = true /\ j = arank a d i) /\
  (forall i j, v !! j = Some i <-> i < n /\ aact a d i = true /\ j = arank a d i).

Lemma arank_mono a d i j : i <= j -> arank a d i <= arank a d j.
Proof. induction 1 as [|j _ IH]; [done|]. rewrite arank_S. lia. Qed.
Lemma arank_lt a d i j : i < j -> aact a d i = true -> arank a d i < arank a d j.
Proof. intros Hij Ha. pose proof (arank_mono a d (S i) j Hij). rewrite arank_S, Ha in *. lia. Qed.

Lemma scan_ok m a d dat n :
  represents m a -> n <= anum d a -> old_to_new dat d = ∅ -> new_to_old dat d = ∅ ->
  exists dat', ofold (fun s c =>
           b ← IsActive d c m;
           if b : bool then
             let '(rem, n, dat) := s in
             Ok (rem, S n, ActiveData (upd_fun (new_to_old dat) d (map_insert n c (new_to_old dat d)))
                                      (upd_fun (old_to_new dat) d (map_insert c n (old_to_new dat d))))
           else let '(rem, n, dat) := s in Ok (rem ++ [c], n, dat))
        (seq 0 n) ([], 0, dat) = Ok (filter (fun j => aact a d j = false) (seq 0 n), arank a d n, dat') /\
    maps_ok a d n (old_to_new dat' d) (new_to_old dat' d) /\
    (forall d', d' <> d -> old_to_new dat' d' = old_to_new dat d' /\ new_to_old dat' d' = new_to_old dat d').
Proof.
  intros H Hn E1 E2. induction n as [|n IH].
  - exists dat. split; [done|]. split; [|done]. unfold maps_ok. rewrite E1, E2. split; intros i j; rewrite lookup_empty.
    + split; [done|]. lia.
    + split; [done|]. lia.
  - destruct IH as (dat' & Ef & [Hu Hv] & Hd); [lia|]. rewrite seq_snoc, ofold_app, Ef.
    cbn [mbind outcome_bind ofold]. rewrite (g_active _ _ H). unfold look.
    destruct (lookup_lt_is_Some_2 (am_cells a d) n ltac:(unfold anum in Hn; lia)) as [x Hx]. rewrite Hx. cbn [mbind outcome_bind].
    assert (Ha : aact a d n = ac_act x) by (unfold aact; by rewrite Hx).
    rewrite filter_app, filter_cons, filter_nil, arank_S, Ha. destruct (ac_act x).
    + rewrite decide_False by done. rewrite app_nil_r, Nat.add_1_r. eexists. split; [done|].
      cbn [old_to_new new_to_old]. rewrite !upd_fun_eq. split; [|intros d' Hd'; rewrite !upd_fun_ne by done; by apply Hd].
      assert (Hun : old_to_new dat' d !! n = None).
      { destruct (old_to_new dat' d !! n) eqn:E; [|done]. apply Hu in E. lia. }
      assert (Hvn : new_to_old dat' d !! arank a d n = None).
      { destruct (new_to_old dat' d !! arank a d n) as [i|] eqn:E; [|done]. apply Hv in E as (Hi & Hai & Hr).
        pose proof (arank_lt a d i n Hi Hai). lia. }
      unfold map_insert. rewrite Hun, Hvn. split.
      * intros i j. destruct (decide (i = n)) as [->|Ei].
        -- rewrite lookup_insert. split; [intros [= <-]; split_and!; [lia|done|done]|]. by intros (_ & _ & ->).
        -- rewrite lookup_insert_ne by done. rewrite Hu. naive_solver lia.
      * intros i j. destruct (decide (j = arank a d n)) as [->|Ej].
        -- rewrite lookup_insert. split; [intros [= <-]; split_and!; [lia|done|done]|].
           intros (Hi & Hai & Hr). f_equal. destruct (decide (i = n)) as [->|]; [done|].
           pose proof (arank_lt a d i n ltac:(lia) Hai). lia.
        -- rewrite lookup_insert_ne by done. rewrite Hv. split; [naive_solver lia|]. intros (Hi & Hai & ->).
           split_and!; [|done|done]. destruct (decide (i = n)) as [->|]; [done|lia].
    + rewrite decide_True by done. rewrite Nat.add_0_r. exists dat'. split; [done|]. split; [|done]. split; intros i j.
      * rewrite Hu. split; [naive_solver lia|]. intros (Hi & Hai & ->). split_and!; [|done|done].
        destruct (decide (i = n)) as [->|]; [congruence|lia].
      * rewrite Hv. split; [naive_solver lia|]. intros (Hi & Hai & ->). split_and!; [|done|done].
        destruct (decide (i = n)) as [->|]; [congruence|lia].
Qed.

(** ** The four blocks *)

Definition ren_act (a : amesh) (ds : list dim) : ren := fun d i =>
  if decide (i < anum d a) then
    if decide (d ∈ ds) then if aact a d i then Some (arank a d i) else None else Some i
  else None.

Lemma extract_dim_ok m a d dat :
  rr m a -> (N.of_nat (anum d a) <= UINT_MAX)%N -> old_to_new dat d = ∅ -> new_to_old dat d = ∅ ->
  exists m' b dat', extract_dim (m, dat) d = Ok (m', dat') /\ rr m' b /\ renamed (ren_act a [d]) a b /\
    maps_ok a d (anum d a) (old_to_new dat' d) (new_to_old dat' d) /\
    (forall d', d' <> d -> old_to_new dat' d' = old_to_new dat d' /\ new_to_old dat' d' = new_to_old dat d').
Proof.
  intros Hm Hmax E1 E2. unfold extract_dim, scan_active. cbn [fst snd].
  destruct (scan_ok m a d dat (anum d a) (proj2 Hm) ltac:(lia) E1 E2) as (dat' & Es & Hmaps & Hd).
  rewrite (g_num _ _ (proj2 Hm)), Es. cbn [mbind outcome_bind fst snd].
  destruct (remove_list_ok d (inactive a d) m a 0 Hm) as (m' & b & k' & Er & Hm' & Hren).
  - apply filter_seq_sorted.
  - apply Forall_forall. intros c [Hc _]%inactive_in. lia.
  - done.
  - unfold remove_listed. unfold inactive in Er. rewrite Er. cbn [mbind outcome_bind fst].
    exists m', b, dat'. split; [done|]. split; [done|]. split; [|done].
    eapply renamed_ext; [| |exact Hren].
    + intros d' i Hi. unfold ren_list, ren_act. rewrite !(decide_True (P := i < anum d' a)) by done.
      destruct (decide (d' = d)) as [->|Ed].
      * rewrite (decide_True (P := d ∈ [d])) by (by apply elem_of_list_singleton). rewrite Nat.add_0_r.
        destruct (aact a d i) eqn:Ea.
        -- rewrite decide_False by (intros [_ ?]%inactive_in; congruence). f_equal.
           pose proof (arank_inactive a d i ltac:(lia)). lia.
        -- rewrite decide_True; [done|]. by apply inactive_in.
      * rewrite decide_False; [done|]. by rewrite elem_of_list_singleton.
    + intros d' i j. unfold ren_act. by case_decide.
Qed.

Lemma renamed_other a b d ds : renamed (ren_act a ds) a b -> d ∉ ds ->
  anum d b = anum d a /\ (forall i, aact b d i = aact a d i).
Proof.
  intros H Hd.
  assert (Hf : forall i, i < anum d a -> ren_act a ds d i = Some i).
  { intros i Hi. unfold ren_act. rewrite decide_True by done. by rewrite decide_False. }
  assert (Hn : anum d b = anum d a).
  { destruct (Nat.lt_trichotomy (anum d b) (anum d a)) as [Hlt|[?|Hlt]]; [|done|].
    - destruct (rn_range _ _ _ H d (anum d b) (anum d b)); [by apply Hf|lia].
    - destruct (rn_onto _ _ _ H d (anum d a) Hlt) as [i Hi]. pose proof (rn_range _ _ _ H _ _ _ Hi) as [Hr _].
      rewrite Hf in Hi by done. injection Hi as ->. lia. }
  split; [done|]. intros i. unfold aact. destruct (am_cells a d !! i) as [x|] eqn:Hx.
  - destruct (rn_cell _ _ _ H d i i x) as (y & Hy & C); [by eapply Hf, lookup_lt_Some|done|].
    rewrite Hy. apply C.
  - rewrite lookup_ge_None_2; [done|]. apply lookup_ge_None in Hx. unfold anum in Hn. lia.
Qed.

Lemma arank_ext a b d i : (forall j, aact b d j = aact a d j) -> arank b d i = arank a d i.
Proof. intros H. unfold arank. f_equal. apply list_filter_iff. intros j. by rewrite H. Qed.

Lemma extract_dims_ok a todo : forall m b dat ds,
  rr m b -> (forall d, N.of_nat (anum d a) <= UINT_MAX)%N -> renamed (ren_act a ds) a b ->
  NoDup todo -> (forall d, d ∈ todo -> d ∉ ds /\ old_to_new dat d = ∅ /\ new_to_old dat d = ∅) ->
  (forall d, d ∈ ds -> maps_ok a d (anum d a) (old_to_new dat d) (new_to_old dat d)) ->
  exists m' b' dat', ofold extract_dim todo (m, dat) = Ok (m', dat') /\ rr m' b' /\
    renamed (ren_act a (reverse todo ++ ds)) a b' /\
    (forall d, d ∈ reverse todo ++ ds -> maps_ok a d (anum d a) (old_to_new dat' d) (new_to_old dat' d)).
Proof.
  induction todo as [|d todo IH]; intros m b dat ds Hm Hmax Hren Hnd Htodo Hds.
  - exists m, b, dat. done.
  - inversion Hnd as [|? ? Hd1 Hd2]; subst. destruct (Htodo d) as (Hdd & E1 & E2); [by left|].
    destruct (renamed_other a b d ds Hren Hdd) as [Hn Ha].
    destruct (extract_dim_ok m b d dat Hm) as (m1 & b1 & dat1 & E & Hm1 & Hren1 & Hmaps & Hoth); [|done..|].
    { by rewrite Hn. }
    cbn [ofold]. rewrite E. cbn [mbind outcome_bind]. rewrite reverse_cons, <- app_assoc. cbn [app].
    apply (IH m1 b1 dat1 (d :: ds)); [done|done| |done|..].
    + eapply renamed_ext; [| |exact (renamed_comp _ _ _ _ _ Hren Hren1)].
      * intros d' i Hi. unfold ren_comp, ren_act. rewrite !(decide_True (P := i < anum d' a)) by done.
        destruct (decide (d' = d)) as [->|Ed].
        -- rewrite decide_False by done. cbn [mbind option_bind]. rewrite decide_True by (by rewrite Hn).
           rewrite decide_True by (by left). rewrite decide_True by (by left). rewrite Ha.
           by rewrite (arank_ext a b).
        -- destruct (decide (d' ∈ ds)) as [Hin|Hin].
           ++ rewrite (decide_True (P := d' ∈ d :: ds)) by (by right). destruct (aact a d' i) eqn:Eai; [|done].
              cbn [mbind option_bind]. destruct (rn_range _ _ _ Hren d' i (arank a d' i)) as [_ Hr].
              { unfold ren_act. rewrite !decide_True by done. by rewrite Eai. }
              rewrite decide_True by done. by rewrite decide_False by (by rewrite elem_of_list_singleton).
           ++ rewrite (decide_False (P := d' ∈ d :: ds)) by (by intros [?|?]%elem_of_cons).
              cbn [mbind option_bind]. destruct (renamed_other a b d' ds Hren Hin) as [Hn' _]. rewrite Hn'.
              rewrite decide_True by done. by rewrite decide_False by (by rewrite elem_of_list_singleton).
      * intros d' i j. unfold ren_act. by case_decide.
    + intros d' Hd'. destruct (Htodo d') as (Hd3 & E3 & E4); [by right|].
      assert (d' <> d) by (intros ->; done). destruct (Hoth d') as [-> ->]; [done|].
      split_and!; [|done|done]. by intros [?|?]%elem_of_cons.
    + intros d' [->|Hin]%elem_of_cons.
      * destruct Hmaps as [Hu Hv]. split; intros i j; [rewrite Hu|rewrite Hv]; rewrite Hn, Ha; by rewrite (arank_ext a b).
      * destruct (decide (d' = d)) as [->|Ed]; [done|]. destruct (Hoth d') as [-> ->]; [done|]. by apply Hds.
Qed.

Lemma extract_ok m a :
  rr m a -> (forall d, N.of_nat (anum d a) <= UINT_MAX)%N ->
  exists m' b dat, ExtractActiveMesh m no_active_data = Ok (m', dat) /\ rr m' b /\
    renamed (fun d i => old_to_new dat d !! i) a b /\
    forall d, maps_ok a d (anum d a) (old_to_new dat d) (new_to_old dat d).
Proof.
  intros Hm Hmax.
  destruct (extract_dims_ok a [D0; D1; D2; D3] m a no_active_data [] Hm Hmax) as (m' & b & dat & E & Hm' & Hren & Hmaps).
  - eapply renamed_ext; [| |apply renamed_id; by eapply rep_good_upd, Hm].
    + intros d i Hi. unfold ren_id, ren_act. rewrite !decide_True by done. by rewrite decide_False by (by apply not_elem_of_nil).
    + intros d i j. unfold ren_act. by case_decide.
  - repeat constructor; set_solver.
  - intros d _. split; [by apply not_elem_of_nil|done].
  - intros d Hd. by apply elem_of_nil in Hd.
  - assert (Hall : forall d, d ∈ reverse [D0; D1; D2; D3] ++ []) by (intros []; set_solver).
    exists m', b, dat. unfold ExtractActiveMesh. rewrite E. cbn [mbind outcome_bind fst snd]. split; [done|].
    split; [done|]. split; [|intros d; by apply Hmaps].
    eapply renamed_ext; [| |exact Hren].
    + intros d i Hi. unfold ren_act. rewrite decide_True by done. rewrite decide_True by done.
      destruct (Hmaps d (Hall d)) as [Hu _]. destruct (aact a d i) eqn:Ea.
      * symmetry. by apply Hu.
      * destruct (old_to_new dat d !! i) eqn:Eo; [|done]. apply Hu in Eo as (_ & ? & _). congruence.
    + intros d i j Hj. destruct (Hmaps d (Hall d)) as [Hu _]. apply Hu in Hj. tauto.
Qed.
