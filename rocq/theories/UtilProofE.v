(** Left and right polygons of the edges of a plane mesh. *)
From Verif Require Import Base BaseProof CsrModel CsrSpec CsrProof MeshModel MeshSpec MeshRep MeshHist
  MeshProof MeshProof2 MeshProof3 MeshProof4 MeshProof5 MeshProof6 MeshProof7 MeshProof8 MeshProof9 MeshProofA MeshProofB
  MeshProofG MeshProg MeshWit UtilModel UtilSpec UtilProofA UtilProofB UtilProofC UtilProofD.
From Coq Require Import ZifyBool ZifyNat ZifyN Sorted.

Definition slots := nat -> nat -> N.
Definition slots_cell (W : slots) : dim -> nat -> acell -> acell := set_rows R12 (fun e => [W e 0; W e 1]).
Definition upd1 (c : nat) (W : slots) (es : nat * nat) : slots :=
  fun e s => if decide ((e, s) = es) then N.of_nat c else W e s.

Lemma does_InitConst_empty r k a :
  (forall i x, am_cells a (src r) !! i = Some x -> ac_rel x r = []) ->
  does (RelInitConst r k) a (amap (set_rows r (fun _ => replicate k (default_bulk r))) a).
Proof.
  intros He.
  eapply does_aeq; [apply (does_step a (OInitConst r k)); done|].
  assert (Hred : redeal (default_bulk r) (replicate (anum (src r) a) k) (row_of r <$> am_cells a (src r)) =
                 replicate (anum (src r) a) (replicate k (default_bulk r))).
  { rewrite redeal_empty; [by rewrite fmap_replicate|]. apply Forall_forall. intros l (x & -> & Hx)%elem_of_list_fmap.
    apply elem_of_list_lookup in Hx as [i Hi]. by apply (He i). }
  rewrite Hred. apply aeq_intro; [done..| |].
  - intros d. rewrite amap_num. unfold anum. cbn [with_cells am_cells]. unfold upd_fun. case_decide as E; [|done].
    subst. rewrite zip_with_length, replicate_length. lia.
  - intros d i x y. rewrite amap_lookup. cbn [with_cells am_cells]. unfold upd_fun, set_rows.
    case_decide as E.
    + subst d. rewrite lookup_zip_with. destruct (replicate (anum (src r) a) _ !! i) as [k'|] eqn:Ek; [|done]. cbn [mbind option_bind].
      apply lookup_replicate in Ek as [-> _].
      destruct (am_cells a (src r) !! i) as [z|]; [|done]. cbn. intros [= <-]. rewrite decide_True by done.
      intros [= <-]. apply ceq_refl.
    + intros ->. cbn [fmap option_fmap option_map]. rewrite decide_False by done. intros [= <-]. apply ceq_refl.
Qed.

(** Set one slot. *)
Lemma does_slot W a c e s :
  e < anum D1 a -> s < 2 -> c < anum D2 a ->
  does (RelInsert R12 e s (N.of_nat c)) (amap (slots_cell W) a) (amap (slots_cell (upd1 c W (e, s))) a).
Proof.
  intros He Hs Hc. destruct (lookup_lt_is_Some_2 (am_cells a D1) e He) as [x Hx].
  eapply does_aeq; [apply (does_Insert (slots_cell W) a R12 e s (N.of_nat c) x); [done| |]|].
  - unfold slots_cell, set_rows. rewrite decide_True by done. cbn [with_row ac_rel]. rewrite upd_fun_eq. exact Hs.
  - cbn [tgt]. lia.
  - apply amap_ext. intros d i y Hy. unfold also, slots_cell, set_rows. cbn [src].
    destruct (decide (d = D1 /\ i = e)) as [[-> ->]|E].
    + rewrite !decide_True by done. unfold ceq. split_and!; [done..| |done].
      intros r'. cbn [with_row ac_rel]. rewrite upd_fun_eq. unfold upd_fun. case_decide; [|done]. unfold upd1.
      destruct s as [|[|s]]; [| |lia].
      * rewrite (decide_True (P := (e, 0) = (e, 0))) by done. by rewrite decide_False.
      * rewrite (decide_True (P := (e, 1) = (e, 1))) by done. by rewrite decide_False.
    + case_decide; [|apply ceq_refl]. subst d. unfold upd1. rewrite !decide_False by naive_solver. apply ceq_refl.
Qed.

Section polygons.
  Context (m0 : mesh) (a : amesh) (Hm0 : rr m0 a) (Hpl : plane_polygons m0).

  Definition along (c p : nat) : bool :=
    match am_cells a D2 !! c with
    | Some x =>
        match ac_rel x E2 !! p, ac_rel x V2 !! p, ac_rel x V2 !! ((p + 1) mod length (ac_rel x E2)) with
        | Some e, Some o, Some t =>
            match am_cells a D1 !! N.to_nat e with
            | Some y => bool_decide (geo_pair y = (o, t))
            | None => false
            end
        | _, _, _ => false
        end
    | None => false
    end.
  Definition edges_of (c : nat) : list N := match am_cells a D2 !! c with Some x => ac_rel x E2 | None => [] end.
  Definition writes (c : nat) : list (nat * nat) :=
    imap (fun p e => (N.to_nat e, if along c p then 1 else 0)) (edges_of c).

  Lemma slots_look {B} W d i (f : acell -> B) :
    (forall x, f (slots_cell W d i x) = f x) -> look (amap (slots_cell W) a) d i f = look a d i f.
  Proof. apply look_amap. Qed.

  Lemma polygon c x : am_cells a D2 !! c = Some x -> ac_act x = true ->
    length (ac_rel x V2) = length (ac_rel x E2) /\ Forall (fun e => (e < N.of_nat (anum D1 a))%N) (ac_rel x E2) /\
    (forall p q e e' y y', ac_rel x E2 !! p = Some e -> ac_rel x E2 !! q = Some e' ->
       am_cells a D1 !! N.to_nat e = Some y -> am_cells a D1 !! N.to_nat e' = Some y' -> geo_pair y = geo_pair y' -> p = q).
  Proof.
    intros Hx Hact. destruct (Hpl c) as (vs & es & Hvs & Hes & Hlen & Hval & Hdist).
    { rewrite (active_aact m0 a _ _ (proj2 Hm0)). unfold aact. by rewrite Hx. }
    pose proof (proj2 Hm0) as H. rewrite (g_row _ _ H) in Hvs, Hes. unfold look in *. cbn [src] in *. rewrite Hx in Hvs, Hes.
    injection Hvs as <-. injection Hes as <-. rewrite (g_num _ _ H) in Hval. split_and!; [done..|].
    intros p q e e' y y' Hp Hq Hy Hy' Hg. apply (Hdist p q e e' Hp Hq).
    - rewrite !(g_origin _ _ H). unfold look. rewrite Hy, Hy'. by rewrite Hg.
    - rewrite !(g_end _ _ H). unfold look. rewrite Hy, Hy'. by rewrite Hg.
  Qed.

  Lemma slots_frame W m : rr m (amap (slots_cell W) a) ->
    (forall d, num d m = anum d a) /\
    (forall d i, IsActive d i m = look a d i ac_act) /\
    (forall r i, r <> R12 -> RelRow r i m = look a (src r) i (row_of r) /\ RelNumber r i m = look a (src r) i (fun x => N.of_nat (length (row_of r x)))) /\
    (forall r i k, r <> R12 -> RelGet r i k m = match am_cells a (src r) !! i with
                   | Some x => match ac_rel x r !! k with Some v => Ok v | None => Abort end
                   | None => Abort end) /\
    (forall e, Cell1DOrigin e m = look a D1 e (fun x => (geo_pair x).1) /\ Cell1DEnd e m = look a D1 e (fun x => (geo_pair x).2)).
  Proof.
    intros [_ H]. split_and!.
    - intros d. by rewrite (g_num _ _ H), amap_num.
    - intros d i. rewrite (g_active _ _ H). apply slots_look. intros x. unfold slots_cell, set_rows. by case_decide.
    - intros r i Hr. rewrite (g_row _ _ H), (g_count _ _ H). split; apply slots_look; intros x; unfold slots_cell, set_rows, row_of;
        (case_decide; [|done]; cbn [with_row ac_rel]; by rewrite upd_fun_ne).
    - intros r i k Hr. rewrite (g_get _ _ H), amap_lookup. destruct (am_cells a (src r) !! i) as [x|]; [|done].
      cbn [fmap option_fmap option_map]. unfold slots_cell, set_rows. case_decide; [|done]. cbn [with_row ac_rel]. by rewrite upd_fun_ne.
    - intros e. rewrite (g_origin _ _ H), (g_end _ _ H). split; apply slots_look; intros x; unfold slots_cell, set_rows;
        by case_decide.
  Qed.

  Lemma side_ok W c x p e :
    am_cells a D2 !! c = Some x -> ac_act x = true -> ac_rel x E2 !! p = Some e ->
    does (fun m => set_side c (length (ac_rel x E2)) m p) (amap (slots_cell W) a)
         (amap (slots_cell (upd1 c W (N.to_nat e, if along c p then 1 else 0))) a).
  Proof.
    intros Hx Hact Hp. destruct (polygon c x Hx Hact) as (Hlen & Hval & Hdist).
    assert (Hpl' : p < length (ac_rel x E2)) by (by eapply lookup_lt_Some).
    destruct (lookup_lt_is_Some_2 (ac_rel x V2) p ltac:(lia)) as [o Ho].
    destruct (lookup_lt_is_Some_2 (ac_rel x V2) ((p + 1) mod length (ac_rel x E2))) as [t Ht].
    { rewrite Hlen. apply Nat.mod_upper_bound. lia. }
    assert (He : N.to_nat e < anum D1 a).
    { rewrite Forall_forall in Hval. specialize (Hval e ltac:(by eapply elem_of_list_lookup_2)). lia. }
    destruct (lookup_lt_is_Some_2 (am_cells a D1) (N.to_nat e) He) as [y Hy].
    intros m Hm. destruct (slots_frame W m Hm) as (Fn & Fa & Fr & Fg & Fe).
    unfold set_side. rewrite !Fg by done. cbn [src]. rewrite Hx, Hp. cbn [mbind outcome_bind]. rewrite Ho. cbn [mbind outcome_bind].
    rewrite Ht. cbn [mbind outcome_bind].
    destruct (Fr E2 c ltac:(done)) as [Hrow _]. unfold look in Hrow. cbn [src] in Hrow. rewrite Hx in Hrow.
    destruct (find_edge_in_cell m E2 c o t (ac_rel x E2) (proj1 Hm) Hrow) as (f & Hf & Hfl & Hf1 & Hf2).
    { rewrite Fn. done. }
    rewrite Hf. cbn [mbind outcome_bind].
    assert (Hal : along c p = (f =? p)).
    { unfold along. rewrite Hx, Hp, Ho, Ht, Hy. destruct (Nat.eqb_spec f p) as [->|Hne].
      - apply bool_decide_eq_true. destruct (Hf2 e Hp) as [E1 E2]. destruct (Fe (N.to_nat e)) as [E3 E4].
        rewrite E3 in E1. rewrite E4 in E2. unfold look in *. rewrite Hy in E1, E2. injection E1 as <-. injection E2 as <-.
        by destruct (geo_pair y).
      - apply bool_decide_eq_false. intros Hgp.
        assert (Hpe : Cell1DOrigin (N.to_nat e) m = Ok o /\ Cell1DEnd (N.to_nat e) m = Ok t).
        { destruct (Fe (N.to_nat e)) as [-> ->]. unfold look. rewrite Hy, Hgp. done. }
        destruct (Nat.lt_trichotomy f p) as [Hlt|[?|Hgt]]; [|done|].
        + destruct (lookup_lt_is_Some_2 (ac_rel x E2) f ltac:(lia)) as [e' He'].
          assert (He'' : N.to_nat e' < anum D1 a).
          { rewrite Forall_forall in Hval. specialize (Hval e' ltac:(by eapply elem_of_list_lookup_2)). lia. }
          destruct (lookup_lt_is_Some_2 (am_cells a D1) (N.to_nat e') He'') as [y' Hy'].
          assert (f = p); [|lia]. eapply (Hdist f p e' e y' y); try done.
          destruct (Hf2 e' He') as [E1 E2]. destruct (Fe (N.to_nat e')) as [E3 E4].
          rewrite E3 in E1. rewrite E4 in E2. unfold look in *. rewrite Hy' in E1, E2. rewrite Hgp. destruct (geo_pair y').
          injection E1 as <-. injection E2 as <-. done.
        + by apply (Hf1 p e Hgt Hp). }
    rewrite Hal. assert (Hc : c < anum D2 a) by (by eapply lookup_lt_Some).
    destruct (f =? p); (apply does_slot; [done|lia|done|done]).
  Qed.

  Definition fill (n : nat) : slots :=
    foldl (fun W c => if aact a D2 c then foldl (upd1 c) W (writes c) else W) (fun _ _ => UINT_MAX) (seq 0 n).

  Lemma fill_S n : fill (S n) = if aact a D2 n then foldl (upd1 n) (fill n) (writes n) else fill n.
  Proof. unfold fill. by rewrite seq_snoc, foldl_app. Qed.

  Lemma polygon_ok W c :
    c < anum D2 a ->
    does (fun m => b ← IsActive D2 c m;
               if b : bool then
                 n ← RelNumber E2 c m;
                 ofold (set_side c (N.to_nat n)) (seq 0 (N.to_nat n)) m
               else Ok m)
      (amap (slots_cell W) a) (amap (slots_cell (if aact a D2 c then foldl (upd1 c) W (writes c) else W)) a).
  Proof.
    intros Hc. destruct (lookup_lt_is_Some_2 (am_cells a D2) c Hc) as [x Hx].
    assert (Ea : aact a D2 c = ac_act x) by (unfold aact; by rewrite Hx). rewrite Ea.
    eapply does_ext.
    - intros m Hm. destruct (slots_frame W m Hm) as (Fn & Fa & Fr & Fg & Fe). rewrite Fa. unfold look. rewrite Hx.
      cbn [mbind outcome_bind]. destruct (Fr E2 c ltac:(done)) as [_ ->]. unfold look. cbn [src]. rewrite Hx.
      cbn [mbind outcome_bind]. rewrite Nat2N.id. reflexivity.
    - destruct (ac_act x) eqn:Hact; [|apply does_ret].
      set (g := fun k => amap (slots_cell (foldl (upd1 c) W (take k (writes c)))) a).
      assert (Hw : length (writes c) = length (ac_rel x E2)).
      { unfold writes, edges_of. rewrite Hx. by rewrite imap_length. }
      change (row_of E2 x) with (ac_rel x E2).
      assert (Hg : does (ofold (set_side c (length (ac_rel x E2))) (seq 0 (length (ac_rel x E2)))) (g 0) (g (length (ac_rel x E2)))).
      { apply does_seq. intros k Hk. destruct (lookup_lt_is_Some_2 (ac_rel x E2) k Hk) as [e He].
        assert (Hwk : writes c !! k = Some (N.to_nat e, if along c k then 1 else 0)).
        { unfold writes, edges_of. rewrite Hx, list_lookup_imap, He. done. }
        unfold g. rewrite (take_S_r _ _ _ Hwk), foldl_app. cbn [foldl]. by apply side_ok. }
      assert (Hfin : g (length (ac_rel x E2)) = amap (slots_cell (foldl (upd1 c) W (writes c))) a).
      { unfold g. by rewrite <- Hw, firstn_all. }
      rewrite Hfin in Hg. exact Hg.
  Qed.

  Lemma cells_ok n : n <= anum D2 a ->
    does (ofold (fun m c => b ← IsActive D2 c m;
               if b : bool then
                 n ← RelNumber E2 c m;
                 ofold (set_side c (N.to_nat n)) (seq 0 (N.to_nat n)) m
               else Ok m) (seq 0 n)) (amap (slots_cell (fill 0)) a) (amap (slots_cell (fill n)) a).
  Proof.
    intros Hn. apply (does_seq _ n (fun k => amap (slots_cell (fill k)) a)). intros k Hk. rewrite fill_S.
    apply polygon_ok. lia.
  Qed.

  (** What the slots finally hold. *)
  Lemma foldl_upd1 c W l e s :
    foldl (upd1 c) W l e s = if decide ((e, s) ∈ l) then N.of_nat c else W e s.
  Proof.
    revert W. induction l as [|w l IH]; intros W; cbn [foldl]; [by rewrite decide_False by (by apply not_elem_of_nil)|].
    rewrite IH. unfold upd1. destruct (decide ((e, s) ∈ l)).
    - rewrite decide_True; [done|]. by right.
    - destruct (decide ((e, s) = w)) as [->|Hne].
      + rewrite decide_True; [done|]. by left.
      + rewrite decide_False; [done|]. by intros [?|?]%elem_of_cons.
  Qed.

  Lemma fill_spec n e s :
    last_such (fun c => c < n /\ aact a D2 c = true /\ (e, s) ∈ writes c) (fill n e s).
  Proof.
    induction n as [|n IH].
    - right. split; [done|]. intros c. lia.
    - rewrite fill_S. destruct (aact a D2 n) eqn:Ea.
      + rewrite foldl_upd1. destruct (decide ((e, s) ∈ writes n)) as [Hin|Hin].
        * left. exists n. split_and!; [done|lia|done|done|]. intros c' (? & _). lia.
        * destruct IH as [(c & -> & (Hc & Hact & Hw) & Hmax)|[-> Hno]].
          -- left. exists c. split_and!; [done|lia|done|done|]. intros c' (Hc' & Ha' & Hw').
             destruct (decide (c' = n)) as [->|]; [done|]. apply Hmax. split_and!; [lia|done|done].
          -- right. split; [done|]. intros c (Hc & Ha & Hw). destruct (decide (c = n)) as [->|]; [done|].
             apply (Hno c). split_and!; [lia|done|done].
      + destruct IH as [(c & -> & (Hc & Hact & Hw) & Hmax)|[-> Hno]].
        * left. exists c. split_and!; [done|lia|done|done|]. intros c' (Hc' & Ha' & Hw').
          destruct (decide (c' = n)) as [->|]; [congruence|]. apply Hmax. split_and!; [lia|done|done].
        * right. split; [done|]. intros c (Hc & Ha & Hw). destruct (decide (c = n)) as [->|]; [congruence|].
          apply (Hno c). split_and!; [lia|done|done].
  Qed.

  Lemma writes_has c e : (exists s, (e, s) ∈ writes c) <-> has_edge m0 c e.
  Proof.
    unfold has_edge, writes, edges_of. pose proof (proj2 Hm0) as H. rewrite (g_row _ _ H). unfold look. cbn [src].
    destruct (am_cells a D2 !! c) as [x|].
    - split.
      + intros (s & Hin). apply elem_of_lookup_imap in Hin as (p & e' & Hp & Hl). injection Hp as -> _.
        exists (ac_rel x E2), p. split; [done|]. rewrite Hl. f_equal. lia.
      + intros (es & p & [= <-] & Hp). exists (if along c p then 1 else 0). apply elem_of_lookup_imap.
        exists p, (N.of_nat e). split; [|done]. by rewrite Nat2N.id.
    - split; [intros (s & Hs); by apply elem_of_nil in Hs|]. by intros (es & p & ? & _).
  Qed.

  Lemma along_iff c x p e y o t :
    am_cells a D2 !! c = Some x -> ac_rel x E2 !! p = Some e -> ac_rel x V2 !! p = Some o ->
    ac_rel x V2 !! ((p + 1) mod length (ac_rel x E2)) = Some t -> am_cells a D1 !! N.to_nat e = Some y ->
    along c p = bool_decide (geo_pair y = (o, t)).
  Proof. intros Hx Hp Ho Ht Hy. unfold along. by rewrite Hx, Hp, Ho, Ht, Hy. Qed.

  Lemma writes_along c e : aact a D2 c = true -> (e, 1) ∈ writes c <-> runs_along m0 c e.
  Proof.
    intros Hact. unfold aact in Hact. destruct (am_cells a D2 !! c) as [x|] eqn:Hx; [|done].
    destruct (polygon c x Hx Hact) as (Hlen & Hval & Hdist). pose proof (proj2 Hm0) as H.
    unfold runs_along. rewrite !(g_row _ _ H), (g_origin _ _ H), (g_end _ _ H). unfold look. cbn [src]. rewrite Hx.
    unfold writes, edges_of. rewrite Hx. split.
    - intros Hin. apply elem_of_lookup_imap in Hin as (p & e' & Hp & Hl). injection Hp as -> Hal.
      assert (Hpl' : p < length (ac_rel x E2)) by (by eapply lookup_lt_Some).
      destruct (lookup_lt_is_Some_2 (ac_rel x V2) p ltac:(lia)) as [o Ho].
      destruct (lookup_lt_is_Some_2 (ac_rel x V2) ((p + 1) mod length (ac_rel x E2))) as [t Ht].
      { rewrite Hlen. apply Nat.mod_upper_bound. lia. }
      assert (He : N.to_nat e' < anum D1 a).
      { rewrite Forall_forall in Hval. specialize (Hval e' ltac:(by eapply elem_of_list_lookup_2)). lia. }
      destruct (lookup_lt_is_Some_2 (am_cells a D1) (N.to_nat e') He) as [y Hy].
      rewrite (along_iff c x p e' y o t) in Hal by done. destruct (bool_decide (geo_pair y = (o, t))) eqn:Eb; [|done].
      apply bool_decide_eq_true in Eb. exists (ac_rel x V2), (ac_rel x E2), p, o, t. rewrite Hy, Eb.
      split_and!; try done. rewrite Hl. f_equal. lia.
    - intros (vs & es & p & o & t & [= <-] & [= <-] & Hp & Ho & Ht & Hor & Hen).
      destruct (am_cells a D1 !! e) as [y|] eqn:Hy; [|done]. injection Hor as <-. injection Hen as <-.
      apply elem_of_lookup_imap. exists p, (N.of_nat e). split; [|done]. rewrite Nat2N.id.
      rewrite (along_iff c x p (N.of_nat e) y (geo_pair y).1 (geo_pair y).2); try done.
      + rewrite bool_decide_true; [done|]. by destruct (geo_pair y).
      + by rewrite Nat2N.id.
  Qed.

  (** An edge occurs at most once in an active polygon. *)
  Lemma writes_once c e s s' : aact a D2 c = true -> (e, s) ∈ writes c -> (e, s') ∈ writes c -> s = s'.
  Proof.
    intros Hact. unfold aact in Hact. destruct (am_cells a D2 !! c) as [x|] eqn:Hx; [|done].
    destruct (polygon c x Hx Hact) as (Hlen & Hval & Hdist). unfold writes, edges_of. rewrite Hx.
    intros (p & e1 & Hp & Hl)%elem_of_lookup_imap (q & e2 & Hq & Hl')%elem_of_lookup_imap.
    injection Hp as -> ->. injection Hq as Ee ->. assert (e1 = e2) as <- by lia.
    assert (He : N.to_nat e1 < anum D1 a).
    { rewrite Forall_forall in Hval. specialize (Hval e1 ltac:(by eapply elem_of_list_lookup_2)). lia. }
    destruct (lookup_lt_is_Some_2 (am_cells a D1) (N.to_nat e1) He) as [y Hy].
    by rewrite (Hdist p q e1 e1 y y).
  Qed.

  Lemma writes_against c e : aact a D2 c = true -> (e, 0) ∈ writes c <-> has_edge m0 c e /\ ~ runs_along m0 c e.
  Proof.
    intros Hact. rewrite <- writes_has, <- writes_along by done. split.
    - intros Hin. split; [eauto|]. intros Hin'. by pose proof (writes_once c e 0 1 Hact Hin Hin').
    - intros ((s & Hs) & Hn). unfold writes in *. pose proof Hs as Hs'. apply elem_of_lookup_imap in Hs' as (p & e' & Hp & Hl).
      injection Hp as -> ->. destruct (along c p); [done|]. done.
  Qed.
End polygons.

Lemma neighbours_12_plane m :
  reachable m -> mdim m = 2 -> plane_polygons m -> (forall e, e < num D1 m -> RelNumber R12 e m = Ok 0%N) ->
  exists m', ComputeCell1DCell2DNeighbours m = Ok m' /\ reachable m' /\
    (forall e, e < num D1 m -> exists right left, RelRow R12 e m' = Ok [right; left] /\
       last_such (fun c => active D2 m c = true /\ runs_along m c e) left /\
       last_such (fun c => active D2 m c = true /\ has_edge m c e /\ ~ runs_along m c e) right) /\
    (forall r' j, r' <> R12 -> RelRow r' j m' = RelRow r' j m) /\ same_values m m' /\ same_props m m'.
Proof.
  intros Hm Hd Hpl He. destruct (rr_of m Hm) as [a Ha]. pose proof (proj2 Ha) as H.
  unfold ComputeCell1DCell2DNeighbours. rewrite Hd.
  destruct (does_InitConst_empty R12 2 a) with (m := m) as (m1 & E1 & Hm1); [|done|].
  { intros i x Hx. specialize (He i). rewrite (g_num _ _ H), (g_count _ _ H) in He. unfold look in He. cbn [src] in *.
    rewrite Hx in He. assert (i < anum D1 a) as Hi by (by eapply lookup_lt_Some). specialize (He Hi).
    injection He as He. apply nil_length_inv. unfold row_of in He. lia. }
  rewrite E1. cbn [mbind outcome_bind].
  assert (Hnum : num D2 m1 = anum D2 a) by (by rewrite (g_num _ _ (proj2 Hm1)), amap_num).
  rewrite Hnum.
  destruct (cells_ok m a Ha Hpl (anum D2 a) ltac:(lia) m1) as (m' & E' & Hm').
  { exact Hm1. }
  exists m'. split; [exact E'|]. split; [apply Hm'|].
  split; [|exact (set_rows_frame m m' a R12 _ H (proj2 Hm'))].
  intros e Hen. rewrite (g_num _ _ H) in Hen.
  exists (fill a (anum D2 a) e 0), (fill a (anum D2 a) e 1). split_and!.
  - rewrite (g_row _ _ (proj2 Hm')). unfold look. cbn [src]. rewrite amap_lookup.
    destruct (lookup_lt_is_Some_2 (am_cells a D1) e Hen) as [x Hx]. rewrite Hx. done.
  - assert (HP : forall c, c < anum D2 a /\ aact a D2 c = true /\ (e, 1) ∈ writes a c <-> active D2 m c = true /\ runs_along m c e).
    { intros c. rewrite (active_aact m a _ _ H). split.
      - intros (_ & Hac & Hw). split; [done|]. by apply (writes_along m a Ha Hpl).
      - intros (Hac & Hw). split; [|split; [done|by apply (writes_along m a Ha Hpl)]].
        unfold aact in Hac. destruct (am_cells a D2 !! c) eqn:Hx; [|done]. by eapply lookup_lt_Some. }
    destruct (fill_spec a (anum D2 a) e 1) as [(c & -> & Hc & Hmax)|[-> Hno]].
    + left. exists c. split_and!; [done|by apply HP..|]. intros c' Hc'. by apply Hmax, HP.
    + right. split; [done|]. intros c Hc. by apply (Hno c), HP.
  - assert (HP : forall c, c < anum D2 a /\ aact a D2 c = true /\ (e, 0) ∈ writes a c <->
                   active D2 m c = true /\ has_edge m c e /\ ~ runs_along m c e).
    { intros c. rewrite (active_aact m a _ _ H). split.
      - intros (_ & Hac & Hw). split; [done|]. by apply (writes_against m a Ha Hpl).
      - intros (Hac & Hw). split; [|split; [done|by apply (writes_against m a Ha Hpl)]].
        unfold aact in Hac. destruct (am_cells a D2 !! c) eqn:Hx; [|done]. by eapply lookup_lt_Some. }
    destruct (fill_spec a (anum D2 a) e 0) as [(c & -> & Hc & Hmax)|[-> Hno]].
    + left. exists c. split_and!; [done|by apply HP..|]. intros c' Hc'. by apply Hmax, HP.
    + right. split; [done|]. intros c Hc. by apply (Hno c), HP.
Qed.

(** Two triangles with the neighbours just computed, then the first one is deactivated. *)
Definition w_plane : list op := w_two ++ [OInitDimension 2].
Definition w_sides : list op :=
  w_plane ++ [OInitConst R12 2; OInsert R12 0 1 0; OInsert R12 1 1 0; OInsert R12 2 1 0; OInsert R12 3 1 1;
              OInsert R12 4 1 1; OInsert R12 1 0 1; OState D2 0 false].
Lemma w_sides_reachable : reachable (after w_sides).
Proof. apply after_reachable, plain_allowed. done. Qed.

Lemma w_sides_dim : mdim (after w_sides) = 2.
Proof. vm_compute. done. Qed.

Lemma stale_run :
  (m ← run w_sides empty_mesh; m' ← ComputeCell1DCell2DNeighbours m; l ← RelRow R12 1 m'; b ← IsActive D2 0 m'; Ok (l, b))
  = Ok ([1; 0]%N, false).
Proof. vm_compute. reflexivity. Qed.

Lemma stale_neighbours :
  exists m m' e c l, reachable m /\ mdim m = 2 /\ ComputeCell1DCell2DNeighbours m = Ok m' /\
    RelRow R12 e m' = Ok l /\ N.of_nat c ∈ l /\ IsActive D2 c m' = Ok false.
Proof.
  pose proof stale_run as Ht. apply bind_ok in Ht as (m & E0 & Ht). apply bind_ok in Ht as (m' & E1 & Ht).
  apply bind_ok in Ht as (l & E2 & Ht). apply bind_ok in Ht as (b & E3 & Ht). injection Ht as -> ->.
  assert (Hm : m = after w_sides) by (unfold after; by rewrite E0).
  exists m, m', 1, 0, [1; 0]%N. split; [rewrite Hm; exact w_sides_reachable|].
  split; [rewrite Hm; exact w_sides_dim|]. split; [exact E1|]. split; [exact E2|]. split; [|exact E3].
  by apply elem_of_list_further, elem_of_list_here.
Qed.

(** Deciding the hypotheses on a concrete mesh. *)
Definition valid_incidence_b (r : rel) (row : nat -> mesh -> outcome (list N)) (m : mesh) : bool :=
  forallb (fun c => negb (active (tgt r) m c) ||
             match row c m with Ok l => forallb (fun v => (v <? N.of_nat (num (src r) m))%N) l | _ => false end)
          (seq 0 (num (tgt r) m)).

Lemma valid_incidence_b_ok r row m : reachable m -> valid_incidence_b r row m = true -> valid_incidence r row m.
Proof.
  intros Hm H c Hc. unfold valid_incidence_b in H. rewrite forallb_forall in H.
  specialize (H c). rewrite in_seq in H. specialize (H ltac:(pose proof (active_lt _ m c Hm Hc); lia)).
  rewrite Hc in H. cbn in H. destruct (row c m) as [l| | | |]; try done. exists l. split; [done|].
  rewrite forallb_forall in H. apply Forall_forall. intros v Hv%elem_of_list_In. specialize (H v Hv). lia.
Qed.

Definition same_ok (x y : outcome N) : bool :=
  match x, y with Ok v, Ok w => (v =? w)%N | Ok _, _ | _, Ok _ => false | _, _ => true end.

Definition plane_polygons_b (m : mesh) : bool :=
  forallb (fun c => negb (active D2 m c) ||
    match RelRow V2 c m, RelRow E2 c m with
    | Ok vs, Ok es =>
        (length vs =? length es) && forallb (fun e => (e <? N.of_nat (num D1 m))%N) es &&
        forallb (fun p => forallb (fun q => (p =? q) ||
            match es !! p, es !! q with
            | Some e, Some e' => negb (same_ok (Cell1DOrigin (N.to_nat e) m) (Cell1DOrigin (N.to_nat e') m) &&
                                       same_ok (Cell1DEnd (N.to_nat e) m) (Cell1DEnd (N.to_nat e') m))
            | _, _ => true
            end) (seq 0 (length es))) (seq 0 (length es))
    | _, _ => false
    end) (seq 0 (num D2 m)).

Lemma same_ok_eq x y : x = y -> same_ok x y = true.
Proof. intros ->. destruct y; try done. cbn. lia. Qed.

Lemma plane_polygons_b_ok m : reachable m -> plane_polygons_b m = true -> plane_polygons m.
Proof.
  intros Hm H c Hc. unfold plane_polygons_b in H. rewrite forallb_forall in H.
  specialize (H c). rewrite in_seq in H. specialize (H ltac:(pose proof (active_lt _ m c Hm Hc); lia)).
  rewrite Hc in H. cbn [negb orb] in H. destruct (RelRow V2 c m) as [vs| | | |]; try done.
  destruct (RelRow E2 c m) as [es| | | |]; try done.
  apply andb_true_iff in H as [H H3]. apply andb_true_iff in H as [H1 H2].
  exists vs, es. split_and!; [done|done|lia| |].
  - rewrite forallb_forall in H2. apply Forall_forall. intros v Hv%elem_of_list_In. specialize (H2 v Hv). lia.
  - intros p q e e' Hp Hq E1 E2. rewrite forallb_forall in H3.
    specialize (H3 p). rewrite in_seq in H3. pose proof (lookup_lt_Some _ _ _ Hp). pose proof (lookup_lt_Some _ _ _ Hq).
    specialize (H3 ltac:(lia)). rewrite forallb_forall in H3. specialize (H3 q). rewrite in_seq in H3. specialize (H3 ltac:(lia)).
    rewrite Hp, Hq, (same_ok_eq _ _ E1), (same_ok_eq _ _ E2) in H3. cbn in H3. lia.
Qed.

Lemma w_plane_reachable : reachable (after w_plane).
Proof. apply after_reachable, plain_allowed. done. Qed.

Lemma neighbours_examples :
  reachable (after w_plane) /\ plane_polygons (after w_plane) /\
  (forall e, e < num D1 (after w_plane) -> RelNumber R12 e (after w_plane) = Ok 0%N) /\
  valid_incidence R01 Cell1DExtremes (after w_part) /\ valid_incidence R02 (RelRow V2) (after w_part) /\
  okq w_plane (fun m => m' ← ComputeCell1DCell2DNeighbours m; omapM (fun e => RelRow R12 e m') [0; 1; 3])
    = Ok [[UINT_MAX; 0]; [1; 0]; [UINT_MAX; 1]]%N /\
  okq w_part (fun m => m' ← ComputeCell0DCell1DNeighbours m; omapM (fun e => RelRow R01 e m') [0; 1; 2; 3])
    = Ok [[]; [1; 3]; [1; 4]; [3; 4]]%N /\
  okq w_part (fun m => m' ← ComputeCell0DCell2DNeighbours m; omapM (fun e => RelRow R02 e m') [0; 1; 2; 3])
    = Ok [[]; [1]; [1]; [1]]%N.
Proof.
  split; [exact w_plane_reachable|]. split; [apply plane_polygons_b_ok; [exact w_plane_reachable|]; vm_compute; done|].
  split.
  { intros e He. assert (Hn : (num D1 (after w_plane) =? 5) = true) by (vm_compute; done).
    assert (Hall : forallb (fun e => match RelNumber R12 e (after w_plane) with Ok 0%N => true | _ => false end) (seq 0 5) = true)
      by (vm_compute; done).
    rewrite forallb_forall in Hall. specialize (Hall e). rewrite in_seq in Hall. specialize (Hall ltac:(lia)).
    destruct (RelNumber R12 e (after w_plane)) as [[|?]| | | |]; done. }
  split; [apply valid_incidence_b_ok; [exact w_part_reachable|]; vm_compute; done|].
  split; [apply valid_incidence_b_ok; [exact w_part_reachable|]; vm_compute; done|].
  vm_compute. done.
Qed.
