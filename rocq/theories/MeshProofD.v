(** Absent references over histories (C05, C06), origins (C10), genealogy queries (C08, C09), look-ups (C13). *)
From Verif Require Import Base BaseProof CsrModel CsrSpec CsrProof MeshModel MeshSpec MeshRep MeshHist
  MeshProof MeshProof2 MeshProof3 MeshProof4 MeshProof5 MeshProof6 MeshProof7 MeshProof8 MeshProof9 MeshProofA MeshProofB
  MeshProofC.
From Coq Require Import ZifyBool ZifyNat ZifyN.

Lemma renumber_beyond i g v n :
  (i < n)%N -> (n <= v)%N -> renumber i g v = (v - 1)%N.
Proof. intros Hi Hv. unfold renumber. rewrite !decide_False by lia. done. Qed.

Lemma slot_step m o m' r j j' k v c :
  reachable m -> allowed m o -> step m o = Ok m' -> r <> S2 ->
  follow o (src r) j = Some j' -> ~ writes_row o r j ->
  RelGet r j k m = Ok v -> (N.of_nat (num (tgt r) m + (created1 (tgt r) m o + c)) <= v)%N ->
  exists v', RelGet r j' k m' = Ok v' /\ (N.of_nat (num (tgt r) m' + c) <= v')%N.
Proof.
  intros Hm Ha Hs Hr2 Hf Hw Hv Hle.
  destruct (reachable_step m o m' Hm Ha Hs) as (a & a' & H & H' & Ho).
  rewrite (g_get _ _ H) in Hv. destruct (am_cells a (src r) !! j) as [x|] eqn:Hx; [|done].
  destruct (ac_rel x r !! k) as [w|] eqn:Hk; [|done]. injection Hv as ->.
  destruct (astep_frame a o a' (src r) j j' x Ho Hf Hx) as (x' & Hx' & Hrow & _).
  specialize (Hrow r eq_refl Hw). rewrite (g_get _ _ H'), Hx', Hrow.
  rewrite (g_num _ _ H'). rewrite (g_num _ _ H) in Hle.
  destruct (astep_num a o a' (tgt r) m H Ho) as [Hnum Hlt].
  destruct o; cbn [carry_row]; try (rewrite Hk; exists v; split; [done|]; lia).
  unfold renumber_row. destruct (decide (tgt r = d /\ r <> S2)) as [[E _]|E].
  - rewrite list_lookup_fmap, Hk. cbn. eexists. split; [done|].
    rewrite decide_True in Hnum by done. specialize (Hlt (eq_sym E)). cbn in Hle.
    rewrite (renumber_beyond _ _ _ (N.of_nat (anum (tgt r) a))) by lia. lia.
  - rewrite Hk. exists v. split; [done|]. rewrite decide_False in Hnum by naive_solver. cbn in Hle. lia.
Qed.

Lemma slot_history ops m m' r j j' k v :
  reachable m -> all_allowed ops m -> run ops m = Ok m' -> r <> S2 ->
  follow_all ops (src r) j = Some j' -> never (fun o => writes_row o r) ops (src r) j ->
  RelGet r j k m = Ok v -> (N.of_nat (num (tgt r) m + created (tgt r) ops m) <= v)%N ->
  RelHas r j' k m' = Ok false.
Proof.
  revert m j v. induction ops as [|o ops IH]; intros m j v Hm Ha Hs Hr2 Hf Hw Hv Hle; cbn in *.
  - injection Hs as <-. injection Hf as <-. unfold RelHas. rewrite Hv. cbn. f_equal. lia.
  - destruct (step m o) as [m1| | | |] eqn:Es; try done. cbn in Hs. destruct Ha as [Ha Ha']. destruct Hw as [Hw Hw'].
    destruct (follow o (src r) j) as [j1|] eqn:Ef; [|done].
    destruct (slot_step m o m1 r j j1 k v (created (tgt r) ops m1) Hm Ha Es Hr2 Ef Hw Hv Hle) as (v1 & Hv1 & Hle1).
    eapply (IH m1 j1 v1); try done. by eapply reach_step.
Qed.

(** The same for origins. *)
Lemma origin_step m o m' d j j' v c :
  reachable m -> allowed m o -> step m o = Ok m' -> d <> D0 ->
  follow o d j = Some j' -> ~ writes_origin o d j ->
  Original d j m = Ok v -> (N.of_nat (num d m + (created1 d m o + c)) <= v)%N ->
  exists v', Original d j' m' = Ok v' /\ (N.of_nat (num d m' + c) <= v')%N.
Proof.
  intros Hm Ha Hs Hd Hf Hw Hv Hle.
  destruct (reachable_step m o m' Hm Ha Hs) as (a & a' & H & H' & Ho).
  rewrite (g_original _ _ H) in Hv by done. unfold look in Hv. destruct (am_cells a d !! j) as [x|] eqn:Hx; [|done].
  injection Hv as <-.
  destruct (astep_frame a o a' d j j' x Ho Hf Hx) as (x' & Hx' & _ & Horig).
  specialize (Horig Hw). rewrite (g_original _ _ H') by done. unfold look. rewrite Hx', Horig.
  rewrite (g_num _ _ H'). rewrite (g_num _ _ H) in Hle.
  destruct (astep_num a o a' d m H Ho) as [Hnum Hlt].
  destruct o; cbn [carry_orig]; try (eexists; split; [done|]; lia).
  cbn in Hle. eexists. split; [done|]. destruct (decide (d0 = d)) as [E|E].
  - rewrite decide_True by (split; congruence). specialize (Hlt E).
    rewrite (renumber_beyond _ _ _ (N.of_nat (anum d a))) by lia. lia.
  - rewrite decide_False by tauto. lia.
Qed.

Lemma origin_history ops m m' d j j' v :
  reachable m -> all_allowed ops m -> run ops m = Ok m' -> d <> D0 ->
  follow_all ops d j = Some j' -> never (fun o => writes_origin o d) ops d j ->
  Original d j m = Ok v -> (N.of_nat (num d m + created d ops m) <= v)%N ->
  HasOriginal d j' m' = Ok false.
Proof.
  revert m j v. induction ops as [|o ops IH]; intros m j v Hm Ha Hs Hd Hf Hw Hv Hle; cbn in *.
  - injection Hs as <-. injection Hf as <-. unfold Original in Hv. unfold HasOriginal.
    destruct (j <? num d m); [|done]. cbn in *. rewrite Hv. cbn. f_equal. lia.
  - destruct (step m o) as [m1| | | |] eqn:Es; try done. cbn in Hs. destruct Ha as [Ha Ha']. destruct Hw as [Hw Hw'].
    destruct (follow o d j) as [j1|] eqn:Ef; [|done].
    destruct (origin_step m o m1 d j j1 v (created d ops m1) Hm Ha Es Hd Ef Hw Hv Hle) as (v1 & Hv1 & Hle1).
    eapply (IH m1 j1 v1); try done. by eapply reach_step.
Qed.

(** ** Origin and replacement agree *)

(** [c]: cells of each dimension created so far. *)
Definition orig_inv (a : amesh) (d : dim) (c : nat) : Prop :=
  anum d a <= c /\
  forall j x, am_cells a d !! j = Some x ->
    (exists i y s, ac_orig x = N.of_nat i /\ am_cells a d !! i = Some y /\ ac_upd y = Some s /\ N.of_nat j ∈ s) \/
    (N.of_nat (anum d a) + UINT_MAX <= ac_orig x + N.of_nat c)%N.

Definition gene (x : acell) : N * option (gset N) := (ac_orig x, ac_upd x).

Lemma orig_inv_ext a a' d c :
  gene <$> am_cells a' d = gene <$> am_cells a d -> orig_inv a d c -> orig_inv a' d c.
Proof.
  intros E [Hn Hi].
  assert (Hlen : anum d a' = anum d a) by (by apply fmap_length_eq in E).
  assert (Hl : forall i y', am_cells a' d !! i = Some y' -> exists y, am_cells a d !! i = Some y /\ gene y = gene y').
  { intros i y' Hy. assert (Hg : (gene <$> am_cells a' d) !! i = Some (gene y')) by (by rewrite list_lookup_fmap, Hy).
    rewrite E, list_lookup_fmap in Hg. destruct (am_cells a d !! i) as [y|]; [|done]. exists y. split; [done|].
    by apply (inj Some) in Hg. }
  assert (Hr : forall i y, am_cells a d !! i = Some y -> exists y', am_cells a' d !! i = Some y' /\ gene y' = gene y).
  { intros i y Hy. assert (Hg : (gene <$> am_cells a d) !! i = Some (gene y)) by (by rewrite list_lookup_fmap, Hy).
    rewrite <- E, list_lookup_fmap in Hg. destruct (am_cells a' d !! i) as [y'|]; [|done]. exists y'. split; [done|].
    by apply (inj Some) in Hg. }
  split; [lia|]. intros j x' Hx'. destruct (Hl j x' Hx') as (x & Hx & Hg). injection Hg as Hg1 Hg2.
  rewrite Hlen, <- Hg1. destruct (Hi j x Hx) as [(i & y & s & Ho & Hy & Hu & Hin)|Hd]; [left|by right].
  destruct (Hr i y Hy) as (y' & Hy' & Hgy). injection Hgy as _ Hgu. exists i, y', s.
  split_and!; try done. by rewrite Hgu.
Qed.

Lemma on_cell_gene d i f a a' d' :
  on_cell d i f a = Some a' -> (forall x, gene (f x) = gene x) -> gene <$> am_cells a' d' = gene <$> am_cells a d'.
Proof.
  unfold on_cell. intros (x & Hx & [= <-])%bind_Some Hf. cbn [with_cells am_cells].
  destruct (decide (d = d')) as [<-|E]; [rewrite upd_fun_eq|by rewrite upd_fun_ne].
  eapply fmap_insert_same; [done|]. apply Hf.
Qed.

Lemma zip_gene {A} (g : A -> acell -> acell) (l : list A) (cs : list acell) :
  length l = length cs -> (forall y x, gene (g y x) = gene x) -> gene <$> zip_with g l cs = gene <$> cs.
Proof.
  revert cs. induction l as [|y l IH]; intros [|x cs] Hl Hg; cbn in *; try done. rewrite Hg, IH by (done || lia). done.
Qed.

Lemma with_cells_gene a d cs d' :
  gene <$> cs = gene <$> am_cells a d -> gene <$> am_cells (with_cells d cs a) d' = gene <$> am_cells a d'.
Proof. intros E. cbn [with_cells am_cells]. destruct (decide (d = d')) as [<-|E2]; [by rewrite upd_fun_eq|by rewrite upd_fun_ne]. Qed.

Lemma astep_orig_inv m a o a' d c :
  represents m a -> d <> D0 -> astep a o = Some a' -> orig_inv a d c ->
  (N.of_nat (c + created1 d m o) <= UINT_MAX)%N ->
  orig_inv a' d (c + created1 d m o).
Proof.
  intros H Hd Ho Hinv Hc.
  assert (Hnew : forall d0 n, created1 d m o = (if decide (d0 = d) then n else 0) ->
     a' = with_cells d0 (am_cells a d0 ++ replicate n (new_cell d0 (length (am_names a d0)))) a ->
     orig_inv a' d (c + created1 d m o)).
  { intros d0 n Hcr ->. destruct (decide (d0 = d)) as [->|E].
    - rewrite Hcr in *. destruct Hinv as [Hn Hi]. unfold orig_inv, anum. cbn [with_cells am_cells]. rewrite upd_fun_eq.
      rewrite app_length, replicate_length. fold (anum d a). split; [lia|].
      intros j x Hx. rewrite lookup_app_new in Hx. fold (anum d a) in Hx. case_decide as Ej.
      + destruct (Hi j x Hx) as [(i & y & s & Hor & Hy & Hu & Hin)|Hb].
        * left. exists i, y, s. split_and!; try done. rewrite lookup_app_l by (by eapply lookup_lt_Some). done.
        * right. lia.
      + case_decide; [|done]. injection Hx as <-. right. cbn. lia.
    - rewrite Hcr, Nat.add_0_r. eapply orig_inv_ext; [|exact Hinv]. cbn [with_cells am_cells]. by rewrite upd_fun_ne. }
  assert (Hsame : created1 d m o = 0 -> gene <$> am_cells a' d = gene <$> am_cells a d -> orig_inv a' d (c + created1 d m o)).
  { intros E Hg. rewrite E, Nat.add_0_r. by eapply orig_inv_ext. }
  destruct o; cbn [astep] in Ho.
  1: { injection Ho as <-. by apply Hsame. }
  1: { injection Ho as <-. apply (Hnew d0 (n - anum d0 a)); [|done]. cbn. rewrite <- (g_num _ _ H). case_decide; [|done]. by subst. }
  1: { injection Ho as <-. by apply (Hnew d0 n). }
  1: { clear Hnew Hsame. case_decide as Hi; [|done]. injection Ho as <-. cbn [created1]. rewrite Nat.add_0_r.
       destruct Hinv as [Hn Hv]. unfold orig_inv. rewrite aremove_num by done.
       destruct (decide (d = d0)) as [<-|E].
       - split; [lia|]. intros j' x' Hx'. cbn [aremove am_cells] in Hx'. rewrite decide_True in Hx' by done.
         rewrite list_lookup_fmap, lookup_delete_list_cases in Hx'.
         set (j := if decide (j' < i) then j' else j' + 1) in *.
         assert (Hj : (if decide (j' < i) then am_cells a d !! j' else am_cells a d !! (j' + 1)) = am_cells a d !! j)
           by (unfold j; by case_decide).
         rewrite Hj in Hx'. destruct (am_cells a d !! j) as [x|] eqn:Hx; [|done]. cbn in Hx'. injection Hx' as <-.
         assert (Hjj : j' = new_number i j /\ j <> i) by (clear -i j' j; unfold j, new_number; destruct (decide (j' < i)); [destruct (Nat.ltb_spec j' i)|destruct (Nat.ltb_spec (j' + 1) i)]; lia).
         destruct Hjj as [E1 Hji]. clear Hj. clearbody j. subst j'. cbn [renumber_cell ac_orig]. rewrite decide_True by done.
         destruct (Hv j x Hx) as [(p & y & s & Hor & Hy & Hu & Hin)|Hb].
         + rewrite Hor. destruct (decide (p = i)) as [->|Hpi].
           * right. unfold renumber. rewrite decide_False by lia. rewrite decide_True by done. lia.
           * left. exists (new_number i p). assert (Hm' := aremove_lookup a d i d p ltac:(by right)).
             unfold moved in Hm'. rewrite decide_True, Hy in Hm' by done. cbn [fmap option_fmap option_map] in Hm'.
             eexists _, _. split_and!.
             -- rewrite renumber_shift by lia. unfold new_numberN, new_number. destruct (Nat.ltb_spec p i), (N.ltb_spec (N.of_nat p) (N.of_nat i)); lia.
             -- exact Hm'.
             -- cbn [renumber_cell ac_upd]. rewrite decide_True by done. unfold renumber_upd. rewrite Hu.
                cbn [mbind option_bind]. rewrite decide_False; [done|]. intros Hsub. apply Hsub in Hin.
                rewrite elem_of_singleton in Hin. lia.
             -- apply elem_of_map. exists (N.of_nat j). split.
                ++ unfold new_number. destruct (Nat.ltb_spec j i), (decide (N.of_nat j < N.of_nat i)%N); lia.
                ++ apply elem_of_difference. split; [done|]. rewrite elem_of_singleton. lia.
         + right. rewrite (renumber_beyond _ _ _ (N.of_nat (anum d a))) by (unfold UINT_MAX in *; cbn in Hc; lia). lia.
       - split; [done|]. intros j x' Hx'. cbn [aremove am_cells] in Hx'. rewrite decide_False in Hx' by done.
         rewrite list_lookup_fmap in Hx'. destruct (am_cells a d !! j) as [x|] eqn:Hx; [|done]. cbn in Hx'. injection Hx' as <-.
         cbn [renumber_cell ac_orig]. rewrite decide_False by naive_solver.
         destruct (Hv j x Hx) as [(p & y & s & Hor & Hy & Hu & Hin)|Hb]; [left|by right].
         assert (Hm' := aremove_lookup a d0 i d p ltac:(by left)). unfold moved in Hm'. rewrite decide_False, Hy in Hm' by done.
         eexists p, _, s. split_and!; [done|exact Hm'| |done]. cbn. by rewrite decide_False. }
  all: try (apply Hsame; [done|]; by eapply on_cell_gene).
  all: try (case_decide as E; [|done]; injection Ho as <-; apply Hsame; [done|]; apply with_cells_gene, zip_gene;
            [rewrite ?redeal_length, ?replicate_length; unfold anum in *; intuition congruence|done]).
  all: try (case_decide as E; [|done]; apply Hsame; [done|]; by eapply on_cell_gene).
  - (* updated *)
    clear Hnew Hsame. case_decide as E; [|done]. destruct E as [Hi Hj].
    apply bind_Some in Ho as (a1 & Ho1 & Ho2). cbn [created1]. rewrite Nat.add_0_r.
    destruct (decide (d0 = d)) as [->|Ed].
    + destruct (decide (d = D0)) as [?|_]; [done|].
      assert (Hnum : anum d a' = anum d a) by (rewrite (on_cell_num _ _ _ _ _ _ Ho2); by eapply on_cell_num).
      destruct Hinv as [Hn Hv]. split; [lia|]. rewrite Hnum.
      assert (Hlk : forall q, am_cells a' d !! q =
        (fun x => let x := (if decide (i = q) then with_upd (Some ({[N.of_nat j]} ∪ default ∅ (ac_upd x))) x else x) in
                  if decide (j = q) then with_orig (N.of_nat i) x else x) <$> am_cells a d !! q).
      { intros q. rewrite (on_cell_lookup _ _ _ _ _ d q Ho2), (on_cell_lookup _ _ _ _ _ d q Ho1).
        destruct (decide (i = q)), (decide (j = q)).
        - rewrite !decide_True by done. by destruct (am_cells a d !! q).
        - rewrite decide_False by tauto. rewrite decide_True by done. done.
        - rewrite decide_True by done. rewrite decide_False by tauto. done.
        - rewrite !decide_False by tauto. by destruct (am_cells a d !! q). }
      assert (Hup : forall q y s, am_cells a d !! q = Some y -> ac_upd y = Some s ->
         exists y' s', am_cells a' d !! q = Some y' /\ ac_upd y' = Some s' /\ s ⊆ s').
      { intros q y s Hy Hs. rewrite Hlk, Hy. cbn [fmap option_fmap option_map].
        destruct (decide (i = q)), (decide (j = q)); eexists _, _; (split; [done|]); cbn; rewrite ?Hs; (split; [done|]); set_solver. }
      intros q x' Hx'. rewrite Hlk in Hx'. destruct (am_cells a d !! q) as [x|] eqn:Hx; [|done]. cbn in Hx'. injection Hx' as <-.
      destruct (decide (j = q)) as [<-|Hjq].
      * left. apply lookup_lt_is_Some in Hi as [y Hy]. exists i.
        pose proof (Hlk i) as Hli. rewrite Hy in Hli. cbn [fmap option_fmap option_map] in Hli.
        destruct (decide (i = i)) as [_|?]; [|done]. cbn zeta in Hli.
        destruct (decide (j = i)) as [Eji|Eji].
        -- eexists _, _. split_and!; [by case_decide|exact Hli|done|set_solver].
        -- eexists _, _. split_and!; [by case_decide|exact Hli|done|set_solver].
      * destruct (Hv q x Hx) as [(p & y & s & Hor & Hy & Hu & Hin)|Hb].
        -- left. destruct (Hup p y s Hy Hu) as (y' & s' & Hy' & Hu' & Hsub).
           exists p, y', s'. split_and!; [case_decide; done|done|done|set_solver].
        -- right. case_decide; done.
    + assert (E1 : am_cells a' d = am_cells a d).
      { apply list_eq. intros q. rewrite (on_cell_lookup _ _ _ _ _ d q Ho2), (on_cell_lookup _ _ _ _ _ d q Ho1).
        rewrite !decide_False by tauto. done. }
      eapply orig_inv_ext; [by rewrite E1|done].
  - injection Ho as <-. apply Hsame; [done|]. apply with_cells_gene, zip_gene; [|done].
    by rewrite redeal_length, replicate_length.
  - apply bind_Some in Ho as (x & Hx & Ho). case_decide as E; [|done]. apply Hsame; [done|]. by eapply on_cell_gene.
  - case_decide as E0; [injection Ho as <-; by apply Hsame|].
    apply bind_Some in Ho as (x & Hx & Ho). case_decide as E; [|done]. apply Hsame; [done|]. by eapply on_cell_gene.
  - case_decide as E; [done|]. injection Ho as <-. apply Hsame; [done|]. cbn [am_cells].
    destruct (decide (d0 = d)) as [<-|E2]; [rewrite upd_fun_eq|by rewrite upd_fun_ne].
    rewrite <- list_fmap_compose. by apply list_fmap_ext.
  - injection Ho as <-. by apply Hsame.
Qed.

Lemma origin_agree_history ops m d :
  all_allowed ops empty_mesh -> run ops empty_mesh = Ok m -> d <> D0 ->
  (N.of_nat (created d ops empty_mesh) <= UINT_MAX)%N ->
  forall j i, Original d j m = Ok (N.of_nat i) -> HasOriginal d j m = Ok true -> replaced_by d m i j.
Proof.
  intros Ha Hs Hd Hc.
  assert (Hgen : forall ops m0 a0 c, represents m0 a0 -> all_allowed ops m0 -> run ops m0 = Ok m -> orig_inv a0 d c ->
     (N.of_nat (c + created d ops m0) <= UINT_MAX)%N ->
     exists a c', represents m a /\ orig_inv a d c' /\ (N.of_nat c' <= UINT_MAX)%N).
  { clear ops Ha Hs Hc. induction ops as [|o ops IH]; intros m0 a0 c H0 Ha Hs Hinv Hc; cbn in *.
    - injection Hs as <-. exists a0, c. split_and!; [done|done|lia].
    - destruct Ha as [Ha Ha']. destruct (step m0 o) as [m1| | | |] eqn:Es; try done. cbn in Hs.
      pose proof (allowed_sim m0 a0 o H0 Ha) as Hsim. rewrite Es in Hsim. destruct (astep a0 o) as [a1|] eqn:Eo; [|done].
      eapply (IH m1 a1 (c + created1 d m0 o)); try done.
      + eapply astep_orig_inv; try done. lia.
      + rewrite <- Nat.add_assoc. done. }
  destruct (Hgen ops empty_mesh aempty 0 represents_empty Ha Hs) as (a & c' & H & [Hn Hv] & Hc'); [|done|].
  { split; [done|]. intros j x Hx. by destruct j. }
  intros j i Ho Hho. apply (replaced_by_abs _ _ _ _ _ H).
  rewrite (g_original _ _ H) in Ho by done. rewrite (g_hasoriginal _ _ H) in Hho by done. unfold look in *.
  destruct (am_cells a d !! j) as [x|] eqn:Hx; [|done]. injection Ho as Ho. injection Hho as Hho.
  split; [by eapply lookup_lt_Some|].
  destruct (Hv j x Hx) as [(p & y & s & Hor & Hy & Hu & Hin)|Hb].
  - assert (p = i) as -> by lia. by exists y, s.
  - lia.
Qed.
