(** * Cutting a polygon in two, and giving a neighbour the halves of a split edge. *)
From Verif Require Import Base MeshModel RefineView RefineReplace.

Section cut.
Context (P : gmap N pend) (V V' : view) (c : N) (l l1 l2 : list (N * N)) (f : N).
Notation a := (start l1 0).
Notation b := (start l2 0).
Notation A := (l1 ++ [(b, f)]).
Notation B := (l2 ++ [(a, f)]).
Context (I : inv P V) (H : replaced c [A; B] V V').
Context (Hc : va V D2 c = true) (Hl : vp V c = Some l) (Hr : rot (virt P l) (l1 ++ l2)).
Context (HA : 3 <= length A) (HB : 3 <= length B).
Context (Hsmall : (vn V' D2 <= UINT_MAX)%N).
Context (Hf : f = vn V D1) (Hfa : va V' D1 f = true) (Hfe : ve V' f = Some (b, a)).
Context (Hfr : vr V' f = Some [(vn V D2 + 1)%N; vn V D2]) (Hf1 : vn V' D1 = (vn V D1 + 1)%N).

Local Lemma whole : good V (l1 ++ l2).
Proof. destruct (i_poly P V I c Hc) as (_ & k & Hk & G). rewrite Hl in Hk. injection Hk as <-. by eapply rot_good. Qed.
Local Lemma f_no : va V D1 f = false.
Proof. destruct (va V D1 f) eqn:E; [|done]. apply (i_lt P V I) in E. lia. Qed.
Local Lemma f_out v : (v, f) ∉ l1 ++ l2.
Proof. intros M. destruct (gd_act V _ whole v f M) as [_ E]. by rewrite f_no in E. Qed.
Local Lemma l1_ne : l1 <> [].
Proof. rewrite app_length in HA. cbn in HA. by destruct l1; cbn in HA; [lia|]. Qed.
Local Lemma l2_ne : l2 <> [].
Proof. rewrite app_length in HB. cbn in HB. by destruct l2; cbn in HB; [lia|]. Qed.
Local Lemma start_in (k : list (N * N)) : k <> [] -> exists e, (start k 0, e) ∈ k.
Proof. destruct k as [|[v e] k]; [done|]. intros _. exists e. apply elem_of_list_here. Qed.

Local Lemma half_good (k1 k2 : list (N * N)) :
  good V (k1 ++ k2) -> k1 <> [] -> k2 <> [] -> 3 <= length (k1 ++ [(start k2 0, f)]) ->
  (forall v, (v, f) ∉ k1 ++ k2) -> joined V' f (start k2 0) (start k1 0) -> good V' (k1 ++ [(start k2 0, f)]).
Proof.
  intros [G1 G2 G3 G4 G5] N1 N2 N3 Nf J.
  rewrite fmap_app in G2, G3. apply NoDup_app in G2 as (D1' & D2' & _). apply NoDup_app in G3 as (D3' & _ & _).
  destruct (start_in k2 N2) as [e He]. split; [done|..].
  - rewrite fmap_app. cbn. apply NoDup_app. split_and!; [done| |apply NoDup_singleton].
    intros v Mv Ev%elem_of_list_singleton. rewrite Ev in Mv. apply (D2' _ Mv). apply elem_of_list_fmap. by exists (start k2 0, e).
  - rewrite fmap_app. cbn. apply NoDup_app. split_and!; [done| |apply NoDup_singleton].
    intros g Mg ->%elem_of_list_singleton. apply elem_of_list_fmap in Mg as ([v g] & Eg & Mg). cbn in Eg. subst g.
    apply (Nf v). apply elem_of_app. by left.
  - intros v g. rewrite elem_of_app, elem_of_list_singleton. intros [M|[= -> ->]].
    + destruct (G4 v g) as [B1 B2]; [apply elem_of_app; by left|]. split; [by rewrite (rp_va0 _ _ _ _ H)|by apply (rp_va1 _ _ _ _ H)].
    + split; [|done]. rewrite (rp_va0 _ _ _ _ H). apply (G4 _ e). apply elem_of_app. by right.
  - rewrite linked_app. cbn. apply linked_app in G5 as [L1 _]. split.
    + eapply linked_mono; [|rewrite (start_ne k2 _ 0) in L1 by done; exact L1]. intros g v w [u M] Jg. unfold joined. rewrite (rp_ve _ _ _ _ H); [done|].
      apply (i_lt P V I D1). apply (G4 u g). apply elem_of_app. by left.
    + split; [|done]. rewrite start_app, (start_ne k1 _ 0) by done. done.
Qed.

Lemma cut_inv : inv P V'.
Proof.
  pose proof whole as W. pose proof l1_ne as N1. pose proof l2_ne as N2.
  assert (GA : good V' A). { apply half_good; try done; [apply f_out|]. by left. }
  assert (GB : good V' B).
  { apply half_good; try done.
    - eapply rot_good; [|exact W]. by exists l1, l2.
    - intros v M. apply (f_out v). apply elem_of_app. apply elem_of_app in M. tauto.
    - by right. }
  assert (Hsub : forall j row, [A; B] !! j = Some row -> (j = 0 /\ row = A) \/ (j = 1 /\ row = B)).
  { intros [|[|j]] row Ej; cbn in Ej; [injection Ej as <-; auto..|done]. }
  assert (Fne : forall v g, va V D1 g = true -> (v, g) ∈ A <-> (v, g) ∈ l1).
  { intros v g Ag. rewrite elem_of_app, elem_of_list_singleton. split; [|auto]. intros [M|[= -> ->]]; [done|]. by rewrite f_no in Ag. }
  assert (Fne' : forall v g, va V D1 g = true -> (v, g) ∈ B <-> (v, g) ∈ l2).
  { intros v g Ag. rewrite elem_of_app, elem_of_list_singleton. split; [|auto]. intros [M|[= -> ->]]; [done|]. by rewrite f_no in Ag. }
  assert (F2 : forall (k : list (N * N)) g, g ∈ k.*2 <-> exists v, (v, g) ∈ k).
  { intros k g. rewrite elem_of_list_fmap. split; [intros ([v g'] & -> & M); by exists v|intros [v M]; by exists (v, g)]. }
  assert (Dis : forall g v v', (v, g) ∈ l1 -> (v', g) ∈ l2 -> False).
  { intros g v v' M1 M2. pose proof (gd_es V _ W) as D. rewrite fmap_app in D. apply NoDup_app in D as (_ & D & _).
    apply (D g); apply F2; eauto. }
  eapply (replace_inv P V V' c l [A; B] I H Hc Hl Hsmall).
  - intros j row [[_ ->]|[_ ->]]%Hsub; done.
  - intros v g Ag. rewrite (rot_perm _ _ Hr), elem_of_app. split.
    + intros [M|M]; [exists 0, A|exists 1, B]; (split; [done|]); [by apply Fne|by apply Fne'].
    + intros (j & row & [[-> ->]|[-> ->]]%Hsub & M); [left; by apply Fne|right; by apply Fne'].
  - intros g i j row row' Ag [[-> ->]|[-> ->]]%Hsub [[-> ->]|[-> ->]]%Hsub [v M]%F2 [v' M']%F2; try done; exfalso.
    + apply (Dis g v v'); [by apply Fne|by apply Fne'].
    + apply (Dis g v' v); [by apply Fne|by apply Fne'].
  - intros g G1 G2. assert (g = f) as ->.
    { pose proof (rp_lt1 _ _ _ _ H g G1) as L. rewrite Hf1 in L. destruct (decide (g < vn V D1)%N) as [E|E]; [|lia].
      rewrite (rp_old1 _ _ _ _ H) in G1 by done. by rewrite G2 in G1. }
    exists b, a, (vn V D2 + 1)%N, (vn V D2). split_and!; [done..| |].
    + assert (PA : P !! f = None).
      { destruct (P !! f) as [x|] eqn:Ex; [|done]. destruct (i_pend P V I f x Ex) as (_ & L & _). lia. }
      assert (Vn : forall row, row = A \/ row = B -> forall v, (v, f) ∈ virt P row <-> (v, f) ∈ row).
      { intros row Hrow v. assert (virt P row = row) as ->; [|done]. apply virt_none. intros u e M. destruct (P !! e) as [x|] eqn:Ex; [|done].
        destruct (i_pend P V I e x Ex) as (B1 & B2 & _). rewrite <- (rp_old1 _ _ _ _ H) in B1 by done.
        destruct Hrow as [->| ->]; [destruct (gd_act V' _ GA u e M) as [_ C]|destruct (gd_act V' _ GB u e M) as [_ C]]; by rewrite B1 in C. }
      split.
      * intros i k Hi Hk M. destruct (act_cases P V V' c [A; B] i I H Hi) as [(B1 & B2 & B3 & B4)|(j & row & -> & Ej & Ek)].
        -- exfalso. rewrite B4 in Hk. destruct (i_poly P V I i B1) as (_ & k' & Hk' & G). rewrite Hk in Hk'. injection Hk' as <-.
           destruct (gd_act V _ G _ _ M) as [_ E]. by rewrite f_no in E.
        -- rewrite Hk in Ek. injection Ek as <-. apply Hsub in Ej as [[-> ->]|[-> ->]]; [|done]. exfalso.
           apply (Vn A) in M; [|by left]. rewrite elem_of_app, elem_of_list_singleton in M. destruct M as [M|[= E]].
           ++ apply (f_out a). apply elem_of_app. by left.
           ++ pose proof (gd_vs V' _ GA) as D. rewrite fmap_app in D. apply NoDup_app in D as (_ & D & _).
              destruct (start_in l1 N1) as [e He]. apply (D a); [apply elem_of_list_fmap; by exists (a, e)|].
              cbn. apply elem_of_list_singleton. done.
      * right. exists B. assert (E1 : [A; B] !! 1 = Some B) by done.
        split_and!; [|by apply (rp_new _ _ _ _ H 1)|].
        -- rewrite (rp_va2 _ _ _ _ H). pose proof (i_lt P V I D2 c Hc). rewrite decide_False, decide_True; [done| |lia].
           rewrite (rp_n2 _ _ _ _ H). cbn. lia.
        -- apply Vn; [by right|]. apply elem_of_app. right. by apply elem_of_list_singleton.
    + assert (Vn : forall row, row = A \/ row = B -> forall v, (v, f) ∈ virt P row <-> (v, f) ∈ row).
      { intros row Hrow v. assert (virt P row = row) as ->; [|done]. apply virt_none. intros u e M. destruct (P !! e) as [x|] eqn:Ex; [|done].
        destruct (i_pend P V I e x Ex) as (B1 & B2 & _). rewrite <- (rp_old1 _ _ _ _ H) in B1 by done.
        destruct Hrow as [->| ->]; [destruct (gd_act V' _ GA u e M) as [_ C]|destruct (gd_act V' _ GB u e M) as [_ C]]; by rewrite B1 in C. }
      split.
      * intros i k Hi Hk M. destruct (act_cases P V V' c [A; B] i I H Hi) as [(B1 & B2 & B3 & B4)|(j & row & -> & Ej & Ek)].
        -- exfalso. rewrite B4 in Hk. destruct (i_poly P V I i B1) as (_ & k' & Hk' & G). rewrite Hk in Hk'. injection Hk' as <-.
           destruct (gd_act V _ G _ _ M) as [_ E]. by rewrite f_no in E.
        -- rewrite Hk in Ek. injection Ek as <-. apply Hsub in Ej as [[-> ->]|[-> ->]]; [cbn; lia|]. exfalso.
           apply (Vn B) in M; [|by right]. rewrite elem_of_app, elem_of_list_singleton in M. destruct M as [M|[= E]].
           ++ apply (f_out b). apply elem_of_app. by right.
           ++ pose proof (gd_vs V' _ GB) as D. rewrite fmap_app in D. apply NoDup_app in D as (_ & D & _).
              destruct (start_in l2 N2) as [e He]. apply (D b); [apply elem_of_list_fmap; by exists (b, e)|].
              cbn. apply elem_of_list_singleton. done.
      * right. exists A. assert (E1 : [A; B] !! 0 = Some A) by done.
        split_and!.
        -- rewrite (rp_va2 _ _ _ _ H). pose proof (i_lt P V I D2 c Hc). rewrite decide_False, decide_True; [done| |lia].
           rewrite (rp_n2 _ _ _ _ H). cbn. lia.
        -- rewrite <- (rp_new _ _ _ _ H 0 A E1). f_equal. cbn. lia.
        -- apply Vn; [by left|]. apply elem_of_app. right. by apply elem_of_list_singleton.
Qed.
End cut.

(** A polygon with a pending edge, and no other one, is replaced by the polygon with the halves. *)
Lemma halve_inv P V V' y l l' :
  inv P V -> replaced y [l'] V V' -> va V D2 y = true -> vp V y = Some l -> virt P l = l' ->
  (vn V' D2 <= UINT_MAX)%N -> (forall i, va V' D1 i = va V D1 i) -> inv P V'.
Proof.
  intros I H Hy Hl Hv Hs H1.
  destruct (i_poly P V I y Hy) as (_ & k & Hk & G). rewrite Hl in Hk. injection Hk as <-. rewrite Hv in G.
  assert (Hsub : forall j row, [l'] !! j = Some row -> j = 0 /\ row = l').
  { intros [|j] row Ej; cbn in Ej; [by injection Ej as <-|done]. }
  eapply (replace_inv P V V' y l [l'] I H Hy Hl Hs).
  - intros j row [_ ->]%Hsub. eapply good_mono; [| | |exact G].
    + intros v. by rewrite (rp_va0 _ _ _ _ H).
    + intros v e _. by rewrite H1.
    + intros v e M. apply (rp_ve _ _ _ _ H). apply (i_lt P V I D1). by apply (gd_act V _ G v e M).
  - intros v g Ag. rewrite Hv. split; [intros M; by exists 0, l'|]. intros (j & row & [-> ->]%Hsub & M). done.
  - intros g i j row row' Ag [-> ->]%Hsub [-> ->]%Hsub. done.
  - intros g G1 G2. rewrite H1 in G1. by rewrite G1 in G2.
Qed.
