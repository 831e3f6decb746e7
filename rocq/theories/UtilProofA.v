(** Renumbering of an abstract mesh by any sequence of removals. *)
From Verif Require Import Base BaseProof CsrModel CsrSpec CsrProof MeshModel MeshSpec MeshRep MeshHist
  MeshProof MeshProof2 MeshProof3 MeshProof4 MeshProof5 MeshProof6 MeshProof7 MeshProof8 MeshProof9 MeshProofA MeshProofB
  MeshProg.
From Coq Require Import ZifyBool ZifyNat ZifyN.

Definition ren := dim -> nat -> option nat.

Definition ref_ren (f : nat -> option nat) (n n' : nat) (v w : N) : Prop :=
  match (if decide (v < N.of_nat n)%N then f (N.to_nat v) else None) with
  | Some k => w = N.of_nat k
  | None => (N.of_nat n' <= w)%N
  end.

Definition upds (x : acell) : gset N := default ∅ (ac_upd x).

Record cell_ren (f : ren) (n n' : dim -> nat) (d : dim) (x y : acell) : Prop := {
  cr_mark : ac_mark y = ac_mark x;
  cr_act : ac_act y = ac_act x;
  cr_prop : ac_prop y = ac_prop x;
  cr_geo : d <> D1 -> ac_geo y = ac_geo x;
  cr_ext : d = D1 -> Forall2 (ref_ren (f D0) (n D0) (n' D0)) (ac_geo x) (ac_geo y);
  cr_orig : d <> D0 -> ref_ren (f d) (n d) (n' d) (ac_orig x) (ac_orig y);
  cr_upd : forall w, w ∈ upds y <-> exists v k, N.of_nat v ∈ upds x /\ f d v = Some k /\ w = N.of_nat k;
  cr_sub : ac_rel y S2 = ac_rel x S2;
  cr_rel : forall r, r <> S2 -> Forall2 (ref_ren (f (tgt r)) (n (tgt r)) (n' (tgt r))) (ac_rel x r) (ac_rel y r)
}.

Record renamed (f : ren) (a b : amesh) : Prop := {
  rn_dim : am_dim b = am_dim a;
  rn_names : am_names b = am_names a;
  rn_range : forall d i j, f d i = Some j -> i < anum d a /\ j < anum d b;
  rn_onto : forall d j, j < anum d b -> exists i, f d i = Some j;
  rn_mono : forall d i j i' j', f d i = Some j -> f d i' = Some j' -> i < i' -> j < j';
  rn_cell : forall d i j x, f d i = Some j -> am_cells a d !! i = Some x ->
    exists y, am_cells b d !! j = Some y /\
      cell_ren f (fun d => anum d a) (fun d => anum d b) d x y
}.

Definition good_upd (a : amesh) : Prop :=
  forall d i x v, am_cells a d !! i = Some x -> v ∈ upds x -> (v < N.of_nat (anum d a))%N.

Lemma rep_good_upd m a : represents m a -> good_upd a.
Proof.
  intros H d i x v Hx Hv. pose proof (r_cells m a H d) as Hr. cbn zeta in Hr.
  unfold upds in Hv. destruct (ac_upd x) as [s|] eqn:E; [|set_solver].
  destruct (rc_upd_ok _ _ _ _ _ _ _ _ _ Hr i s) as [_ Hs]; [|by apply Hs].
  by rewrite list_lookup_fmap, Hx, <- E.
Qed.

Definition ren_id (n : dim -> nat) : ren := fun d i => if decide (i < n d) then Some i else None.
Definition ren_comp (f g : ren) : ren := fun d i => f d i ≫= g d.

Lemma ref_ren_id f n v : (forall i, i < n -> f i = Some i) -> ref_ren f n n v v.
Proof.
  intros H. unfold ref_ren. destruct (decide (v < N.of_nat n)%N) as [E|E]; [|lia].
  rewrite H by lia. lia.
Qed.

Lemma ref_ren_comp f g n n' n'' v w u :
  (forall i j, f i = Some j -> j < n') ->
  ref_ren f n n' v w -> ref_ren g n' n'' w u -> ref_ren (fun i => f i ≫= g) n n'' v u.
Proof.
  intros Hr. unfold ref_ren. destruct (decide (v < N.of_nat n)%N) as [E|E].
  - destruct (f (N.to_nat v)) as [k|] eqn:Ef; cbn.
    + intros ->. pose proof (Hr _ _ Ef). rewrite decide_True by lia. by rewrite Nat2N.id.
    + intros Hw. by rewrite decide_False by lia.
  - intros Hw. by rewrite decide_False by lia.
Qed.

Lemma ref_ren_comp_list f g n n' n'' l k h :
  (forall i j, f i = Some j -> j < n') ->
  Forall2 (ref_ren f n n') l k -> Forall2 (ref_ren g n' n'') k h -> Forall2 (ref_ren (fun i => f i ≫= g) n n'') l h.
Proof.
  intros Hr H. revert h. induction H as [|v w l k Hvw _ IH]; intros h H2; inversion H2; subst; constructor; [|by apply IH].
  by eapply ref_ren_comp.
Qed.

Lemma renamed_id a : good_upd a -> renamed (ren_id (fun d => anum d a)) a a.
Proof.
  intros Hg. unfold ren_id. split; try done.
  - intros d i j. case_decide; [|done]. by intros [= <-].
  - intros d j Hj. exists j. by rewrite decide_True.
  - intros d i j i' j'. repeat case_decide; try done. by intros [= <-] [= <-].
  - intros d i j x. case_decide; [|done]. intros [= <-] Hx. exists x. split; [done|].
    assert (HF : forall e l, Forall2 (ref_ren (fun i => if decide (i < anum e a) then Some i else None) (anum e a) (anum e a)) l l).
    { intros e l. induction l; constructor; [|done]. apply ref_ren_id. intros k Hk. by rewrite decide_True. }
    split; try done.
    + intros _. apply ref_ren_id. intros k Hk. by rewrite decide_True.
    + intros w. split.
      * intros Hw. pose proof (Hg d i x w Hx Hw). exists (N.to_nat w), (N.to_nat w).
        rewrite N2Nat.id. rewrite decide_True by lia. done.
      * intros (v & k & Hv & Hk & ->). by destruct (decide (v < anum d a)); [injection Hk as <-|].

Qed.

Lemma renamed_comp f g a b c : renamed f a b -> renamed g b c -> renamed (ren_comp f g) a c.
Proof.
  intros H1 H2. unfold ren_comp. split.
  - by rewrite (rn_dim _ _ _ H2), (rn_dim _ _ _ H1).
  - by rewrite (rn_names _ _ _ H2), (rn_names _ _ _ H1).
  - intros d i j (k & Hk & Hj)%bind_Some. apply (rn_range _ _ _ H1) in Hk as [??].
    apply (rn_range _ _ _ H2) in Hj as [??]. done.
  - intros d j Hj. destruct (rn_onto _ _ _ H2 d j Hj) as [k Hk].
    destruct (rn_range _ _ _ H2 _ _ _ Hk) as [Hlt _]. destruct (rn_onto _ _ _ H1 d k Hlt) as [i Hi].
    exists i. by rewrite Hi.
  - intros d i j i' j' (k & Hk & Hj)%bind_Some (k' & Hk' & Hj')%bind_Some Hlt.
    eapply (rn_mono _ _ _ H2); [done..|]. by eapply (rn_mono _ _ _ H1).
  - intros d i j x (k & Hk & Hj)%bind_Some Hx.
    destruct (rn_cell _ _ _ H1 _ _ _ _ Hk Hx) as (y & Hy & C1).
    destruct (rn_cell _ _ _ H2 _ _ _ _ Hj Hy) as (z & Hz & C2). exists z. split; [done|].
    assert (Hr : forall e i j, f e i = Some j -> j < anum e b) by (intros e ?? E; apply (rn_range _ _ _ H1) in E as [_ E]; done).
    destruct C1, C2. split.
    + congruence.
    + congruence.
    + congruence.
    + intros E. rewrite cr_geo1, cr_geo0 by done. done.
    + intros E. eapply ref_ren_comp_list; [apply Hr|by apply cr_ext0|by apply cr_ext1].
    + intros E. eapply ref_ren_comp; [apply Hr|by apply cr_orig0|by apply cr_orig1].
    + intros w. rewrite cr_upd1. split.
      * intros (v & k' & Hv & Hk' & ->). apply cr_upd0 in Hv as (v0 & k0 & Hv0 & Hk0 & E).
        assert (v = k0) as -> by lia. exists v0, k'. rewrite Hk0. done.
      * intros (v & k' & Hv & (k0 & Hk0 & Hk1)%bind_Some & ->). exists k0, k'. split_and!; [|done..].
        apply cr_upd0. by exists v, k0.
    + congruence.
    + intros r Hr2. eapply ref_ren_comp_list; [apply Hr|by apply cr_rel0|by apply cr_rel1].
Qed.

Lemma renamed_ext f g a b : (forall d i, i < anum d a -> f d i = g d i) -> (forall d i j, g d i = Some j -> i < anum d a) ->
  renamed f a b -> renamed g a b.
Proof.
  intros E Hg H.
  assert (Ei : forall d i, f d i = g d i).
  { intros d i. destruct (decide (i < anum d a)); [by apply E|].
    destruct (f d i) eqn:E1; [apply (rn_range _ _ _ H) in E1; lia|].
    destruct (g d i) eqn:E2; [apply Hg in E2; lia|done]. }
  assert (Er : forall d n n' v w, ref_ren (f d) n n' v w -> ref_ren (g d) n n' v w).
  { intros d n n' v w. unfold ref_ren. case_decide; [|done]. by rewrite Ei. }
  split; [apply H|apply H|..].
  - intros d i j. rewrite <- Ei. apply (rn_range _ _ _ H).
  - intros d j Hj. destruct (rn_onto _ _ _ H d j Hj) as [i Hi]. exists i. by rewrite <- Ei.
  - intros d i j i' j'. rewrite <- !Ei. apply (rn_mono _ _ _ H).
  - intros d i j x. rewrite <- Ei. intros Hi Hx. destruct (rn_cell _ _ _ H _ _ _ _ Hi Hx) as (y & Hy & C).
    exists y. split; [done|]. destruct C. split; try done.
    + intros Hd. eapply Forall2_impl; [by apply cr_ext0|]. apply Er.
    + intros Hd. by apply Er, cr_orig0.
    + intros w. rewrite cr_upd0. by setoid_rewrite Ei.
    + intros r Hr. eapply Forall2_impl; [by apply cr_rel0|]. apply Er.
Qed.

(** One removal. *)
Definition ren_remove (n : dim -> nat) (d : dim) (i : nat) : ren := fun d' j =>
  if decide (j < n d') then
    if decide (d' = d /\ j = i) then None else Some (moved d i d' j)
  else None.

Lemma ren_remove_Some n d i d' k j :
  ren_remove n d i d' k = Some j -> k < n d' /\ (d' <> d \/ k <> i) /\ j = moved d i d' k.
Proof.
  unfold ren_remove. destruct (decide (k < n d')); [|done]. destruct (decide (d' = d /\ k = i)) as [E|E]; [done|].
  intros [= <-]. split_and!; [done| |done]. destruct (decide (d' = d)); [right|by left]. naive_solver.
Qed.

Lemma renumber_ref n i gone v :
  i < n -> (N.of_nat (n - 1) <= gone)%N ->
  ref_ren (fun j => if decide (j < n) then if decide (j = i) then None else Some (new_number i j) else None)
          n (n - 1) v (renumber (N.of_nat i) gone v).
Proof.
  intros Hi Hg. unfold ref_ren, renumber, new_number.
  destruct (decide (v < N.of_nat n)%N) as [E|E].
  - rewrite (decide_True (P := N.to_nat v < n)) by lia.
    destruct (decide (N.to_nat v = i)) as [E1|E1].
    + rewrite decide_False by lia. rewrite decide_True by lia. done.
    + destruct (Nat.ltb_spec (N.to_nat v) i).
      * rewrite decide_True by lia. lia.
      * rewrite decide_False by lia. rewrite decide_False by lia. lia.
  - rewrite decide_False by lia. rewrite decide_False by lia. lia.
Qed.

Lemma renamed_remove a d i :
  good_upd a -> i < anum d a -> (N.of_nat (anum d a) <= UINT_MAX)%N ->
  renamed (ren_remove (fun d => anum d a) d i) a (aremove d i a).
Proof.
  intros Hg Hi Hmax.
  assert (Hn : forall d', anum d' (aremove d i a) = if decide (d' = d) then anum d a - 1 else anum d' a).
  { intros d'. rewrite aremove_num by done. repeat case_decide; subst; done. }
  assert (HrefL : forall gone v, (N.of_nat (anum d a - 1) <= gone)%N ->
            ref_ren (ren_remove (fun d => anum d a) d i d) (anum d a) (anum d (aremove d i a)) v (renumber (N.of_nat i) gone v)).
  { intros gone v Hgone. rewrite Hn, decide_True by done.
    pose proof (renumber_ref (anum d a) i gone v Hi Hgone) as HH. unfold ref_ren, ren_remove, moved in *.
    destruct (decide (v < N.of_nat (anum d a))%N); [|done].
    destruct (decide (N.to_nat v < anum d a)); [|done]. rewrite (decide_True (P := d = d)) by done.
    destruct (decide (N.to_nat v = i)); [rewrite decide_True by done|rewrite decide_False by tauto]; done. }
  assert (HrefO : forall d' v, d' <> d ->
            ref_ren (ren_remove (fun d => anum d a) d i d') (anum d' a) (anum d' (aremove d i a)) v v).
  { intros d' v Hd. rewrite Hn, decide_False by done. apply ref_ren_id. intros k Hk.
    unfold ren_remove, moved. rewrite decide_True by done. by rewrite !decide_False by tauto. }
  split; [done|done|..].
  - intros d' k j. unfold ren_remove, moved. rewrite Hn. case_decide; [|done].
    case_decide as E1; [done|]. unfold new_number. destruct (decide (d' = d)) as [->|E2]; intros [= <-]; [|done].
    assert (k <> i) by naive_solver. split; [done|]. destruct (Nat.ltb_spec k i); lia.
  - intros d' j. rewrite Hn. unfold ren_remove, moved, new_number. destruct (decide (d' = d)) as [->|E2]; intros Hj.
    + exists (if j <? i then j else S j). destruct (Nat.ltb_spec j i).
      * rewrite decide_True by lia. rewrite decide_False by (intros [_ ?]; lia). f_equal. destruct (Nat.ltb_spec j i); lia.
      * rewrite decide_True by lia. rewrite decide_False by (intros [_ ?]; lia). f_equal. destruct (Nat.ltb_spec (S j) i); lia.
    + exists j. rewrite decide_True by done. by rewrite decide_False by tauto.
  - intros d' k j k' j' (_ & H1 & ->)%ren_remove_Some (_ & H2 & ->)%ren_remove_Some Hlt. unfold moved, new_number.
    destruct (decide (d' = d)); [|done]. destruct (Nat.ltb_spec k i), (Nat.ltb_spec k' i); naive_solver lia.
  - intros d' k j x Hk Hx.
    apply ren_remove_Some in Hk as (_ & Hne & ->).
    rewrite aremove_lookup by done. rewrite Hx. eexists. split; [done|].
    cbn [fmap option_fmap option_map].
    split; cbn [renumber_cell ac_mark ac_act ac_prop ac_geo ac_orig ac_upd ac_rel]; try done.
    + intros Hd. by rewrite decide_False by tauto.
    + intros ->. destruct (decide (d = D0)) as [->|E].
      * rewrite decide_True by done. apply Forall2_fmap_r. apply Forall2_same_length_lookup. split; [done|].
        intros p u v Hu Hv. rewrite Hu in Hv. injection Hv as ->. apply HrefL. lia.
      * rewrite decide_False by tauto. apply Forall2_same_length_lookup. split; [done|].
        intros p u v Hu Hv. rewrite Hu in Hv. injection Hv as ->. by apply HrefO.
    + intros Hd. destruct (decide (d' = d)) as [->|E].
      * rewrite decide_True by done. apply HrefL. lia.
      * rewrite decide_False by (intros [? ?]; done). by apply HrefO.
    + intros w. unfold upds. cbn [renumber_cell ac_upd]. destruct (decide (d' = d)) as [->|E].
      * rewrite decide_True by done.
        assert (Hs : default ∅ (renumber_upd (N.of_nat i) (ac_upd x)) =
                     set_map (fun v => if decide (v < N.of_nat i)%N then v else (v - 1)%N) (upds x ∖ {[N.of_nat i]}) :> gset N).
        { unfold upds, renumber_upd. destruct (ac_upd x) as [s|]; cbn [mbind option_bind default].
          - case_decide as Es; [|done]. cbn. assert (s ∖ {[N.of_nat i]} = ∅) as -> by set_solver. set_solver.
          - cbn. assert (∅ ∖ {[N.of_nat i]} = (∅ : gset N)) as -> by set_solver. set_solver. }
        rewrite Hs, elem_of_map. unfold ren_remove, moved, new_number. split.
        -- intros (v & -> & [Hv Hvi]%elem_of_difference). rewrite elem_of_singleton in Hvi.
           pose proof (Hg d k x v Hx Hv). exists (N.to_nat v), (if N.to_nat v <? i then N.to_nat v else N.to_nat v - 1).
           rewrite N2Nat.id. split; [done|]. rewrite decide_True by lia. rewrite decide_False by (intros [_ ?]; lia).
           rewrite decide_True by done. split; [done|].
           destruct (Nat.ltb_spec (N.to_nat v) i); [rewrite decide_True by lia|rewrite decide_False by lia]; lia.
        -- intros (v & k' & Hv & Hk' & ->). apply (ren_remove_Some (fun d => anum d a)) in Hk' as (_ & [?|Hvi] & ->); [done|].
           exists (N.of_nat v). split.
           ++ unfold moved, new_number. rewrite decide_True by done.
              destruct (Nat.ltb_spec v i); [rewrite decide_True by lia|rewrite decide_False by lia]; lia.
           ++ apply elem_of_difference. split; [done|]. rewrite elem_of_singleton. lia.
      * rewrite decide_False by (intros ?; by subst). unfold ren_remove, moved. split.
        -- intros Hw. pose proof (Hg d' k x w Hx Hw). exists (N.to_nat w), (N.to_nat w).
           rewrite N2Nat.id. rewrite decide_True by lia. by rewrite !decide_False by tauto.
        -- intros (v & k' & Hv & Hk' & ->). repeat case_decide; try done. by injection Hk' as <-.
    + unfold renumber_row. rewrite decide_False by tauto. done.
    + intros r Hr. unfold renumber_row. destruct (decide (tgt r = d)) as [E|E].
      * rewrite decide_True by done. apply Forall2_fmap_r. apply Forall2_same_length_lookup. split; [done|].
        intros p u v Hu Hv. rewrite Hu in Hv. injection Hv as ->. rewrite E. apply HrefL. destruct (is_neighbour r); lia.
      * rewrite decide_False by tauto. apply Forall2_same_length_lookup. split; [done|].
        intros p u v Hu Hv. rewrite Hu in Hv. injection Hv as ->. by apply HrefO.
Qed.
