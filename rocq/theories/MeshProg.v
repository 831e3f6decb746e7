(** Reasoning about programs made of mesh calls: they are followed on the abstract mesh of MeshSpec.v. *)
From Verif Require Import Base BaseProof CsrModel CsrSpec CsrProof MeshModel MeshSpec MeshRep MeshHist
  MeshProof MeshProof2 MeshProof3 MeshProof4 MeshProof5 MeshProof6 MeshProof7 MeshProof8 MeshProof9 MeshProofA.
From Coq Require Import ZifyBool ZifyNat ZifyN.

(** ** Abstract meshes up to pointwise equality *)

Definition ceq (x y : acell) : Prop :=
  ac_geo x = ac_geo y /\ ac_mark x = ac_mark y /\ ac_act x = ac_act y /\ ac_orig x = ac_orig y /\
  ac_upd x = ac_upd y /\ (forall r, ac_rel x r = ac_rel y r) /\ ac_prop x = ac_prop y.

Lemma ceq_refl x : ceq x x.
Proof. done. Qed.
Lemma ceq_sym x y : ceq x y -> ceq y x.
Proof. intros (?&?&?&?&?&?&?). repeat split; try done. Qed.
Lemma ceq_trans x y z : ceq x y -> ceq y z -> ceq x z.
Proof. intros (?&?&?&?&?&E&?) (?&?&?&?&?&E'&?). repeat split; congruence. Qed.

Definition aeq (a b : amesh) : Prop :=
  am_dim a = am_dim b /\ (forall d, am_names a d = am_names b d) /\
  (forall d, Forall2 ceq (am_cells a d) (am_cells b d)).

Lemma Forall2_fmap_eq {A B} (R : A -> A -> Prop) (f : A -> B) l k :
  (forall x y, R x y -> f x = f y) -> Forall2 R l k -> f <$> l = f <$> k.
Proof. intros Hf. induction 1 as [|x y l k Hxy _ IH]; [done|]. cbn. by rewrite (Hf x y Hxy), IH. Qed.

Lemma aeq_refl a : aeq a a.
Proof. repeat split; try done. intros d. induction (am_cells a d); constructor; [apply ceq_refl|done]. Qed.

Lemma aeq_num a b d : aeq a b -> anum d a = anum d b.
Proof. intros (_ & _ & H). exact (Forall2_length _ _ _ (H d)). Qed.

Lemma represents_aeq m a b : represents m a -> aeq a b -> represents m b.
Proof.
  intros H (Hd & Hn & Hc).
  assert (E : forall d B (f : acell -> B), (forall x y, ceq x y -> f x = f y) ->
                f <$> am_cells a d = f <$> am_cells b d)
    by (intros d B f Hf; by apply (Forall2_fmap_eq ceq)).
  assert (Em : forall d, ac_mark <$> am_cells a d = ac_mark <$> am_cells b d) by (intros; apply E; intros ??(?&?&?&?&?&?&?); done).
  assert (Ea : forall d, ac_act <$> am_cells a d = ac_act <$> am_cells b d) by (intros; apply E; intros ??(?&?&?&?&?&?&?); done).
  assert (Eo : forall d, ac_orig <$> am_cells a d = ac_orig <$> am_cells b d) by (intros; apply E; intros ??(?&?&?&?&?&?&?); done).
  assert (Eu : forall d, ac_upd <$> am_cells a d = ac_upd <$> am_cells b d) by (intros; apply E; intros ??(?&?&?&?&?&?&?); done).
  assert (Ep : forall d, ac_prop <$> am_cells a d = ac_prop <$> am_cells b d) by (intros; apply E; intros ??(?&?&?&?&?&?&?); done).
  assert (Eg : forall d, ac_geo <$> am_cells a d = ac_geo <$> am_cells b d) by (intros; apply E; intros ??(?&?&?&?&?&?&?); done).
  assert (Er : forall r d, row_of r <$> am_cells a d = row_of r <$> am_cells b d)
    by (intros; apply E; intros ??(?&?&?&?&?&Hr&?); apply Hr).
  destruct H as [H1 H2 H3 H4 H5 H6]. split.
  - congruence.
  - intros d cs. subst cs. specialize (H2 d). cbn zeta in H2.
    rewrite <- Hn, <- (Forall2_length _ _ _ (Hc d)), <- Em, <- Ea, <- Eo, <- Eu, <- Ep. exact H2.
  - intros r. rewrite <- Er. apply H3.
  - by rewrite <- Eg.
  - by rewrite <- Eg.
  - intros d. rewrite <- Eg. apply H6.
Qed.

(** Both views: what the calls may rely on, and what the queries see. *)
Definition rr (m : mesh) (a : amesh) : Prop := reachable m /\ represents m a.

Lemma rr_aeq m a b : rr m a -> aeq a b -> rr m b.
Proof. intros [H1 H2] He. split; [done|]. by eapply represents_aeq. Qed.

Lemma rr_of m : reachable m -> exists a, rr m a.
Proof. intros H. destruct (reachable_rep m H) as [a Ha]. by exists a. Qed.

Lemma pre_allowed m a o : represents m a -> pre a o -> allowed m o.
Proof.
  intros H Hp. destruct o; cbn in *; try done.
  - rewrite (rep_num m a d H). destruct Hp as [->|[Hle Hb]]; [by left|right]. split; [done|].
    intros i Hi. rewrite Forall_forall in Hb.
    destruct (lookup_lt_is_Some_2 (am_cells a d) i Hi) as [x Hx].
    destruct (Hb x ltac:(by eapply elem_of_list_lookup_2)) as [Hr Hps]. split.
    + intros r. destruct (decide (src r = d)) as [E|E]; [left|by right].
      rewrite (g_count m a H). unfold look. rewrite E, Hx. unfold row_of. by rewrite Hr.
    + intros p. destruct (decide (p < length (am_names a d))) as [Hpl|Hpl].
      * left. rewrite (g_propsize m a H), Hx, decide_True by done. unfold prop_of.
        destruct (ac_prop x !! p) as [l|] eqn:Hl; [|done]. cbn.
        rewrite Forall_forall in Hps. by rewrite (Hps l ltac:(by eapply elem_of_list_lookup_2)).
      * right. rewrite (names_len m a H). lia.
  - destruct Hp as (x & Hx & Hk). exists (N.of_nat (length (ac_rel x r))). split; [|lia].
    rewrite (g_count m a H). unfold look. by rewrite Hx.
  - intros n Hn. rewrite (g_propsize m a H) in Hn. destruct (am_cells a d !! i) as [y|] eqn:Hx; [|done].
    case_decide as Hd; [|done]. injection Hn as <-. unfold prop_of.
    pose proof (prop_row_len m a d i y H Hx) as Hlen.
    destruct (lookup_lt_is_Some_2 (ac_prop y) p ltac:(lia)) as [l Hl]. rewrite Hl. cbn.
    specialize (Hp y l eq_refl Hl). lia.
Qed.

(** A call that succeeds on the abstract mesh. *)
Lemma rr_step m a o a' : rr m a -> pre a o -> astep a o = Some a' -> exists m', step m o = Ok m' /\ rr m' a'.
Proof.
  intros [Hm H] Hp Ho. pose proof (step_sim m a o H Hp) as Hs. rewrite Ho in Hs.
  destruct (step m o) as [m'| | | |] eqn:E; try done. exists m'. split; [done|]. split; [|done].
  eapply reach_step; [exact Hm| |exact E]. by eapply pre_allowed.
Qed.

Lemma rr_step_abort m a o : rr m a -> pre a o -> astep a o = None -> step m o = Abort.
Proof.
  intros [Hm H] Hp Ho. pose proof (step_sim m a o H Hp) as Hs. rewrite Ho in Hs. by destruct (step m o).
Qed.

(** ** Programs *)

Definition does (P : mesh -> outcome mesh) (a b : amesh) : Prop :=
  forall m, rr m a -> exists m', P m = Ok m' /\ rr m' b.

Lemma does_step a o b : pre a o -> astep a o = Some b -> does (fun m => step m o) a b.
Proof. intros Hp Ho m H. by apply (rr_step m a o b). Qed.

Lemma does_aeq P a b b' : does P a b -> aeq b b' -> does P a b'.
Proof. intros H He m Hm. destruct (H m Hm) as (m' & E & H'). exists m'. split; [done|]. by eapply rr_aeq. Qed.

Lemma does_ret a : does (fun m => Ok m) a a.
Proof. intros m H. by exists m. Qed.

Lemma does_bind P Q a b c : does P a b -> does Q b c -> does (fun m => m' ← P m; Q m') a c.
Proof.
  intros H1 H2 m Hm. destruct (H1 m Hm) as (m1 & E1 & Hm1). destruct (H2 m1 Hm1) as (m2 & E2 & Hm2).
  exists m2. split; [|done]. rewrite E1. exact E2.
Qed.

Lemma does_ext P Q a b : (forall m, rr m a -> P m = Q m) -> does Q a b -> does P a b.
Proof. intros E H m Hm. rewrite (E m Hm). by apply H. Qed.

(** Loops: [g k] is the abstract mesh before the [k]-th pass. *)
Lemma does_loop {A} (f : mesh -> A -> outcome mesh) (l : list A) (g : nat -> amesh) :
  (forall k x, l !! k = Some x -> does (fun m => f m x) (g k) (g (S k))) ->
  does (ofold f l) (g 0) (g (length l)).
Proof.
  revert g. induction l as [|x l IH]; intros g H m Hm; [by exists m|].
  cbn [ofold length]. destruct (H 0 x eq_refl m Hm) as (m1 & E1 & Hm1). rewrite E1. cbn [mbind outcome_bind].
  apply (IH (fun k => g (S k))); [|done]. intros k y Hy. apply (H (S k) y Hy).
Qed.

Lemma does_seq (f : mesh -> nat -> outcome mesh) n (g : nat -> amesh) :
  (forall k, k < n -> does (fun m => f m k) (g k) (g (S k))) -> does (ofold f (seq 0 n)) (g 0) (g n).
Proof.
  intros H. rewrite <- (seq_length n 0) at 2. apply does_loop.
  intros k x [-> Hk]%lookup_seq. by apply H.
Qed.

(** ** Changing cells one at a time *)

Definition amap (F : dim -> nat -> acell -> acell) (a : amesh) : amesh :=
  AMesh (am_dim a) (fun d => imap (F d) (am_cells a d)) (am_names a).

Definition keep : dim -> nat -> acell -> acell := fun _ _ x => x.

(** [F], and then [f] on cell [i] of dimension [d]. *)
Definition also (F : dim -> nat -> acell -> acell) (d : dim) (i : nat) (f : acell -> acell) :
  dim -> nat -> acell -> acell :=
  fun d' j x => if decide (d' = d /\ j = i) then f (F d' j x) else F d' j x.

Lemma amap_lookup F a d i : am_cells (amap F a) d !! i = F d i <$> am_cells a d !! i.
Proof. cbn. by rewrite list_lookup_imap. Qed.
Lemma amap_num F a d : anum d (amap F a) = anum d a.
Proof. unfold anum. cbn. by rewrite imap_length. Qed.
Lemma amap_names F a : am_names (amap F a) = am_names a.
Proof. done. Qed.

Lemma aeq_intro a b :
  am_dim a = am_dim b -> (forall d, am_names a d = am_names b d) -> (forall d, anum d a = anum d b) ->
  (forall d i x y, am_cells a d !! i = Some x -> am_cells b d !! i = Some y -> ceq x y) -> aeq a b.
Proof.
  intros H1 H2 H3 H4. split_and!; [done..|]. intros d. apply Forall2_same_length_lookup.
  split; [apply (H3 d)|]. intros i x y. apply H4.
Qed.

Lemma amap_ext F G a :
  (forall d i x, am_cells a d !! i = Some x -> ceq (F d i x) (G d i x)) -> aeq (amap F a) (amap G a).
Proof.
  intros H. apply aeq_intro; [done..| |].
  - intros d. by rewrite !amap_num.
  - intros d i x y. rewrite !amap_lookup. destruct (am_cells a d !! i) as [z|] eqn:E; cbn; [|done].
    intros [= <-] [= <-]. by apply H.
Qed.

Lemma amap_keep a : aeq a (amap keep a).
Proof.
  apply aeq_intro; [done..| |].
  - intros d. by rewrite amap_num.
  - intros d i x y Hx. rewrite amap_lookup, Hx. intros [= <-]. apply ceq_refl.
Qed.

Lemma on_cell_amap d i f F a :
  i < anum d a -> exists b, on_cell d i f (amap F a) = Some b /\ aeq b (amap (also F d i f) a).
Proof.
  intros Hi. unfold on_cell. rewrite amap_lookup.
  destruct (lookup_lt_is_Some_2 (am_cells a d) i Hi) as [x Hx]. rewrite Hx. cbn [fmap option_fmap option_map mbind option_bind].
  eexists. split; [done|].
  assert (Ho : on_cell d i f (amap F a) =
               Some (with_cells d (<[i := f (F d i x)]> (am_cells (amap F a) d)) (amap F a))).
  { unfold on_cell. by rewrite amap_lookup, Hx. }
  apply aeq_intro; [done..| |].
  - intros d'. rewrite (on_cell_num _ _ _ _ _ d' Ho), !amap_num. done.
  - intros d' j y z. rewrite (on_cell_lookup _ _ _ _ _ d' j Ho), !amap_lookup.
    destruct (am_cells a d' !! j) as [w|] eqn:Hw; [|by case_decide]. unfold also.
    case_decide as E; case_decide as E2; cbn; intros [= <-] [= <-]; try apply ceq_refl.
    + destruct E as [-> ->]. tauto.
    + destruct E2 as [-> ->]. tauto.
Qed.

Lemma does_cell F a o d i f :
  i < anum d a -> pre (amap F a) o -> astep (amap F a) o = on_cell d i f (amap F a) ->
  does (fun m => step m o) (amap F a) (amap (also F d i f) a).
Proof.
  intros Hi Hp Ho. destruct (on_cell_amap d i f F a Hi) as (b & Hb & He).
  eapply does_aeq; [|exact He]. apply does_step; [done|]. by rewrite Ho.
Qed.

(** The calls that change one cell. *)
Lemma does_Marker F a d i v :
  i < anum d a -> does (SetMarker d i v) (amap F a) (amap (also F d i (with_mark v)) a).
Proof. intros Hi. by apply (does_cell F a (OMarker d i v)). Qed.
Lemma does_State F a d i b :
  i < anum d a -> does (SetState d i b) (amap F a) (amap (also F d i (with_act b)) a).
Proof. intros Hi. by apply (does_cell F a (OState d i b)). Qed.
Lemma does_Coordinates F a i x y z :
  i < anum D0 a -> does (Cell0DInsertCoordinates i x y z) (amap F a) (amap (also F D0 i (with_geo [x; y; z])) a).
Proof. intros Hi. by apply (does_cell F a (OCoordinates i x y z)). Qed.
Lemma does_Extremes F a e o t :
  e < anum D1 a -> does (Cell1DInsertExtremes e o t) (amap F a) (amap (also F D1 e (with_geo [o; t])) a).
Proof. intros Hi. by apply (does_cell F a (OExtremes e o t)). Qed.

Lemma does_Insert F a r i k v x :
  am_cells a (src r) !! i = Some x -> k < length (ac_rel (F (src r) i x) r) ->
  (v < N.of_nat (anum (tgt r) a))%N ->
  does (RelInsert r i k v) (amap F a)
       (amap (also F (src r) i (fun y => with_row r (<[k := v]> (ac_rel y r)) y)) a).
Proof.
  intros Hx Hk Hv. apply (does_cell F a (OInsert r i k v)); [by eapply lookup_lt_Some|done|].
  cbn [astep]. rewrite amap_lookup, Hx. cbn [fmap option_fmap option_map mbind option_bind].
  rewrite amap_num. by rewrite decide_True.
Qed.

Lemma does_InitOne F a r i n :
  i < anum (src r) a -> (r = S2 -> n mod 3 = 0) ->
  does (RelInitOne r i n) (amap F a)
       (amap (also F (src r) i (fun y => with_row r (resize n (default_single r) (ac_rel y r)) y)) a).
Proof.
  intros Hi Hn. apply (does_cell F a (OInitOne r i n)); [done..|].
  cbn [astep]. by rewrite decide_True.
Qed.

Lemma does_Add F a r i vs :
  i < anum (src r) a -> (r = S2 -> length vs mod 3 = 0) -> all_below (anum (tgt r) a) vs ->
  does (RelAdd r i vs) (amap F a) (amap (also F (src r) i (with_row r vs)) a).
Proof.
  intros Hi Hn Hb. apply (does_cell F a (OAdd r i vs)); [done..|].
  cbn [astep]. rewrite amap_num. by rewrite decide_True.
Qed.

Lemma does_AddVE F a i cols :
  i < anum D2 a -> all_below (anum D0 a) (cols.*1) -> all_below (anum D1 a) (cols.*2) ->
  does (Cell2DAddVerticesAndEdges i cols) (amap F a)
       (amap (also F D2 i (fun x => with_row E2 (cols.*2) (with_row V2 (cols.*1) x))) a).
Proof.
  intros Hi H1 H2. apply (does_cell F a (OAddVE i cols)); [done..|].
  cbn [astep]. rewrite !amap_num. by rewrite decide_True.
Qed.

Lemma does_InsertList F a r i vs x :
  am_cells a (src r) !! i = Some x -> length vs <= length (ac_rel (F (src r) i x) r) ->
  all_below (anum (tgt r) a) vs ->
  does (RelInsertList r i vs) (amap F a)
       (amap (also F (src r) i (fun y => with_row r (vs ++ drop (length vs) (ac_rel y r)) y)) a).
Proof.
  intros Hx Hk Hv. destruct (decide (vs = [])) as [->|Hne].
  - cbn [RelInsertList imap ofold]. eapply does_aeq; [apply does_ret|]. apply amap_ext.
    intros d j y Hy. unfold also. case_decide; [|apply ceq_refl]. repeat split. intros r'. cbn. unfold upd_fun.
    rewrite drop_0. by case_decide; subst.
  - apply (does_cell F a (OInsertList r i vs)); [by eapply lookup_lt_Some|done|].
    cbn [astep]. rewrite decide_False by done. rewrite amap_lookup, Hx.
    cbn [fmap option_fmap option_map mbind option_bind]. rewrite amap_num. by rewrite decide_True.
Qed.

(** Replacing cell [i] by cell [j] changes two cells. *)
Definition upd_with (j : nat) (x : acell) : acell := with_upd (Some ({[N.of_nat j]} ∪ default ∅ (ac_upd x))) x.
Definition orig_with (d : dim) (i : nat) (x : acell) : acell :=
  if decide (d = D0) then x else with_orig (N.of_nat i) x.

Lemma does_Updated F a d i j :
  i < anum d a -> j < anum d a ->
  does (InsertUpdated d i j) (amap F a) (amap (also (also F d i (upd_with j)) d j (orig_with d i)) a).
Proof.
  intros Hi Hj m Hm. destruct (on_cell_amap d i (upd_with j) F a Hi) as (b & Hb & He).
  assert (Hj' : j < anum d b) by (by rewrite (aeq_num _ _ _ He), amap_num).
  destruct (lookup_lt_is_Some_2 (am_cells b d) j Hj') as [y Hy].
  assert (Hc : exists c, on_cell d j (orig_with d i) b = Some c) by (unfold on_cell; rewrite Hy; eauto).
  destruct Hc as [c Hc].
  assert (Ho : astep (amap F a) (OUpdated d i j) = Some c).
  { cbn [astep]. rewrite !amap_num, decide_True by done.
    change (on_cell d i (upd_with j) (amap F a) ≫= on_cell d j (orig_with d i) = Some c).
    rewrite Hb. exact Hc. }
  destruct (does_step (amap F a) (OUpdated d i j) c I Ho m Hm) as (m' & E & Hm'). exists m'. split; [exact E|].
  eapply rr_aeq; [exact Hm'|]. apply aeq_intro.
  - unfold on_cell in Hc. rewrite Hy in Hc. injection Hc as <-. cbn. apply He.
  - intros d'. rewrite (on_cell_names _ _ _ _ _ Hc). apply He.
  - intros d'. rewrite (on_cell_num _ _ _ _ _ d' Hc), amap_num, (aeq_num _ _ _ He), amap_num. done.
  - intros d' k u v Hu Hv. rewrite (on_cell_lookup _ _ _ _ _ d' k Hc) in Hu.
    rewrite amap_lookup in Hv. destruct (am_cells a d' !! k) as [w|] eqn:Hw; [|done]. injection Hv as <-.
    assert (Hbk : exists z, am_cells b d' !! k = Some z /\ ceq z (also F d i (upd_with j) d' k w)).
    { destruct He as (_ & _ & He). specialize (He d').
      destruct (Forall2_lookup_r _ _ _ k (also F d i (upd_with j) d' k w) He) as (z & Hz & Hzz); [|eauto].
      by rewrite amap_lookup, Hw. }
    destruct Hbk as (z & Hz & Hzz). rewrite Hz in Hu. unfold also at 1.
    destruct (decide (d = d' /\ j = k)) as [[-> ->]|E1].
    + rewrite (decide_True (P := d' = d' /\ k = k)) by done. cbn in Hu. injection Hu as <-. unfold orig_with. case_decide; [done|].
      destruct Hzz as (?&?&?&?&?&?&?). repeat split; done.
    + rewrite decide_False by naive_solver. by injection Hu as <-.
Qed.

(** ** Appending *)

Definition aappend (d : dim) (n : nat) (a : amesh) : amesh :=
  with_cells d (am_cells a d ++ replicate n (new_cell d (length (am_names a d)))) a.

Lemma aappend_num d n a d' : anum d' (aappend d n a) = anum d' a + (if decide (d' = d) then n else 0).
Proof.
  unfold anum, aappend. cbn [with_cells am_cells]. unfold upd_fun.
  repeat case_decide; subst; rewrite ?app_length, ?replicate_length; try done; lia.
Qed.

Lemma aappend_old d n a d' i : i < anum d' a -> am_cells (aappend d n a) d' !! i = am_cells a d' !! i.
Proof.
  intros Hi. unfold aappend. cbn [with_cells am_cells]. unfold upd_fun. case_decide as E; [subst|done].
  by rewrite lookup_app_l.
Qed.

Lemma aappend_new d n a i :
  anum d a <= i < anum d a + n -> am_cells (aappend d n a) d !! i = Some (new_cell d (length (am_names a d))).
Proof.
  intros Hi. unfold aappend. cbn [with_cells am_cells]. rewrite upd_fun_eq.
  rewrite lookup_app_r by (unfold anum in *; lia). apply lookup_replicate_2. unfold anum in *. lia.
Qed.

Lemma does_Append d n a m :
  rr m a -> exists m', CellAppend d n m = Ok (m', anum d a) /\ rr m' (aappend d n a).
Proof.
  intros Hm. destruct (rr_step m a (OAppend d n) (aappend d n a) Hm I eq_refl) as (m' & E & Hm').
  cbn [step] in E. apply bind_ok in E as ([m1 k] & E & [= <-]). exists m1. split; [|done].
  destruct (append_ok m d n m1 k (proj1 Hm) E) as [-> _]. by rewrite E, (g_num m a (proj2 Hm)).
Qed.
