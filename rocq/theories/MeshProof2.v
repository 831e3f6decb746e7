From Verif Require Import Base BaseProof CsrModel CsrSpec CsrProof MeshModel MeshSpec MeshRep MeshProof.
From Coq Require Import ZifyBool ZifyNat ZifyN.

(** ** Extensional equality of abstract meshes (attributes are functions) *)

Definition cell_eq (x y : acell) : Prop :=
  ac_geo x = ac_geo y /\ ac_mark x = ac_mark y /\ ac_act x = ac_act y /\ ac_orig x = ac_orig y /\
  ac_upd x = ac_upd y /\ (forall r, ac_rel x r = ac_rel y r) /\ ac_prop x = ac_prop y.

Definition aeq (a b : amesh) : Prop :=
  am_dim a = am_dim b /\ (forall d, Forall2 cell_eq (am_cells a d) (am_cells b d)) /\
  (forall d, am_names a d = am_names b d).

Definition oaeq (a b : option amesh) : Prop :=
  match a, b with Some a, Some b => aeq a b | None, None => True | _, _ => False end.

Lemma cell_eq_refl x : cell_eq x x.
Proof. by split_and!. Qed.
Lemma cells_eq_refl l : Forall2 cell_eq l l.
Proof. induction l; constructor; auto using cell_eq_refl. Qed.
Lemma aeq_refl a : aeq a a.
Proof. split_and!; auto using cells_eq_refl. Qed.

Lemma cell_eq_fmap {B} (f : acell -> B) l k :
  (forall x y, cell_eq x y -> f x = f y) -> Forall2 cell_eq l k -> f <$> l = f <$> k.
Proof. intros Hf. induction 1 as [|x y l k H _ IH]; cbn; [done|]. rewrite IH. f_equal. by apply Hf. Qed.

Lemma represents_aeq m a b : represents m a -> aeq a b -> represents m b.
Proof.
  intros H (Hd & Hc & Hn).
  assert (Hm : forall B (f : acell -> B) d, (forall x y, cell_eq x y -> f x = f y) -> f <$> am_cells b d = f <$> am_cells a d).
  { intros B f d Hf. symmetry. by apply cell_eq_fmap. }
  unfold cell_eq in Hm.
  split.
  - rewrite <- Hd. apply H.
  - intros d cs. subst cs. rewrite (fmap_length_eq ac_mark _ (am_cells a d)) by (apply Hm; naive_solver).
    rewrite !Hm by naive_solver. rewrite <- Hn. apply (r_cells _ _ H).
  - intros r. rewrite Hm by (unfold row_of; naive_solver). apply (r_rel _ _ H).
  - rewrite Hm by naive_solver. apply H.
  - rewrite Hm by naive_solver. apply H.
  - intros d. rewrite Hm by naive_solver. apply (r_geo _ _ H).
Qed.

Lemma sim_aeq x y z : sim x y -> oaeq y z -> sim x z.
Proof.
  intros H E. destruct x, y, z; cbn in *; try done. by eapply represents_aeq.
Qed.

Lemma with_cells_aeq a b d cs cs' :
  aeq a b -> Forall2 cell_eq cs cs' -> aeq (with_cells d cs a) (with_cells d cs' b).
Proof.
  intros (Hd & Hc & Hn) H. split_and!; cbn; auto.
  intros d'. unfold upd_fun. by case_decide.
Qed.

Lemma with_cells_self_aeq a d cs : Forall2 cell_eq (am_cells a d) cs -> aeq a (with_cells d cs a).
Proof.
  intros H. split_and!; cbn; auto.
  intros d'. unfold upd_fun. case_decide; [by subst|]. apply cells_eq_refl.
Qed.

Lemma with_cells_twice_aeq a d cs cs1 cs2 :
  Forall2 cell_eq cs1 cs2 -> aeq (with_cells d cs1 (with_cells d cs a)) (with_cells d cs2 a).
Proof.
  intros H. split_and!; cbn; auto.
  intros d'. unfold upd_fun. case_decide; [done|]. apply cells_eq_refl.
Qed.

Lemma insert_cell_eq (cs cs' : list acell) (i : nat) x y :
  Forall2 cell_eq cs cs' -> cell_eq x y -> Forall2 cell_eq (<[i := x]> cs) (<[i := y]> cs').
Proof. intros. by apply Forall2_insert. Qed.

Lemma oaeq_trans x y z : oaeq x y -> oaeq y z -> oaeq x z.
Proof.
  destruct x, y, z; cbn; try done. intros (? & H1 & ?) (? & H2 & ?). split_and!.
  - congruence.
  - intros d. eapply Forall2_transitive; [|apply H1|apply H2].
    intros ? ? ? (?&?&?&?&?&?&?) (?&?&?&?&?&?&?). split_and!; congruence.
  - congruence.
Qed.

(** ** Writing a whole row slot by slot *)

Lemma with_row_id r x l : l = ac_rel x r -> cell_eq x (with_row r l x).
Proof.
  intros ->. split_and!; cbn; auto. intros r'. unfold upd_fun. case_decide; by subst.
Qed.

Lemma all_below_cons n v vs : all_below n (v :: vs) <-> (v < N.of_nat n)%N /\ all_below n vs.
Proof. unfold all_below. split; [intros H; by inversion H|intros []; by constructor]. Qed.

Lemma src_tgt r : src r <> tgt r.
Proof. by destruct r. Qed.

Lemma on_cell_Some a d i f x :
  am_cells a d !! i = Some x -> on_cell d i f a = Some (with_cells d (<[i := f x]> (am_cells a d)) a).
Proof. intros Hx. unfold on_cell. by rewrite Hx. Qed.

Lemma astep_insert a r i k v x :
  am_cells a (src r) !! i = Some x ->
  astep a (OInsert r i k v) =
  if decide (k < length (ac_rel x r) /\ (v < N.of_nat (anum (tgt r) a))%N)
  then Some (with_cells (src r) (<[i := with_row r (<[k := v]> (ac_rel x r)) x]> (am_cells a (src r))) a)
  else None.
Proof. intros Hx. cbn. rewrite Hx. cbn. unfold on_cell. rewrite Hx. done. Qed.

Lemma insert_list_fold r i vs : forall k a x,
  am_cells a (src r) !! i = Some x -> k <= length (ac_rel x r) ->
  oaeq (afold (fun a kv => astep a (OInsert r i kv.1 kv.2)) (imap (fun j v => (k + j, v)) vs) a)
       (if decide (k + length vs <= length (ac_rel x r) /\ all_below (anum (tgt r) a) vs)
        then Some (with_cells (src r)
               (<[i := with_row r (take k (ac_rel x r) ++ vs ++ drop (k + length vs) (ac_rel x r)) x]>
                  (am_cells a (src r))) a)
        else None).
Proof.
  induction vs as [|v vs IH]; intros k a x Hx Hk.
  - cbn. rewrite decide_True by (split; [lia|constructor]). cbn.
    apply with_cells_self_aeq. rewrite <- (list_insert_id (am_cells a (src r)) i x) at 1 by done.
    apply insert_cell_eq; [apply cells_eq_refl|]. apply with_row_id.
    rewrite Nat.add_0_r. apply take_drop.
  - cbn [imap]. cbn [afold]. cbn [fst snd].
    rewrite (astep_insert a r i _ v x Hx), Nat.add_0_r.
    case_decide as H1.
    + cbn [mbind option_bind].
      set (x' := with_row r (<[k:=v]> (ac_rel x r)) x).
      set (a' := with_cells _ _ a).
      assert (Hx' : am_cells a' (src r) !! i = Some x').
      { cbn. rewrite upd_fun_eq. apply list_lookup_insert. by eapply lookup_lt_Some. }
      assert (Hr' : ac_rel x' r = <[k:=v]> (ac_rel x r)) by (cbn; by rewrite upd_fun_eq).
      specialize (IH (S k) a' x' Hx').
      assert (Hn : anum (tgt r) a' = anum (tgt r) a).
      { unfold anum. cbn. rewrite upd_fun_ne; [done|apply src_tgt]. }
      rewrite Hr', insert_length, Hn in IH. specialize (IH ltac:(lia)).
      rewrite (imap_ext _ (fun j v0 => (S k + j, v0))) by (intros; cbn; f_equal; lia).
      eapply oaeq_trans; [exact IH|]. cbn [length].
      case_decide as H2.
      * rewrite decide_True; [|split; [lia|apply all_below_cons; split; [lia|apply H2]]].
        cbn. unfold a'. apply with_cells_twice_aeq. cbn. rewrite upd_fun_eq, list_insert_insert.
        apply insert_cell_eq; [apply cells_eq_refl|].
        split_and!; cbn; auto. intros r'. unfold upd_fun. case_decide; [|done].
        rewrite Nat.add_succ_r. cbn.
        erewrite take_S_r by (rewrite list_lookup_insert; [done|lia]).
        rewrite take_insert, drop_insert_gt by lia. by rewrite <- app_assoc.
      * rewrite decide_False; [done|]. rewrite all_below_cons. intros [H3 [_ H4]]. apply H2. split; [lia|done].
    + rewrite decide_False; [done|]. rewrite all_below_cons. cbn. intros [? [? ?]]. apply H1. split; [lia|done].
Qed.

Lemma sim_InsertList m a r i vs :
  represents m a -> sim (RelInsertList r i vs m) (astep a (OInsertList r i vs)).
Proof.
  intros H. unfold RelInsertList.
  eapply sim_aeq.
  { apply (sim_fold _ (fun a kv => astep a (OInsert r i kv.1 kv.2))); [done|].
    intros. by apply sim_Insert. }
  cbn [astep]. case_decide as Hv; [subst vs; apply aeq_refl|].
  destruct (am_cells a (src r) !! i) as [x|] eqn:Hx.
  - eapply oaeq_trans.
    { rewrite (imap_ext pair (fun j v => (0 + j, v))) by done. eapply (insert_list_fold r i vs 0 a x); [done|lia]. }
    cbn [mbind option_bind Nat.add]. case_decide as Hd; [|done].
    unfold on_cell. rewrite Hx. cbn. apply aeq_refl.
  - destruct vs as [|v vs]; [done|]. cbn. by rewrite Hx.
Qed.

Lemma sim_Add m a r i vs :
  represents m a -> sim (RelAdd r i vs m) (astep a (OAdd r i vs)).
Proof.
  intros H. unfold RelAdd.
  eapply sim_aeq.
  { apply (sim_bind _ (astep a (OInitOne r i (length vs))) _ (fun a => astep a (OInsertList r i vs)));
      [by apply sim_InitOne|]. intros. by apply sim_InsertList. }
  cbn [astep]. destruct (decide (r = S2 -> length vs mod 3 = 0)) as [H1|H1].
  2: { rewrite decide_False; [done|]. tauto. }
  destruct (am_cells a (src r) !! i) as [x|] eqn:Hx.
  2: { rewrite !(on_cell_None a) by done. destruct (decide (_ /\ all_below _ _)); done. }
  rewrite !(on_cell_Some _ _ _ _ _ Hx). cbn [mbind option_bind].
  set (x1 := with_row r _ x). set (a1 := with_cells (src r) (<[i := x1]> _) a).
  assert (Hx1 : am_cells a1 (src r) !! i = Some x1).
  { cbn. rewrite upd_fun_eq. apply list_lookup_insert. by eapply lookup_lt_Some. }
  assert (Hr1 : ac_rel x1 r = resize (length vs) (default_single r) (ac_rel x r)) by (cbn; by rewrite upd_fun_eq).
  assert (Hn : anum (tgt r) a1 = anum (tgt r) a).
  { unfold anum. cbn. rewrite upd_fun_ne; [done|apply src_tgt]. }
  rewrite Hx1. cbn [mbind option_bind]. rewrite Hr1, resize_length, Hn.
  rewrite (on_cell_Some _ _ _ _ _ Hx1).
  destruct (decide (vs = [])) as [->|Hv].
  { rewrite decide_True by (split; [done|constructor]). cbn.
    apply with_cells_aeq; [apply aeq_refl|]. unfold x1. cbn [length]. rewrite resize_0. apply cells_eq_refl. }
  destruct (decide (all_below (anum (tgt r) a) vs)) as [Hb|Hb].
  2: { rewrite !decide_False by tauto. done. }
  rewrite !decide_True by (split; [done || lia|done]).
  cbn [oaeq]. unfold a1. apply with_cells_twice_aeq. cbn [am_cells with_cells]. rewrite upd_fun_eq, list_insert_insert.
  apply insert_cell_eq; [apply cells_eq_refl|].
  split_and!; try done. intros r'. cbn. unfold upd_fun. case_decide; [|done]. subst r'.
  rewrite decide_True by done. rewrite drop_ge; [by rewrite app_nil_r|]. by rewrite resize_length.
Qed.
