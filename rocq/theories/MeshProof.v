From Verif Require Import Base BaseProof CsrModel CsrSpec CsrProof MeshModel MeshSpec MeshRep.
From Coq Require Import ZifyBool ZifyNat ZifyN.

(** ** Generalities *)

Lemma upd_fun_eq {A B} `{EqDecision A} (f : A -> B) a b : upd_fun f a b a = b.
Proof. unfold upd_fun. by rewrite decide_True. Qed.
Lemma upd_fun_ne {A B} `{EqDecision A} (f : A -> B) a a' b : a <> a' -> upd_fun f a b a' = f a'.
Proof. intros. unfold upd_fun. by rewrite decide_False. Qed.

Lemma fmap_delete {A B} (f : A -> B) (l : list A) i : f <$> delete i l = delete i (f <$> l).
Proof. revert i. induction l as [|x l IH]; intros [|i]; cbn; [done..|]. by f_equal. Qed.

Lemma delete_length {A} (l : list A) i : i < length l -> length (delete i l) = length l - 1.
Proof.
  intros Hi. rewrite delete_take_drop, app_length, take_length, drop_length. lia.
Qed.

Lemma lookup_delete_list {A} (l : list A) i k :
  delete i l !! k = if decide (k < i) then l !! k else l !! S k.
Proof.
  revert i k. induction l as [|x l IH]; intros [|i] [|k]; cbn; try done.
  - by case_decide.
  - rewrite IH. repeat case_decide; done || lia.
Qed.

Lemma deal_pieces {A} cnt (l : list A) : deal cnt l = pieces cnt l.
Proof. revert l. induction cnt; intros; cbn; [done|]. by f_equal. Qed.

Lemma redeal_pieces {A} (d : A) cnt rows :
  redeal d cnt rows = pieces cnt (vresize (concat rows) (sum_list cnt) d).
Proof. unfold redeal. by rewrite deal_pieces, vresize_resize. Qed.

Lemma redeal_length {A} (d : A) cnt rows : length (redeal d cnt rows) = length cnt.
Proof. by rewrite redeal_pieces, pieces_length. Qed.

Lemma renumber_align1 i g v : renumber i g v = align1 i g v.
Proof.
  unfold renumber, align1. repeat case_decide; repeat case_match; lia.
Qed.

Lemma single_default_eq r : single_default r = default_single r.
Proof. by destruct r. Qed.
Lemma bulk_default_eq r : bulk_default r = default_bulk r.
Proof. by destruct r. Qed.

(** Numbers of cells agree. *)
Lemma rep_num m a d : represents m a -> num d m = anum d a.
Proof. intros H. exact (rc_num _ _ _ _ _ _ _ _ _ (r_cells _ _ H d)). Qed.

(** ** Changing one component *)

Lemma represents_set_cells m a d c' cs' :
  represents m a ->
  rep_cells d c' (length cs') (ac_mark <$> cs') (ac_act <$> cs') (ac_orig <$> cs')
            (ac_upd <$> cs') (am_names a d) (ac_prop <$> cs') ->
  (forall r, src r = d -> row_of r <$> cs' = row_of r <$> am_cells a d) ->
  ac_geo <$> cs' = ac_geo <$> am_cells a d ->
  represents (set_cells d c' m) (with_cells d cs' a).
Proof.
  intros H Hc Hr Hg. split; cbn.
  - apply H.
  - intros d'. unfold upd_fun. case_decide as E; [subst d'; done|]. apply (r_cells _ _ H).
  - intros r. unfold upd_fun. case_decide as E; [|apply (r_rel _ _ H)].
    rewrite Hr by done. rewrite E. apply (r_rel _ _ H).
  - unfold upd_fun. case_decide as E; [subst d|apply H]. rewrite Hg. apply H.
  - unfold upd_fun. case_decide as E; [subst d|apply H]. rewrite Hg. apply H.
  - intros d'. unfold upd_fun. case_decide as E; [|apply (r_geo _ _ H)]. subst d'. rewrite Hg. apply (r_geo _ _ H).
Qed.

Lemma fmap_length_eq {A B} (f : A -> B) l1 l2 : f <$> l1 = f <$> l2 -> length l1 = length l2.
Proof. intros H%(f_equal length). by rewrite !fmap_length in H. Qed.

(** Same markers, states, origins, genealogy and properties. *)
Definition same_base (cs' cs : list acell) : Prop :=
  ac_mark <$> cs' = ac_mark <$> cs /\ ac_act <$> cs' = ac_act <$> cs /\
  ac_orig <$> cs' = ac_orig <$> cs /\ ac_upd <$> cs' = ac_upd <$> cs /\ ac_prop <$> cs' = ac_prop <$> cs.

Lemma same_base_rep d c cs cs' names :
  same_base cs' cs ->
  rep_cells d c (length cs) (ac_mark <$> cs) (ac_act <$> cs) (ac_orig <$> cs)
            (ac_upd <$> cs) names (ac_prop <$> cs) ->
  rep_cells d c (length cs') (ac_mark <$> cs') (ac_act <$> cs') (ac_orig <$> cs')
            (ac_upd <$> cs') names (ac_prop <$> cs').
Proof.
  intros (Hm & -> & -> & -> & ->). rewrite (fmap_length_eq _ _ _ Hm), Hm. done.
Qed.

Lemma represents_set_rel m a r c' cs' :
  represents m a ->
  csr_rep c' (row_of r <$> cs') ->
  same_base cs' (am_cells a (src r)) ->
  (forall r', r' <> r -> src r' = src r -> row_of r' <$> cs' = row_of r' <$> am_cells a (src r)) ->
  ac_geo <$> cs' = ac_geo <$> am_cells a (src r) ->
  represents (set_rel r c' m) (with_cells (src r) cs' a).
Proof.
  intros H Hc Hb Hr Hg. split; cbn.
  - apply H.
  - intros d'. unfold upd_fun. case_decide as E; [|apply (r_cells _ _ H)].
    subst d'. eapply same_base_rep; [done|]. apply (r_cells _ _ H).
  - intros r'. unfold upd_fun at 1. case_decide as E.
    + subst r'. by rewrite upd_fun_eq.
    + unfold upd_fun. case_decide as E2; [|apply (r_rel _ _ H)].
      rewrite Hr by done. rewrite E2. apply (r_rel _ _ H).
  - unfold upd_fun. case_decide as E; [|apply H]. rewrite Hg, E. apply H.
  - unfold upd_fun. case_decide as E; [|apply H]. rewrite Hg, E. apply H.
  - intros d'. unfold upd_fun. case_decide as E; [|apply (r_geo _ _ H)]. subst d'. rewrite Hg. apply (r_geo _ _ H).
Qed.

Lemma fmap_insert_same {A B} (f : A -> B) (l : list A) (i : nat) x y :
  l !! i = Some x -> f y = f x -> f <$> <[i := y]> l = f <$> l.
Proof.
  intros Hi E. rewrite list_fmap_insert, E. apply list_insert_id.
  by rewrite list_lookup_fmap, Hi.
Qed.

Lemma zip_with_same {A B C} (g : A -> B -> B) (f : B -> C) (l : list A) (k : list B) :
  (forall a b, f (g a b) = f b) -> length l = length k ->
  f <$> zip_with g l k = f <$> k.
Proof.
  intros E. revert k. induction l as [|a l IH]; intros [|b k] Hl; cbn in *; try done.
  f_equal; auto.
Qed.

Lemma zip_with_new {A B} (g : A -> B -> B) (f : B -> A) (l : list A) (k : list B) :
  (forall a b, f (g a b) = a) -> length l = length k ->
  f <$> zip_with g l k = l.
Proof.
  intros E. revert k. induction l as [|a l IH]; intros [|b k] Hl; cbn in *; try done.
  f_equal; auto.
Qed.

(** ** Simulation of outcomes *)

Definition sim (x : outcome mesh) (y : option amesh) : Prop :=
  match x, y with
  | Ok m, Some a => represents m a
  | Abort, None => True
  | _, _ => False
  end.

Lemma sim_bind x y f g :
  sim x y -> (forall m a, represents m a -> sim (f m) (g a)) -> sim (x ≫= f) (y ≫= g).
Proof. intros H Hf. destruct x, y; cbn in *; try done. auto. Qed.

Lemma sim_bind_some x y f (g : amesh -> option amesh) :
  sim x y -> (forall m a, y = Some a -> represents m a -> sim (f m) (g a)) -> sim (x ≫= f) (y ≫= g).
Proof. intros H Hf. destruct x, y; cbn in *; try done. auto. Qed.

Lemma sim_require b (P : Prop) `{!Decision P} x y :
  (b = true <-> P) -> (P -> sim x y) -> sim (require b ;; x) (if decide P then y else None).
Proof.
  intros Hb Hs. destruct b; cbn.
  - rewrite decide_True by (by apply Hb). apply Hs. by apply Hb.
  - rewrite decide_False; [done|]. intros HP%Hb. done.
Qed.

Fixpoint afold {A} (f : amesh -> A -> option amesh) (l : list A) (a : amesh) : option amesh :=
  match l with
  | [] => Some a
  | x :: l' => a' ← f a x; afold f l' a'
  end.

Lemma sim_fold {A} (f : mesh -> A -> outcome mesh) g l m a :
  represents m a -> (forall m a x, x ∈ l -> represents m a -> sim (f m x) (g a x)) ->
  sim (ofold f l m) (afold g l a).
Proof.
  revert m a. induction l as [|x l IH]; intros m a H Hf; cbn; [done|].
  apply sim_bind; [apply Hf; [left|done]|]. intros m' a' H'. apply IH; [done|].
  intros. apply Hf; [by right|done].
Qed.

(** ** Initial state *)

Lemma represents_empty : represents empty_mesh aempty.
Proof.
  split; cbn; auto.
  - intros d. split; cbn; auto.
    + by destruct d.
    + intros ? ? H. rewrite lookup_nil in H. done.
    + split; cbn; auto.
      * constructor.
      * intros id p. by split.
      * intros p c Hp. rewrite lookup_nil in Hp. done.
  - intros r. by split.
Qed.

(** ** One slot of one attribute *)

Lemma rep_lookup_num m a d i : represents m a -> (i <? num d m) = true <-> is_Some (am_cells a d !! i).
Proof.
  intros H. rewrite (rep_num m a d H). unfold anum. rewrite lookup_lt_is_Some. lia.
Qed.

Lemma rep_row m a r i x :
  represents m a -> am_cells a (src r) !! i = Some x ->
  (row_of r <$> am_cells a (src r)) !! i = Some (ac_rel x r).
Proof. intros H Hx. by rewrite list_lookup_fmap, Hx. Qed.

Lemma RelNumber_rep m a r i x :
  represents m a -> am_cells a (src r) !! i = Some x ->
  RelNumber r i m = Ok (N.of_nat (length (ac_rel x r))).
Proof.
  intros H Hx. unfold RelNumber.
  replace (i <? num (src r) m) with true by (symmetry; apply (rep_lookup_num m a); eauto).
  cbn. eapply csr_count_spec; [apply (r_rel _ _ H)|]. by apply (rep_row m).
Qed.

Lemma require_false {A} (x : outcome A) b : b = false -> (require b ;; x) = Abort.
Proof. by intros ->. Qed.
Lemma require_true {A} (x : outcome A) b : b = true -> (require b ;; x) = x.
Proof. by intros ->. Qed.

Lemma represents_row m a r i x l c' :
  represents m a -> am_cells a (src r) !! i = Some x ->
  csr_rep c' (<[i := l]> (row_of r <$> am_cells a (src r))) ->
  represents (set_rel r c' m)
    (with_cells (src r) (<[i := with_row r l x]> (am_cells a (src r))) a).
Proof.
  intros H Hx Hc. apply represents_set_rel; auto.
  - rewrite list_fmap_insert. cbn. by rewrite upd_fun_eq.
  - split_and!; by eapply fmap_insert_same.
  - intros r' Hr' _. eapply fmap_insert_same; [done|]. cbn. by rewrite upd_fun_ne.
  - by eapply fmap_insert_same.
Qed.

Lemma sim_on_cell m a d i f x :
  am_cells a d !! i = Some x ->
  represents m (with_cells d (<[i := f x]> (am_cells a d)) a) ->
  sim (Ok m) (on_cell d i f a).
Proof. intros Hx H. unfold on_cell. by rewrite Hx. Qed.

Lemma on_cell_None a d i f : am_cells a d !! i = None -> on_cell d i f a = None.
Proof. intros Hx. unfold on_cell. by rewrite Hx. Qed.

Lemma num_false m a d i : represents m a -> am_cells a d !! i = None -> (i <? num d m) = false.
Proof.
  intros H Hx. rewrite (rep_num m a d H). unfold anum. apply lookup_ge_None in Hx. lia.
Qed.
Lemma num_true m a d i x : represents m a -> am_cells a d !! i = Some x -> (i <? num d m) = true.
Proof. intros H Hx. apply (rep_lookup_num m a); eauto. Qed.

Lemma sim_Insert m a r i k v :
  represents m a -> sim (RelInsert r i k v m) (astep a (OInsert r i k v)).
Proof.
  intros H. cbn. unfold RelInsert.
  destruct (am_cells a (src r) !! i) as [x|] eqn:Hx; cbn.
  2: { by rewrite require_false by (by eapply num_false). }
  rewrite require_true by (by eapply num_true).
  rewrite (RelNumber_rep m a r i x) by done. cbn.
  case_decide as Hd.
  - rewrite !require_true by (rewrite ?(rep_num m a _ H); lia).
    destruct (csr_set_spec (mrel m r) (row_of r <$> am_cells a (src r)) i (ac_rel x r) k v)
      as (c' & -> & Hc'); [apply (r_rel _ _ H)|by apply (rep_row m)|lia|].
    cbn. eapply sim_on_cell; [done|]. by apply represents_row.
  - destruct (decide (k < length (ac_rel x r))).
    + rewrite require_true by lia. rewrite require_false; [done|]. rewrite (rep_num m a _ H). lia.
    + rewrite require_false; [done|]. lia.
Qed.

Lemma sim_Reset m a r i k :
  represents m a -> pre a (OReset r i k) -> sim (RelReset r i k m) (astep a (OReset r i k)).
Proof.
  intros H (x & Hx & Hk). cbn. unfold RelReset.
  destruct (csr_set_spec (mrel m r) (row_of r <$> am_cells a (src r)) i (ac_rel x r) k UINT_MAX)
      as (c' & -> & Hc'); [apply (r_rel _ _ H)|by apply (rep_row m)|lia|].
  cbn. eapply sim_on_cell; [done|]. by apply represents_row.
Qed.

Lemma sim_InitOne m a r i n :
  represents m a -> sim (RelInitOne r i n m) (astep a (OInitOne r i n)).
Proof.
  intros H. cbn. unfold RelInitOne.
  assert (Hb : (match r with S2 => n mod 3 =? 0 | _ => true end) = true <-> (r = S2 -> n mod 3 = 0)).
  { destruct r; rewrite ?Nat.eqb_eq; naive_solver. }
  destruct (am_cells a (src r) !! i) as [x|] eqn:Hx; cbn.
  2: { rewrite require_false by (by eapply num_false). rewrite on_cell_None by done. by case_decide. }
  rewrite require_true by (by eapply num_true).
  apply sim_require; [done|]. intros _.
  rewrite (rep_num m a _ H). unfold anum.
  destruct (csr_resize_row_spec (mrel m r) (row_of r <$> am_cells a (src r)) i (ac_rel x r) n (single_default r))
    as (c' & Hc & Hc'); [apply (r_rel _ _ H)|by apply (rep_row m)|].
  rewrite fmap_length in Hc. rewrite Hc. cbn.
  eapply sim_on_cell; [done|]. cbn. apply represents_row; [done..|].
  by rewrite <- vresize_resize, <- single_default_eq.
Qed.

(** ** Bulk initialisation *)

Lemma represents_rows m a r rows c' :
  represents m a -> length rows = anum (src r) a ->
  csr_rep c' rows ->
  represents (set_rel r c' m)
    (with_cells (src r) (zip_with (with_row r) rows (am_cells a (src r))) a).
Proof.
  intros H Hl Hc. apply represents_set_rel; auto.
  - rewrite zip_with_new; [done| |done]. intros. cbn. by rewrite upd_fun_eq.
  - split_and!; by apply zip_with_same.
  - intros r' Hr' _. apply zip_with_same; [|done]. intros. cbn. by rewrite upd_fun_ne.
  - by apply zip_with_same.
Qed.

Lemma sim_InitAll m a r cnt :
  represents m a -> sim (RelInitAll r cnt m) (astep a (OInitAll r cnt)).
Proof.
  intros H. cbn. unfold RelInitAll.
  apply sim_require; [rewrite (rep_num m a _ H); lia|]. intros Hl.
  cbn. apply represents_rows; [done|by rewrite redeal_length|].
  rewrite redeal_pieces, <- bulk_default_eq. apply csr_init_spec, (r_rel _ _ H).
Qed.

Lemma sim_InitConst m a r k :
  represents m a -> sim (RelInitConst r k m) (astep a (OInitConst r k)).
Proof.
  intros H. cbn. rewrite (rep_num m a _ H).
  apply represents_rows; [done|by rewrite redeal_length, replicate_length|].
  rewrite redeal_pieces, <- bulk_default_eq, sum_list_replicate. apply csr_init_const_spec, (r_rel _ _ H).
Qed.
