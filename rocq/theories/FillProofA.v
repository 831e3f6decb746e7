(** Building meshes: the stages of FillMesh2D and FillMesh3D on the abstract mesh. *)
From Coq Require Import QArith Qcanon.
From Verif Require Import Base BaseProof CsrModel CsrSpec CsrProof MeshModel MeshSpec MeshRep MeshHist
  MeshProof MeshProof2 MeshProof3 MeshProof4 MeshProof5 MeshProof6 MeshProof7 MeshProof8 MeshProof9 MeshProofA MeshProofB
  MeshProg UtilModel UtilProofD FillModel FillSpec.
From Coq Require Import ZifyBool ZifyNat ZifyN.
Local Open Scope nat_scope.

Lemma aeq_trans a b c : aeq a b -> aeq b c -> aeq a c.
Proof.
  intros (H1 & H2 & H3) (K1 & K2 & K3). split_and!; [congruence|intros d; by rewrite H2, K2|]. intros d. specialize (H3 d). specialize (K3 d).
  apply Forall2_same_length_lookup in H3 as [L H3]. apply Forall2_same_length_lookup in K3 as [M K3].
  apply Forall2_same_length_lookup. split; [congruence|]. intros i x z Hx Hz.
  destruct (lookup_lt_is_Some_2 (am_cells b d) i) as [y Hy]; [rewrite <- L; by eapply lookup_lt_Some|].
  eapply ceq_trans; [by eapply H3|by eapply K3].
Qed.

Lemma aeq_sym a b : aeq a b -> aeq b a.
Proof.
  intros (H1 & H2 & H3). split_and!; [done|intros d; by rewrite H2|]. intros d. specialize (H3 d).
  apply Forall2_same_length_lookup in H3 as [L H3]. apply Forall2_same_length_lookup. split; [done|]. intros i x y Hx Hy.
  apply ceq_sym. by eapply H3.
Qed.

(** The cells of one dimension replaced. *)
Lemma wc_cells d cs a d' : am_cells (with_cells d cs a) d' = if decide (d = d') then cs else am_cells a d'.
Proof. reflexivity. Qed.
Lemma wc_same d cs a : am_cells (with_cells d cs a) d = cs.
Proof. rewrite wc_cells. by rewrite decide_True. Qed.
Lemma wc_other d cs a d' : d <> d' -> am_cells (with_cells d cs a) d' = am_cells a d'.
Proof. intros H. rewrite wc_cells. by rewrite decide_False. Qed.
Lemma wc_num d cs a d' : anum d' (with_cells d cs a) = if decide (d = d') then length cs else anum d' a.
Proof. unfold anum. rewrite wc_cells. by case_decide. Qed.

Lemma wc_aeq d cs cs' a : Forall2 ceq cs cs' -> aeq (with_cells d cs a) (with_cells d cs' a).
Proof.
  intros H. apply aeq_intro; [done..| |].
  - intros d'. rewrite !wc_num. case_decide; [by apply Forall2_length in H|done].
  - intros d' i x y. rewrite !wc_cells. case_decide; [|intros Hx Hy; rewrite Hx in Hy; injection Hy as <-; apply ceq_refl].
    intros Hx Hy. by eapply Forall2_lookup_lr.
Qed.

Lemma wc_wc d cs cs' a : aeq (with_cells d cs (with_cells d cs' a)) (with_cells d cs a).
Proof.
  apply aeq_intro; [done..| |].
  - intros d'. rewrite !wc_num. by case_decide.
  - intros d' i x y. rewrite !wc_cells. case_decide; intros Hx Hy; rewrite Hx in Hy; injection Hy as <-; apply ceq_refl.
Qed.

(** A change of every cell of one dimension. *)
Definition in_dim (d : dim) (f : nat -> acell -> acell) : dim -> nat -> acell -> acell :=
  fun d' i x => if decide (d' = d) then f i x else x.
Lemma amap_in_dim d f a : aeq (amap (in_dim d f) a) (with_cells d (imap f (am_cells a d)) a).
Proof.
  apply aeq_intro; [done..| |].
  - intros d'. rewrite amap_num, wc_num. case_decide; [subst; by rewrite imap_length|done].
  - intros d' i x y. rewrite amap_lookup, wc_cells. unfold in_dim. case_decide as E.
    + subst. rewrite (decide_True (P := d = d)) by done. rewrite list_lookup_imap. destruct (am_cells a d !! i); cbn; [|done].
      intros [= <-] [= <-]. apply ceq_refl.
    + rewrite decide_False by congruence. destruct (am_cells a d' !! i); cbn; [|done]. intros [= <-] [= <-]. apply ceq_refl.
Qed.

(** A loop changing the cells of one dimension one after the other. *)
Definition first_cells {A} (d : dim) (f : nat -> A -> acell -> acell) (l : list A) (k : nat) : dim -> nat -> acell -> acell :=
  in_dim d (fun i x => if decide (i < k) then match l !! i with Some y => f i y x | None => x end else x).

Lemma first_cells_here {A} d f (l : list A) k x : first_cells d f l k d k x = x.
Proof. unfold first_cells, in_dim. rewrite decide_True by done. by rewrite decide_False by lia. Qed.

Lemma does_each_to {A} d (f : nat -> A -> acell -> acell) (P : mesh -> nat * A -> outcome mesh) (l : list A) a n :
  anum d a = length l ->
  (forall k y x F, k < n -> l !! k = Some y -> am_cells a d !! k = Some x -> F d k x = x ->
     does (fun m => P m (k, y)) (amap F a) (amap (also F d k (f k y)) a)) ->
  does (ofold P (take n (imap pair l))) a (amap (first_cells d f l (n `min` length l)) a).
Proof.
  intros Hn H. set (g := fun k => amap (first_cells d f l k) a).
  apply (does_aeq_l _ a (g 0)).
  { eapply aeq_trans; [apply amap_keep|]. apply amap_ext. intros d' i x _. unfold keep, first_cells, in_dim. case_decide; [|apply ceq_refl].
    rewrite decide_False by lia. apply ceq_refl. }
  replace (n `min` length l) with (length (take n (imap pair l))) by (by rewrite take_length, imap_length).
  apply (does_loop P (take n (imap pair l)) g). intros k y' Hy'. apply lookup_take_Some in Hy' as [Hy' Hkn].
  apply list_lookup_imap_Some in Hy' as (y & Hy & ->).
  assert (Hk : k < anum d a) by (rewrite Hn; by eapply lookup_lt_Some).
  destruct (lookup_lt_is_Some_2 (am_cells a d) k Hk) as [x Hx].
  eapply does_aeq; [apply (H k y x); [done|done|done|apply first_cells_here]|].
  apply amap_ext. intros d' i z Hz. unfold also, first_cells, in_dim. destruct (decide (d' = d /\ i = k)) as [[-> ->]|E].
  - rewrite !(decide_True (P := d = d)) by done. rewrite (decide_False (P := k < k)) by lia. rewrite (decide_True (P := k < S k)) by lia.
    rewrite Hy. apply ceq_refl.
  - destruct (decide (d' = d)) as [->|]; [|apply ceq_refl].
    destruct (decide (i < k)); [rewrite decide_True by lia; apply ceq_refl|].
    rewrite decide_False; [apply ceq_refl|]. intros ?. apply E. split; [done|lia].
Qed.

Lemma does_each {A} d (f : nat -> A -> acell -> acell) (P : mesh -> nat * A -> outcome mesh) (l : list A) a :
  anum d a = length l ->
  (forall k y x F, l !! k = Some y -> am_cells a d !! k = Some x -> F d k x = x ->
     does (fun m => P m (k, y)) (amap F a) (amap (also F d k (f k y)) a)) ->
  does (ofold P (imap pair l)) a
       (with_cells d (imap (fun i x => match l !! i with Some y => f i y x | None => x end) (am_cells a d)) a).
Proof.
  intros Hn H. rewrite <- (take_ge (imap pair l) (length l)) by (by rewrite imap_length).
  eapply does_aeq; [apply (does_each_to d f); [done|intros k y x F _; apply H]|].
  eapply aeq_trans; [|apply amap_in_dim]. apply amap_ext. intros d' i x Hx. unfold first_cells, in_dim.
  case_decide; [subst|apply ceq_refl]. rewrite decide_True; [apply ceq_refl|]. rewrite Nat.min_id, <- Hn. by eapply lookup_lt_Some.
Qed.

(** Programs that abort. *)
Definition fails (P : mesh -> outcome mesh) (a : amesh) : Prop := forall m, rr m a -> P m = Abort.

Lemma fails_step a o : pre a o -> astep a o = None -> fails (fun m => step m o) a.
Proof. intros Hp Ho m H. by apply (rr_step_abort m a o). Qed.
Lemma fails_here P Q a : fails P a -> fails (fun m => m' ← P m; Q m') a.
Proof. intros H m Hm. by rewrite (H m Hm). Qed.
Lemma fails_later P Q a b : does P a b -> fails Q b -> fails (fun m => m' ← P m; Q m') a.
Proof. intros H1 H2 m Hm. destruct (H1 m Hm) as (m1 & -> & Hm1). by apply H2. Qed.
Lemma fails_aeq P a b : aeq a b -> fails P b -> fails P a.
Proof. intros He H m Hm. apply H. by eapply rr_aeq. Qed.

Lemma fails_each {A} d (f : nat -> A -> acell -> acell) (P : mesh -> nat * A -> outcome mesh) (good : A -> Prop) (l : list A) a :
  anum d a = length l ->
  (forall y, Decision (good y)) ->
  (forall k y x F, l !! k = Some y -> am_cells a d !! k = Some x -> F d k x = x -> good y ->
     does (fun m => P m (k, y)) (amap F a) (amap (also F d k (f k y)) a)) ->
  (forall k y x F, l !! k = Some y -> am_cells a d !! k = Some x -> F d k x = x -> ~ good y ->
     fails (fun m => P m (k, y)) (amap F a)) ->
  ~ Forall good l -> fails (ofold P (imap pair l)) a.
Proof.
  intros Hn Hdec Hgood Hbad Hl.
  destruct (list_find (fun y => ~ good y) l) as [[k y]|] eqn:E.
  2:{ apply list_find_None in E. exfalso. apply Hl. eapply Forall_impl; [exact E|]. intros y Hy. cbn in Hy.
      destruct (decide (good y)); tauto. }
  apply list_find_Some in E as (Hy & Hb & Hfirst).
  rewrite <- (take_drop k (imap pair l)). intros m Hm. rewrite ofold_app.
  destruct (does_each_to d f P l a k Hn) with (m := m) as (m1 & E1 & Hm1); [|done|].
  { intros i z x F Hi Hz Hx HF. apply (Hgood i z x F); [done..|]. destruct (decide (good z)) as [|N]; [done|].
    exfalso. by apply (Hfirst i z Hz Hi). }
  rewrite E1. cbn [mbind outcome_bind]. rewrite (drop_S (imap pair l) (k, y) k) by (by rewrite list_lookup_imap, Hy).
  cbn [ofold]. pose proof (lookup_lt_Some _ _ _ Hy) as Hlk. rewrite Nat.min_l in Hm1 by lia.
  destruct (lookup_lt_is_Some_2 (am_cells a d) k) as [x Hx]; [fold (anum d a); lia|].
  by rewrite (Hbad k y x _ Hy Hx (first_cells_here d f l k x) Hb m1 Hm1).
Qed.

Lemma seq_imap_pair n : imap pair (replicate n ()) = (fun k => (k, ())) <$> seq 0 n.
Proof.
  apply list_eq. intros i. rewrite list_lookup_imap, list_lookup_fmap. destruct (decide (i < n)).
  - rewrite lookup_replicate_2 by done. by rewrite lookup_seq_lt by done.
  - rewrite (lookup_ge_None_2 (replicate n ())) by (rewrite replicate_length; lia). by rewrite lookup_seq_ge by lia.
Qed.

Lemma ofold_fmap {A B C} (f : B -> A -> outcome B) (h : C -> A) l b : ofold f (h <$> l) b = ofold (fun b c => f b (h c)) l b.
Proof. revert b. induction l as [|a l IH]; intros b; cbn; [done|]. destruct (f b (h a)); cbn; [apply IH|done..]. Qed.

Lemma does_each_seq d (f : nat -> acell -> acell) (P : mesh -> nat -> outcome mesh) n a :
  anum d a = n ->
  (forall k x F, k < n -> am_cells a d !! k = Some x -> F d k x = x ->
     does (fun m => P m k) (amap F a) (amap (also F d k (f k)) a)) ->
  does (ofold P (seq 0 n)) a (with_cells d (imap f (am_cells a d)) a).
Proof.
  intros Hn H. eapply does_ext; [intros m _; rewrite <- (ofold_fmap (fun m (ku : nat * unit) => P m ku.1) (fun k => (k, ()))), <- seq_imap_pair; reflexivity|].
  eapply does_aeq; [apply (does_each d (fun k _ => f k))|].
  - by rewrite replicate_length.
  - intros k y x F Hy Hx HF. cbn. apply (H k x F); [|done..]. apply lookup_lt_Some in Hy. by rewrite replicate_length in Hy.
  - apply wc_aeq. apply Forall2_same_length_lookup. rewrite !imap_length. split; [done|]. intros i x y. rewrite !list_lookup_imap.
    destruct (am_cells a d !! i) as [z|] eqn:Hz; [|done]. cbn. rewrite lookup_replicate_2; [|rewrite <- Hn; by eapply lookup_lt_Some].
    intros [= <-] [= <-]. apply ceq_refl.
Qed.

(** ** The stages *)
Lemma does_Dimension n a : does (fun m => Ok (InitializeDimension n m)) a (AMesh n (am_cells a) (am_names a)).
Proof. by apply (does_step a (OInitDimension n)). Qed.

Lemma does_Initialize d n a : am_cells a d = [] ->
  does (fun m => Ok (CellsInitialize d n m)) a (with_cells d (replicate n (new_cell d (length (am_names a d)))) a).
Proof.
  intros He. apply (does_step a (OInitialize d n)).
  - cbn. unfold anum. rewrite He. right. split; [cbn; lia|done].
  - cbn. unfold anum. rewrite He. cbn. by rewrite Nat.sub_0_r.
Qed.

Lemma does_AllCoordinates cols a :
  length cols = anum D0 a ->
  does (Cell0DsInsertCoordinates cols) a
       (with_cells D0 (zip_with (fun c x => with_geo [c.1.1; c.1.2; c.2] x) cols (am_cells a D0)) a).
Proof. intros Hl. apply (does_step a (OAllCoordinates cols)); [done|]. cbn [astep]. by rewrite decide_True. Qed.

Lemma does_AllExtremes cols a :
  length cols = anum D1 a -> all_below (anum D0 a) (cols.*1) -> all_below (anum D0 a) (cols.*2) ->
  does (Cell1DsInsertExtremes cols) a (with_cells D1 (zip_with (fun c x => with_geo [c.1; c.2] x) cols (am_cells a D1)) a).
Proof. intros Hl H1 H2. apply (does_step a (OAllExtremes cols)); [done|]. cbn [astep]. by rewrite decide_True. Qed.

Lemma does_activate d n a : anum d a = n -> does (activate d n) a (with_cells d (with_act true <$> am_cells a d) a).
Proof.
  intros Hn. unfold activate. eapply does_aeq; [apply (does_each_seq d (fun _ => with_act true)); [done|]|].
  - intros k x F Hk _ _. apply does_State. by rewrite Hn.
  - apply wc_aeq. apply Forall2_same_length_lookup. rewrite imap_length, fmap_length. split; [done|]. intros i x y.
    rewrite list_lookup_imap, list_lookup_fmap. destruct (am_cells a d !! i); cbn; [|done]. intros [= <-] [= <-]. apply ceq_refl.
Qed.

Notation blank_cell a d := (new_cell d (length (am_names a d))).

Definition point_cell (p : nat) (c : N * N * N) : acell := with_act true (with_geo [c.1.1; c.1.2; c.2] (new_cell D0 p)).
Definition edge_cell (p : nat) (c : N * N) : acell := with_act true (with_geo [c.1; c.2] (new_cell D1 p)).
Definition polygon_cell (p : nat) (c : list (N * N)) : acell :=
  with_act true (with_row E2 (c.*2) (with_row V2 (c.*1) (new_cell D2 p))).
Definition polyhedron_cell (p : nat) (c : polyhedron) : acell :=
  with_act true (with_row F3 (ph_f c) (with_row E3 (ph_e c) (with_row V3 (ph_v c) (new_cell D3 p)))).

Lemma Forall2_ceq_eq l k : l = k -> Forall2 ceq l k.
Proof. intros ->. apply Forall2_same_length_lookup. split; [done|]. intros i x y ? ?. simplify_eq. apply ceq_refl. Qed.

Lemma zip_with_replicate {A} (f : A -> acell -> acell) l x : zip_with f l (replicate (length l) x) = (fun y => f y x) <$> l.
Proof. induction l as [|y l IH]; cbn; [done|]. by f_equal. Qed.

Lemma stage_points c0 a : am_cells a D0 = [] ->
  does (fill_points c0) a (with_cells D0 (point_cell (length (am_names a D0)) <$> c0) a).
Proof.
  intros He. unfold fill_points. eapply does_ext with (Q := fun m => m ← Ok (CellsInitialize D0 (length c0) m); m ← Cell0DsInsertCoordinates c0 m; activate D0 (length c0) m);
    [done|].
  eapply does_bind; [by apply does_Initialize|]. eapply does_bind.
  - eapply does_aeq; [apply does_AllCoordinates|].
    + rewrite wc_num, decide_True by done. by rewrite replicate_length.
    + rewrite wc_same, zip_with_replicate. apply wc_wc.
  - eapply does_aeq; [apply does_activate|].
    + rewrite wc_num, decide_True by done. by rewrite fmap_length.
    + rewrite wc_same, <- list_fmap_compose. apply wc_wc.
Qed.

Lemma stage_edges c1 a : am_cells a D1 = [] ->
  all_below (anum D0 a) (c1.*1) -> all_below (anum D0 a) (c1.*2) ->
  does (fill_edges c1) a (with_cells D1 (edge_cell (length (am_names a D1)) <$> c1) a).
Proof.
  intros He H1 H2. unfold fill_edges.
  eapply does_ext with (Q := fun m => m ← Ok (CellsInitialize D1 (length c1) m); m ← Cell1DsInsertExtremes c1 m; activate D1 (length c1) m);
    [done|].
  eapply does_bind; [by apply does_Initialize|]. eapply does_bind.
  - eapply does_aeq; [apply does_AllExtremes|].
    + rewrite wc_num, decide_True by done. by rewrite replicate_length.
    + rewrite wc_num, decide_False by done. done.
    + rewrite wc_num, decide_False by done. done.
    + rewrite wc_same, zip_with_replicate. apply wc_wc.
  - eapply does_aeq; [apply does_activate|].
    + rewrite wc_num, decide_True by done. by rewrite fmap_length.
    + rewrite wc_same, <- list_fmap_compose. apply wc_wc.
Qed.

(** Overwriting a whole row. *)
Lemma does_Fill F a r k vs x :
  am_cells a (src r) !! k = Some x -> length (ac_rel (F (src r) k x) r) = length vs -> all_below (anum (tgt r) a) vs ->
  does (RelInsertList r k vs) (amap F a) (amap (also F (src r) k (with_row r vs)) a).
Proof.
  intros Hx Hl Hv. eapply does_aeq; [apply (does_InsertList F a r k vs x); [done|lia|done]|]. apply amap_ext.
  intros d i y Hy. unfold also. destruct (decide (d = src r /\ i = k)) as [[-> ->]|]; [|apply ceq_refl].
  rewrite Hy in Hx. injection Hx as ->. rewrite drop_ge by lia. rewrite app_nil_r. apply ceq_refl.
Qed.

Lemma fails_Fill F a r k vs x :
  am_cells a (src r) !! k = Some x -> ~ all_below (anum (tgt r) a) vs -> fails (RelInsertList r k vs) (amap F a).
Proof.
  intros Hx Hv. apply (fails_step (amap F a) (OInsertList r k vs)); [done|]. cbn [astep].
  rewrite decide_False; [|intros ->; apply Hv; constructor]. rewrite amap_lookup, Hx. cbn.
  apply decide_False. intros [_ H]. unfold anum in *. cbn in H. by rewrite imap_length in H.
Qed.

(** Rows: bulk initialisation of several attributes, then overwriting them cell by cell. *)
Lemma polygons_init (c2 : list (list (N * N))) a : am_cells a D2 = [] ->
  exists R1 R2 c, does (fun m => m ← Ok (CellsInitialize D2 (length c2) m); m ← RelInitAll V2 (length <$> c2) m; RelInitAll E2 (length <$> c2) m) a c /\
   (forall k p, c2 !! k = Some p -> length (R1 k) = length (p.*1)) /\
   (forall k p, c2 !! k = Some p -> length (R2 k) = length (p.*2)) /\
   aeq c (with_cells D2 (imap (fun k _ => with_row E2 (R2 k) (with_row V2 (R1 k) (blank_cell a D2))) c2) a) /\
   (forall d, d <> D2 -> anum d c = anum d a) /\ anum D2 c = length c2 /\
   (forall k p, c2 !! k = Some p -> am_cells c D2 !! k = Some (with_row E2 (R2 k) (with_row V2 (R1 k) (blank_cell a D2)))).
Proof.
  intros He. set (n := length c2). set (new := blank_cell a D2). set (b := with_cells D2 (replicate n new) a).
  assert (Hbn : anum D2 b = n) by (unfold b; rewrite wc_num, decide_True by done; by rewrite replicate_length).
  destruct (does_InitAll V2 (length <$> c2) (b)) as (R1 & HR1 & Hd1); [by rewrite fmap_length, ?amap_num|].
  destruct (does_InitAll E2 (length <$> c2) (amap (set_rows V2 R1) b)) as (R2 & HR2 & Hd2); [by rewrite fmap_length, ?amap_num|].
  exists R1, R2, (amap (set_rows E2 R2) (amap (set_rows V2 R1) b)). split_and!.
  - eapply does_bind; [by apply does_Initialize|]. fold new n b. eapply does_bind; [exact Hd1|]. exact Hd2.
  - intros k p Hk. rewrite <- (HR1 k (length (p.*1))); [done|]. by rewrite list_lookup_fmap, Hk; cbn; rewrite ?fmap_length.
  - intros k p Hk. rewrite <- (HR2 k (length (p.*2))); [done|]. by rewrite list_lookup_fmap, Hk; cbn; rewrite ?fmap_length.
  - apply aeq_intro; [done..| |].
    + intros d. rewrite !amap_num. unfold b. rewrite !wc_num, imap_length, replicate_length. done.
    + intros d i x y. rewrite !amap_lookup. unfold b. rewrite !wc_cells. destruct (decide (D2 = d)) as [<-|E].
      * rewrite list_lookup_imap. destruct (c2 !! i) as [p|] eqn:Hi; [|done].
        rewrite lookup_replicate_2 by (by eapply lookup_lt_Some). cbn. intros [= <-] [= <-]. apply ceq_refl.
      * destruct (am_cells a d !! i) as [z|]; cbn; [|done]. unfold set_rows. cbn [src]. rewrite !(decide_False (P := d = D2)) by congruence.
        intros [= <-] [= <-]. apply ceq_refl.
  - intros d Hd. rewrite !amap_num. unfold b. by rewrite wc_num, decide_False.
  - by rewrite !amap_num.
  - intros k p Hk. rewrite !amap_lookup. unfold b. rewrite wc_same, lookup_replicate_2 by (by eapply lookup_lt_Some). done.
Qed.

Lemma polygons_step (c2 : list (list (N * N))) a c k p x F :
  am_cells c D2 !! k = Some x -> c2 !! k = Some p -> (forall d, d <> D2 -> anum d c = anum d a) -> anum D2 c = length c2 ->
  F D2 k x = x -> length (ac_rel x V2) = length (p.*1) -> length (ac_rel x E2) = length (p.*2) ->
  all_below (anum D0 a) (p.*1) -> all_below (anum D1 a) (p.*2) ->
  does (fun m => (fun m kp => m ← RelInsertList V2 kp.1 (kp.2.*1) m; m ← RelInsertList E2 kp.1 (kp.2.*2) m; SetState D2 kp.1 true m) m (k, p)) (amap F c) (amap (also F D2 k ((fun (_ : nat) (p : list (N * N)) x => with_act true (with_row E2 (p.*2) (with_row V2 (p.*1) x))) k p)) c).
Proof.
  intros Hck Hk Hnn Hn HF L1 L2 B1 B2. rewrite <- (Hnn D0) in B1 by done. rewrite <- (Hnn D1) in B2 by done. cbn [fst snd].
  assert (Hlk : k < anum D2 c) by (rewrite Hn; by eapply lookup_lt_Some).
  eapply does_aeq; [eapply does_bind; [apply (does_Fill F c V2 k (p.*1) _ Hck); [|exact B1]|eapply does_bind; [apply (does_Fill _ c E2 k (p.*2) _ Hck); [|exact B2]|by apply does_State]]|].
  - cbn [src]. rewrite HF. exact L1.
  - cbn [src]. unfold also. rewrite !decide_True by done. rewrite HF. exact L2.
  - apply amap_ext. intros d i z Hz. unfold also. cbn [src]. destruct (decide (d = D2 /\ i = k)) as [E|E]; apply ceq_refl.
Qed.

Lemma polygons_bad (c2 : list (list (N * N))) a c k p x F :
  am_cells c D2 !! k = Some x -> c2 !! k = Some p -> (forall d, d <> D2 -> anum d c = anum d a) -> anum D2 c = length c2 ->
  F D2 k x = x -> length (ac_rel x V2) = length (p.*1) -> length (ac_rel x E2) = length (p.*2) ->
  ~ (all_below (anum D0 a) (p.*1) /\ all_below (anum D1 a) (p.*2)) -> fails (fun m => (fun m kp => m ← RelInsertList V2 kp.1 (kp.2.*1) m; m ← RelInsertList E2 kp.1 (kp.2.*2) m; SetState D2 kp.1 true m) m (k, p)) (amap F c).
Proof.
  intros Hck Hk Hnn Hn HF L1 L2 HB. cbn [fst snd].
  destruct (decide (all_below (anum D0 a) (p.*1))) as [B1|B1];
    [|apply fails_here; apply (fails_Fill _ c V2 k _ x); [done|by rewrite Hnn by done]].
  eapply fails_later; [apply (does_Fill _ c V2 k (p.*1) x Hck); [|cbn [tgt]; by rewrite Hnn by done]|].
  { cbn [src]. rewrite HF. exact L1. }
  destruct (decide (all_below (anum D1 a) (p.*2))) as [B2|B2];
    [|apply fails_here; apply (fails_Fill _ c E2 k _ x); [done|by rewrite Hnn by done]].
  tauto.
Qed.

Lemma stage_polygons c2 a : am_cells a D2 = [] ->
  Forall (fun p => all_below (anum D0 a) (p.*1) /\ all_below (anum D1 a) (p.*2)) c2 ->
  does (fill_polygons c2) a (with_cells D2 (polygon_cell (length (am_names a D2)) <$> c2) a).
Proof.
  intros He Hb. unfold fill_polygons. destruct (polygons_init c2 a He) as (R1 & R2 & c & Hd & L1 & L2 & Hc & Hnn & Hn & Hcl).
  eapply does_ext with (Q := fun m => m' ← (m ← Ok (CellsInitialize D2 (length c2) m); m ← RelInitAll V2 (length <$> c2) m; RelInitAll E2 (length <$> c2) m); ofold (fun m kp => m ← RelInsertList V2 kp.1 (kp.2.*1) m; m ← RelInsertList E2 kp.1 (kp.2.*2) m; SetState D2 kp.1 true m) (imap pair c2) m');
    [intros m _; cbn [mbind outcome_bind]; repeat (match goal with |- context [RelInitAll ?r ?l ?m] => destruct (RelInitAll r l m) end; cbn [mbind outcome_bind]; try done)|].
  eapply does_bind; [exact Hd|]. rewrite Forall_lookup in Hb. eapply does_aeq.
  - apply (does_each D2 (fun (_ : nat) (p : list (N * N)) x => with_act true (with_row E2 (p.*2) (with_row V2 (p.*1) x)))); [done|]. intros k p x F Hk Hx HF. destruct (Hb k p Hk) as [B1 B2].
    apply (polygons_step c2 a c k p x F); try done; pose proof (Hcl k p Hk) as E; rewrite Hx in E; injection E as ->.
    + by apply L1.
    + by apply L2.
  - apply aeq_intro; [by destruct Hc|by destruct Hc as (_ & ? & _)| |].
    + intros d. rewrite !wc_num. rewrite imap_length, fmap_length. fold (anum D2 c). rewrite Hn. case_decide; [done|]. by apply Hnn.
    + intros d i x y. rewrite !wc_cells. case_decide as E.
      * subst d. rewrite list_lookup_imap, list_lookup_fmap. destruct (c2 !! i) as [p|] eqn:Hi; [|by destruct (am_cells c D2 !! i)].
        rewrite (Hcl i p Hi). cbn [fmap option_fmap option_map]. intros [= <-] [= <-].
        unfold polygon_cell. unfold ceq. split_and!; [done..| |done]. intros r. cbn. unfold upd_fun. repeat case_decide; done.
      * intros Hx Hy. destruct Hc as (_ & _ & Hc). specialize (Hc d). rewrite wc_other in Hc by done. by eapply Forall2_lookup_lr.
Qed.

Lemma polygons_fail (c2 : list (list (N * N))) a : am_cells a D2 = [] ->
  ~ Forall (fun p => all_below (anum D0 a) (p.*1) /\ all_below (anum D1 a) (p.*2)) c2 -> fails (fill_polygons c2) a.
Proof.
  intros He Hb. unfold fill_polygons. destruct (polygons_init c2 a He) as (R1 & R2 & c & Hd & L1 & L2 & Hc & Hnn & Hn & Hcl).
  assert (Hf : fails (fun m => m' ← (m ← Ok (CellsInitialize D2 (length c2) m); m ← RelInitAll V2 (length <$> c2) m; RelInitAll E2 (length <$> c2) m); ofold (fun m kp => m ← RelInsertList V2 kp.1 (kp.2.*1) m; m ← RelInsertList E2 kp.1 (kp.2.*2) m; SetState D2 kp.1 true m) (imap pair c2) m') a).
  { eapply fails_later; [exact Hd|]. apply (fails_each D2 (fun (_ : nat) (p : list (N * N)) x => with_act true (with_row E2 (p.*2) (with_row V2 (p.*1) x))) _ (fun p => all_below (anum D0 a) (p.*1) /\ all_below (anum D1 a) (p.*2)) _ _ Hn); [intros; apply _| | |done].
    - intros k p x F Hk Hx HF [B1 B2].
      apply (polygons_step c2 a c k p x F); try done; pose proof (Hcl k p Hk) as E; rewrite Hx in E; injection E as ->.
      + by apply L1.
      + by apply L2.
    - intros k p x F Hk Hx HF B.
      apply (polygons_bad c2 a c k p x F); try done; pose proof (Hcl k p Hk) as E; rewrite Hx in E; injection E as ->.
      + by apply L1.
      + by apply L2.
  }
  intros m Hm. rewrite <- (Hf m Hm). cbn [mbind outcome_bind].
  repeat (match goal with |- context [RelInitAll ?r ?l ?m] => destruct (RelInitAll r l m) end; cbn [mbind outcome_bind]; try done).
Qed.

Lemma polyhedra_init (c3 : list polyhedron) a : am_cells a D3 = [] ->
  exists R1 R2 R3 c, does (fun m => m ← Ok (CellsInitialize D3 (length c3) m); m ← RelInitAll V3 (length ∘ ph_v <$> c3) m; m ← RelInitAll E3 (length ∘ ph_e <$> c3) m; RelInitAll F3 (length ∘ ph_f <$> c3) m) a c /\
   (forall k p, c3 !! k = Some p -> length (R1 k) = length (ph_v p)) /\
   (forall k p, c3 !! k = Some p -> length (R2 k) = length (ph_e p)) /\
   (forall k p, c3 !! k = Some p -> length (R3 k) = length (ph_f p)) /\
   aeq c (with_cells D3 (imap (fun k _ => with_row F3 (R3 k) (with_row E3 (R2 k) (with_row V3 (R1 k) (blank_cell a D3)))) c3) a) /\
   (forall d, d <> D3 -> anum d c = anum d a) /\ anum D3 c = length c3 /\
   (forall k p, c3 !! k = Some p -> am_cells c D3 !! k = Some (with_row F3 (R3 k) (with_row E3 (R2 k) (with_row V3 (R1 k) (blank_cell a D3))))).
Proof.
  intros He. set (n := length c3). set (new := blank_cell a D3). set (b := with_cells D3 (replicate n new) a).
  assert (Hbn : anum D3 b = n) by (unfold b; rewrite wc_num, decide_True by done; by rewrite replicate_length).
  destruct (does_InitAll V3 (length ∘ ph_v <$> c3) (b)) as (R1 & HR1 & Hd1); [by rewrite fmap_length, ?amap_num|].
  destruct (does_InitAll E3 (length ∘ ph_e <$> c3) (amap (set_rows V3 R1) b)) as (R2 & HR2 & Hd2); [by rewrite fmap_length, ?amap_num|].
  destruct (does_InitAll F3 (length ∘ ph_f <$> c3) (amap (set_rows E3 R2) (amap (set_rows V3 R1) b))) as (R3 & HR3 & Hd3); [by rewrite fmap_length, ?amap_num|].
  exists R1, R2, R3, (amap (set_rows F3 R3) (amap (set_rows E3 R2) (amap (set_rows V3 R1) b))). split_and!.
  - eapply does_bind; [by apply does_Initialize|]. fold new n b. eapply does_bind; [exact Hd1|]. eapply does_bind; [exact Hd2|]. exact Hd3.
  - intros k p Hk. rewrite <- (HR1 k (length (ph_v p))); [done|]. by rewrite list_lookup_fmap, Hk; cbn; rewrite ?fmap_length.
  - intros k p Hk. rewrite <- (HR2 k (length (ph_e p))); [done|]. by rewrite list_lookup_fmap, Hk; cbn; rewrite ?fmap_length.
  - intros k p Hk. rewrite <- (HR3 k (length (ph_f p))); [done|]. by rewrite list_lookup_fmap, Hk; cbn; rewrite ?fmap_length.
  - apply aeq_intro; [done..| |].
    + intros d. rewrite !amap_num. unfold b. rewrite !wc_num, imap_length, replicate_length. done.
    + intros d i x y. rewrite !amap_lookup. unfold b. rewrite !wc_cells. destruct (decide (D3 = d)) as [<-|E].
      * rewrite list_lookup_imap. destruct (c3 !! i) as [p|] eqn:Hi; [|done].
        rewrite lookup_replicate_2 by (by eapply lookup_lt_Some). cbn. intros [= <-] [= <-]. apply ceq_refl.
      * destruct (am_cells a d !! i) as [z|]; cbn; [|done]. unfold set_rows. cbn [src]. rewrite !(decide_False (P := d = D3)) by congruence.
        intros [= <-] [= <-]. apply ceq_refl.
  - intros d Hd. rewrite !amap_num. unfold b. by rewrite wc_num, decide_False.
  - by rewrite !amap_num.
  - intros k p Hk. rewrite !amap_lookup. unfold b. rewrite wc_same, lookup_replicate_2 by (by eapply lookup_lt_Some). done.
Qed.

Lemma polyhedra_step (c3 : list polyhedron) a c k p x F :
  am_cells c D3 !! k = Some x -> c3 !! k = Some p -> (forall d, d <> D3 -> anum d c = anum d a) -> anum D3 c = length c3 ->
  F D3 k x = x -> length (ac_rel x V3) = length (ph_v p) -> length (ac_rel x E3) = length (ph_e p) -> length (ac_rel x F3) = length (ph_f p) ->
  all_below (anum D0 a) (ph_v p) -> all_below (anum D1 a) (ph_e p) -> all_below (anum D2 a) (ph_f p) ->
  does (fun m => (fun m kp => m ← RelInsertList V3 kp.1 (ph_v kp.2) m; m ← RelInsertList E3 kp.1 (ph_e kp.2) m; m ← RelInsertList F3 kp.1 (ph_f kp.2) m; SetState D3 kp.1 true m) m (k, p)) (amap F c) (amap (also F D3 k ((fun (_ : nat) (p : polyhedron) x => with_act true (with_row F3 (ph_f p) (with_row E3 (ph_e p) (with_row V3 (ph_v p) x)))) k p)) c).
Proof.
  intros Hck Hk Hnn Hn HF L1 L2 L3 B1 B2 B3. rewrite <- (Hnn D0) in B1 by done. rewrite <- (Hnn D1) in B2 by done. rewrite <- (Hnn D2) in B3 by done. cbn [fst snd].
  assert (Hlk : k < anum D3 c) by (rewrite Hn; by eapply lookup_lt_Some).
  eapply does_aeq; [eapply does_bind; [apply (does_Fill F c V3 k (ph_v p) _ Hck); [|exact B1]|eapply does_bind; [apply (does_Fill _ c E3 k (ph_e p) _ Hck); [|exact B2]|eapply does_bind; [apply (does_Fill _ c F3 k (ph_f p) _ Hck); [|exact B3]|by apply does_State]]]|].
  - cbn [src]. rewrite HF. exact L1.
  - cbn [src]. unfold also. rewrite !decide_True by done. rewrite HF. exact L2.
  - cbn [src]. unfold also. rewrite !decide_True by done. rewrite HF. exact L3.
  - apply amap_ext. intros d i z Hz. unfold also. cbn [src]. destruct (decide (d = D3 /\ i = k)) as [E|E]; apply ceq_refl.
Qed.

Lemma polyhedra_bad (c3 : list polyhedron) a c k p x F :
  am_cells c D3 !! k = Some x -> c3 !! k = Some p -> (forall d, d <> D3 -> anum d c = anum d a) -> anum D3 c = length c3 ->
  F D3 k x = x -> length (ac_rel x V3) = length (ph_v p) -> length (ac_rel x E3) = length (ph_e p) -> length (ac_rel x F3) = length (ph_f p) ->
  ~ (all_below (anum D0 a) (ph_v p) /\ all_below (anum D1 a) (ph_e p) /\ all_below (anum D2 a) (ph_f p)) -> fails (fun m => (fun m kp => m ← RelInsertList V3 kp.1 (ph_v kp.2) m; m ← RelInsertList E3 kp.1 (ph_e kp.2) m; m ← RelInsertList F3 kp.1 (ph_f kp.2) m; SetState D3 kp.1 true m) m (k, p)) (amap F c).
Proof.
  intros Hck Hk Hnn Hn HF L1 L2 L3 HB. cbn [fst snd].
  destruct (decide (all_below (anum D0 a) (ph_v p))) as [B1|B1];
    [|apply fails_here; apply (fails_Fill _ c V3 k _ x); [done|by rewrite Hnn by done]].
  eapply fails_later; [apply (does_Fill _ c V3 k (ph_v p) x Hck); [|cbn [tgt]; by rewrite Hnn by done]|].
  { cbn [src]. rewrite HF. exact L1. }
  destruct (decide (all_below (anum D1 a) (ph_e p))) as [B2|B2];
    [|apply fails_here; apply (fails_Fill _ c E3 k _ x); [done|by rewrite Hnn by done]].
  eapply fails_later; [apply (does_Fill _ c E3 k (ph_e p) x Hck); [|cbn [tgt]; by rewrite Hnn by done]|].
  { cbn [src]. unfold also. rewrite !decide_True by done. rewrite HF. exact L2. }
  destruct (decide (all_below (anum D2 a) (ph_f p))) as [B3|B3];
    [|apply fails_here; apply (fails_Fill _ c F3 k _ x); [done|by rewrite Hnn by done]].
  tauto.
Qed.

Lemma stage_polyhedra c3 a : am_cells a D3 = [] ->
  Forall (fun p => all_below (anum D0 a) (ph_v p) /\ all_below (anum D1 a) (ph_e p) /\ all_below (anum D2 a) (ph_f p)) c3 ->
  does (fill_polyhedra c3) a (with_cells D3 (polyhedron_cell (length (am_names a D3)) <$> c3) a).
Proof.
  intros He Hb. unfold fill_polyhedra. destruct (polyhedra_init c3 a He) as (R1 & R2 & R3 & c & Hd & L1 & L2 & L3 & Hc & Hnn & Hn & Hcl).
  eapply does_ext with (Q := fun m => m' ← (m ← Ok (CellsInitialize D3 (length c3) m); m ← RelInitAll V3 (length ∘ ph_v <$> c3) m; m ← RelInitAll E3 (length ∘ ph_e <$> c3) m; RelInitAll F3 (length ∘ ph_f <$> c3) m); ofold (fun m kp => m ← RelInsertList V3 kp.1 (ph_v kp.2) m; m ← RelInsertList E3 kp.1 (ph_e kp.2) m; m ← RelInsertList F3 kp.1 (ph_f kp.2) m; SetState D3 kp.1 true m) (imap pair c3) m');
    [intros m _; cbn [mbind outcome_bind]; repeat (match goal with |- context [RelInitAll ?r ?l ?m] => destruct (RelInitAll r l m) end; cbn [mbind outcome_bind]; try done)|].
  eapply does_bind; [exact Hd|]. rewrite Forall_lookup in Hb. eapply does_aeq.
  - apply (does_each D3 (fun (_ : nat) (p : polyhedron) x => with_act true (with_row F3 (ph_f p) (with_row E3 (ph_e p) (with_row V3 (ph_v p) x))))); [done|]. intros k p x F Hk Hx HF. destruct (Hb k p Hk) as (B1 & B2 & B3).
    apply (polyhedra_step c3 a c k p x F); try done; pose proof (Hcl k p Hk) as E; rewrite Hx in E; injection E as ->.
    + by apply L1.
    + by apply L2.
    + by apply L3.
  - apply aeq_intro; [by destruct Hc|by destruct Hc as (_ & ? & _)| |].
    + intros d. rewrite !wc_num. rewrite imap_length, fmap_length. fold (anum D3 c). rewrite Hn. case_decide; [done|]. by apply Hnn.
    + intros d i x y. rewrite !wc_cells. case_decide as E.
      * subst d. rewrite list_lookup_imap, list_lookup_fmap. destruct (c3 !! i) as [p|] eqn:Hi; [|by destruct (am_cells c D3 !! i)].
        rewrite (Hcl i p Hi). cbn [fmap option_fmap option_map]. intros [= <-] [= <-].
        unfold polyhedron_cell. unfold ceq. split_and!; [done..| |done]. intros r. cbn. unfold upd_fun. repeat case_decide; done.
      * intros Hx Hy. destruct Hc as (_ & _ & Hc). specialize (Hc d). rewrite wc_other in Hc by done. by eapply Forall2_lookup_lr.
Qed.

Lemma polyhedra_fail (c3 : list polyhedron) a : am_cells a D3 = [] ->
  ~ Forall (fun p => all_below (anum D0 a) (ph_v p) /\ all_below (anum D1 a) (ph_e p) /\ all_below (anum D2 a) (ph_f p)) c3 -> fails (fill_polyhedra c3) a.
Proof.
  intros He Hb. unfold fill_polyhedra. destruct (polyhedra_init c3 a He) as (R1 & R2 & R3 & c & Hd & L1 & L2 & L3 & Hc & Hnn & Hn & Hcl).
  assert (Hf : fails (fun m => m' ← (m ← Ok (CellsInitialize D3 (length c3) m); m ← RelInitAll V3 (length ∘ ph_v <$> c3) m; m ← RelInitAll E3 (length ∘ ph_e <$> c3) m; RelInitAll F3 (length ∘ ph_f <$> c3) m); ofold (fun m kp => m ← RelInsertList V3 kp.1 (ph_v kp.2) m; m ← RelInsertList E3 kp.1 (ph_e kp.2) m; m ← RelInsertList F3 kp.1 (ph_f kp.2) m; SetState D3 kp.1 true m) (imap pair c3) m') a).
  { eapply fails_later; [exact Hd|]. apply (fails_each D3 (fun (_ : nat) (p : polyhedron) x => with_act true (with_row F3 (ph_f p) (with_row E3 (ph_e p) (with_row V3 (ph_v p) x)))) _ (fun p => all_below (anum D0 a) (ph_v p) /\ all_below (anum D1 a) (ph_e p) /\ all_below (anum D2 a) (ph_f p)) _ _ Hn); [intros; apply _| | |done].
    - intros k p x F Hk Hx HF (B1 & B2 & B3).
      apply (polyhedra_step c3 a c k p x F); try done; pose proof (Hcl k p Hk) as E; rewrite Hx in E; injection E as ->.
      + by apply L1.
      + by apply L2.
      + by apply L3.
    - intros k p x F Hk Hx HF B.
      apply (polyhedra_bad c3 a c k p x F); try done; pose proof (Hcl k p Hk) as E; rewrite Hx in E; injection E as ->.
      + by apply L1.
      + by apply L2.
      + by apply L3.
  }
  intros m Hm. rewrite <- (Hf m Hm). cbn [mbind outcome_bind].
  repeat (match goal with |- context [RelInitAll ?r ?l ?m] => destruct (RelInitAll r l m) end; cbn [mbind outcome_bind]; try done).
Qed.

