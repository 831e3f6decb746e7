(** * Joining edges in a mesh: the new edge. *)
From Coq Require Import ZifyBool ZifyNat ZifyN.
From Verif Require Import Base BaseProof CsrModel MeshModel MeshSpec MeshRep MeshHist MeshProof MeshProof8 MeshProof9 MeshProg UtilProofD FillProofA
  JoinModel JoinSpec JoinProof JoinMesh.
Local Open Scope nat_scope.

Lemma filter_same {X} (P Q : X -> Prop) `{!forall x, Decision (P x)} `{!forall x, Decision (Q x)} (l : list X) :
  (forall x, x ∈ l -> P x <-> Q x) -> filter P l = filter Q l.
Proof.
  induction l as [|x l IH]; intros HPQ; [done|]. rewrite !filter_cons, IH by (intros y Y; apply HPQ; by right).
  destruct (HPQ x) as [H1 H2]; [by left|]. repeat case_decide; tauto.
Qed.

Lemma other_edges_ok m es v row : reachable m -> RelRow R01 v m = Ok row -> forall n j l, j + n = length row ->
  ofold (other_edges es v m) (seq j n) l = Ok (l ++ others es m (drop j row)).
Proof.
  intros RM H. destruct (row_reads m RM _ _ _ H) as [_ RD]. induction n as [|n IH]; intros j l L.
  - rewrite drop_ge by lia. cbn. by rewrite app_nil_r.
  - cbn [seq ofold]. destruct (lookup_lt_is_Some_2 row j) as [q Q]; [lia|]. rewrite (drop_S _ _ _ Q). unfold others. rewrite filter_cons. fold (others es m (drop (S j) row)).
    assert (other_edges es v m l j = Ok (if decide ((q < N.of_nat (num D1 m))%N /\ q ∉ es) then l ++ [q] else l)) as ->.
    { unfold other_edges. destruct (RD j q Q) as [-> ->]. cbn [mbind outcome_bind tgt]. destruct (N.ltb_spec q (N.of_nat (num D1 m))).
      - case_bool_decide; case_decide; tauto.
      - rewrite decide_False by lia. done. }
    cbn [mbind outcome_bind]. rewrite IH by lia. case_decide; [by rewrite <- app_assoc|done].
Qed.

Section tail.
Context (a : amesh) (m0 : mesh) (R0 : rr m0 a) (es : list N) (EL : forall e, e ∈ es -> is_cell D1 m0 e).
Notation c := (anum D1 a).
Notation b := (aappend D1 1 a).
Context (p q : N).

Definition fresh (k : N) (ps ss : list N) (x : acell) : acell :=
  with_row R13 ss (with_row R12 ps (with_act true (with_mark k (with_geo [p; q] x)))).
Definition newF (k : N) (ps ss : list N) (d : dim) (i : nat) (x : acell) : acell :=
  if decide (d = D1 /\ i = c) then fresh k ps ss x else off es d i x.

Lemma new_x x : am_cells b D1 !! c = Some x -> x = new_cell D1 (length (am_names a D1)).
Proof. rewrite aappend_new by lia. by intros [= <-]. Qed.
Lemma c_new : N.of_nat c ∉ es.
Proof. intros I%EL. unfold is_cell in I. rewrite (g_num _ _ (proj2 R0)) in I. lia. Qed.
Lemma off_c x : off es D1 c x = x.
Proof. unfold off. rewrite decide_False; [done|]. intros [_ I]. by apply c_new. Qed.

Lemma start_ok k : does (fun m => m ← Cell1DInsertExtremes c p q m; m ← SetMarker D1 c k m; SetState D1 c true m) (amap (off es) b) (amap (newF k [] []) b).
Proof.
  pose proof (c_lt a) as CL. eapply does_aeq.
  - eapply does_bind; [apply does_Extremes; exact CL|]. eapply does_bind; [apply does_Marker; exact CL|]. apply does_State; exact CL.
  - apply amap_ext. intros d i x X. unfold also, newF. destruct (decide (d = D1 /\ i = c)) as [[-> ->]|NE]; [|apply ceq_refl].
    rewrite off_c. apply new_x in X as ->. repeat split. intros r. cbn. unfold upd_fun. repeat case_decide; done.
Qed.

Lemma row_layer k ps ss ps' ss' r : (r = R12 /\ ss' = ss) \/ (r = R13 /\ ps' = ps) ->
  aeq (amap (also (newF k ps ss) D1 c (with_row r (if decide (r = R12) then ps' else ss'))) b) (amap (newF k ps' ss') b).
Proof.
  intros H. apply amap_ext. intros d i x X. unfold also, newF. destruct (decide (d = D1 /\ i = c)) as [[-> ->]|NE]; [|apply ceq_refl].
  repeat split. intros r'. unfold fresh. destruct H as [[-> ->]|[-> ->]]; cbn; unfold upd_fun; repeat case_decide; subst; try done.
Qed.

(** The polygons around the new edge. *)
Definition side_step (row : list N) (pn : N * nat) : list N := <[pn.2 := pn.1]> row.
Lemma side_rows l row : length (foldl side_step row l) = length row.
Proof. revert row. induction l as [|pn l IH]; intros row; [done|]. cbn. rewrite IH. apply insert_length. Qed.
Lemma side_reads l row k y : (forall pn, pn ∈ l -> pn.2 < length row) -> (forall x y n, (x, n) ∈ l -> (y, n) ∈ l -> x = y) ->
  foldl side_step row l !! k = Some y <-> (y, k) ∈ l \/ (row !! k = Some y /\ forall x, (x, k) ∉ l).
Proof.
  induction l as [|[x n] l IH] using rev_ind; intros B U.
  { cbn. split; [intros H; right; split; [done|]; intros x I%elem_of_nil; done|]. intros [I%elem_of_nil|[H _]]; done. }
  rewrite foldl_app. cbn [foldl].
  assert (n < length row) as NL. { apply (B (x, n)). apply elem_of_app. right. by left. }
  pose proof (side_rows l row) as LL. unfold side_step at 1. cbn [fst snd].
  assert (forall z, (z, n) ∈ l -> z = x) as UX. { intros z Z. apply (U z x n); apply elem_of_app; [by left|right; by left]. }
  destruct (decide (n = k)) as [-> |NE].
  - rewrite list_lookup_insert by lia. split.
    + intros [= <-]. left. apply elem_of_app. right. by left.
    + intros [[I|[= ->]%elem_of_list_singleton]%elem_of_app|[_ H]]; [by rewrite (UX y I)|done|].
      exfalso. apply (H x). apply elem_of_app. right. by left.
  - rewrite list_lookup_insert_ne by done. rewrite IH.
    + assert (forall z, (z, k) ∈ l ++ [(x, n)] <-> (z, k) ∈ l) as EQ.
      { intros z. rewrite elem_of_app, elem_of_list_singleton. split; [intros [?|[= -> ->]]; done|tauto]. }
      rewrite EQ. setoid_rewrite EQ. done.
    + intros pn I. apply B. apply elem_of_app. by left.
    + intros x1 x2 n1 I1 I2. apply (U x1 x2 n1); apply elem_of_app; by left.
Qed.

Lemma sides_ok k ss l : (forall pn, pn ∈ l -> pn.2 < 2 /\ is_cell D2 m0 pn.1) ->
  does (fun m => m ← RelInitOne R12 c 2 m; ofold (fun m pn => RelInsert R12 c pn.2 pn.1 m) l m) (amap (newF k [] ss) b)
    (amap (newF k (foldl side_step [UINT_MAX; UINT_MAX] l) ss) b).
Proof.
  intros H. pose proof (c_lt a) as CL. eapply does_bind.
  { eapply does_aeq; [apply does_InitOne; [exact CL|done]|].
    eapply (aeq_trans _ (amap (newF k [UINT_MAX; UINT_MAX] ss) b)); [|apply aeq_refl].
    apply amap_ext. intros d i x X. cbn [src]. unfold also, newF. destruct (decide (d = D1 /\ i = c)) as [[-> ->]|NE]; [|apply ceq_refl].
    repeat split. intros r'. unfold fresh. cbn. unfold upd_fun. repeat case_decide; subst; done. }
  pose proof (does_loop (fun m pn => RelInsert R12 c pn.2 pn.1 m) l (fun i => amap (newF k (foldl side_step [UINT_MAX; UINT_MAX] (take i l)) ss) b)) as D.
  cbn beta in D. rewrite firstn_all in D. apply D. intros i pn PN. rewrite (take_S_r _ _ _ PN), foldl_app. cbn [foldl].
  destruct (H pn ltac:(by eapply elem_of_list_lookup_2)) as [P1 P2]. unfold is_cell in P2. rewrite (g_num _ _ (proj2 R0)) in P2.
  eapply does_aeq.
  - eapply (does_Insert _ _ R12); [apply aappend_new; cbn [src]; lia| |].
    + cbn [src]. unfold newF. rewrite decide_True by done. unfold fresh. cbn -[foldl]. unfold upd_fun. rewrite decide_False, decide_True by done. rewrite side_rows. done.
    + cbn [tgt]. rewrite num_b, decide_False by done. lia.
  - apply amap_ext. intros d j x X. cbn [src]. unfold also, newF. destruct (decide (d = D1 /\ j = c)) as [[-> ->]|NE]; [|apply ceq_refl].
    repeat split. intros r'. unfold fresh, side_step. cbn. unfold upd_fun. repeat case_decide; subst; done.
Qed.

Definition row_update (row : list N) (y : acell) : acell :=
  if decide (others es m0 row = []) then y else with_row R01 (others es m0 row ++ [N.of_nat c]) y.

Lemma end_ok F v k x row : (forall m, rr m (amap F b) -> Cell1DVertex c k m = Ok v) ->
  am_cells a D0 !! N.to_nat v = Some x -> row_of R01 (F D0 (N.to_nat v) x) = row -> N.of_nat c ∉ row ->
  does (fun m => update_end es c m k) (amap F b) (amap (also F D0 (N.to_nat v) (row_update row)) b).
Proof.
  intros V X RW CN. pose proof (lookup_lt_Some _ _ _ X) as XL. fold (anum D0 a) in XL.
  assert (forall m, rr m (amap F b) -> update_end es c m k = match others es m0 row with [] => Ok m | l => RelAdd R01 (N.to_nat v) (l ++ [N.of_nat c]) m end) as E.
  { intros m R. unfold update_end. rewrite (V m R). cbn [mbind outcome_bind].
    assert (RelRow R01 (N.to_nat v) m = Ok row) as H. { rewrite (g_row _ _ (proj2 R)). unfold look. cbn [src]. rewrite amap_lookup, aappend_old, X by done. cbn. by rewrite RW. }
    rewrite (proj1 (row_reads m (proj1 R) _ _ _ H)). cbn [mbind outcome_bind]. rewrite Nat2N.id.
    rewrite (other_edges_ok m es _ _ (proj1 R) H _ 0 []) by done. cbn [mbind outcome_bind app]. rewrite drop_0.
    assert (others es m row = others es m0 row) as ->; [|by destruct (others es m0 row)].
    unfold others. apply filter_same. intros e I. rewrite (g_num _ _ (proj2 R)), (g_num _ _ (proj2 R0)), amap_num, num_b, decide_True by done.
    split; intros [? ?]; (split; [|done]); [|lia]. assert (e <> N.of_nat c) by (by intros ->). lia. }
  eapply does_ext; [exact E|]. destruct (others es m0 row) as [|e l] eqn:O.
  - eapply does_aeq; [apply does_ret|]. apply amap_ext. intros d i y Y. unfold also, row_update. rewrite O. rewrite (decide_True (P := @nil N = [])) by done. case_decide; apply ceq_refl.
  - eapply does_aeq.
    + apply (does_Add F b R01 (N.to_nat v)); [cbn [src]; rewrite num_b; lia|done|]. cbn [tgt]. rewrite num_b, decide_True by done.
      apply Forall_app. split.
      * rewrite <- O. apply Forall_forall. intros e' I. unfold others in I. apply elem_of_list_filter in I as [[I _] _]. rewrite (g_num _ _ (proj2 R0)) in I. lia.
      * constructor; [lia|constructor].
    + apply amap_ext. intros d i y Y. cbn [src]. unfold also, row_update. rewrite O. rewrite (decide_False (P := e :: l = [])) by done. case_decide; apply ceq_refl.
Qed.

Definition goneF (F : dim -> nat -> acell -> acell) (l : list N) (d : dim) (i : nat) (x : acell) : acell :=
  if decide (d = D0 /\ N.of_nat i ∈ l) then with_act false (F d i x) else F d i x.
Lemma gone_ok F l : Forall (is_cell D0 m0) l -> does (ofold (fun m v => SetState D0 (N.to_nat v) false m) l) (amap F b) (amap (goneF F l) b).
Proof.
  intros H. eapply does_aeq_l.
  { apply (amap_ext F (goneF F [])). intros d i x X. unfold goneF. rewrite decide_False; [apply ceq_refl|]. intros [_ I%elem_of_nil]. done. }
  pose proof (does_loop (fun m v => SetState D0 (N.to_nat v) false m) l (fun i => amap (goneF F (take i l)) b)) as D.
  cbn beta in D. rewrite firstn_all in D. apply D. intros k v V. rewrite (take_S_r _ _ _ V).
  eapply Forall_lookup_1 in H; [|exact V]. unfold is_cell in H. rewrite (g_num _ _ (proj2 R0)) in H.
  eapply does_aeq; [apply does_State; rewrite num_b; lia|]. apply amap_ext. intros d i x X. unfold also, goneF.
  destruct (decide (d = D0 /\ i = N.to_nat v)) as [[-> ->]|NE].
  - rewrite N2Nat.id. rewrite (decide_True (P := D0 = D0 /\ v ∈ take k l ++ [v])); [|split; [done|]; apply elem_of_app; right; by left].
    case_decide; apply ceq_refl.
  - destruct (decide (d = D0 /\ N.of_nat i ∈ take k l)) as [[-> I]|NI].
    + rewrite decide_True; [apply ceq_refl|]. split; [done|]. apply elem_of_app. by left.
    + rewrite decide_False; [apply ceq_refl|]. intros [-> [I|I%elem_of_list_singleton]%elem_of_app]; [tauto|]. apply NE. split; [done|lia].
Qed.
End tail.
