(** Building meshes: C15. *)
From Coq Require Import QArith Qcanon.
From Verif Require Import Base BaseProof CsrModel CsrSpec CsrProof MeshModel MeshSpec MeshRep MeshHist
  MeshProof MeshProof2 MeshProof3 MeshProof4 MeshProof5 MeshProof6 MeshProof7 MeshProof8 MeshProof9 MeshProofA MeshProofB
  MeshProg UtilModel UtilProofD FillModel FillSpec FillProofA.
From Coq Require Import ZifyBool ZifyNat ZifyN.
Local Open Scope nat_scope.

Lemma edges_fail c1 a : am_cells a D1 = [] ->
  ~ (all_below (anum D0 a) (c1.*1) /\ all_below (anum D0 a) (c1.*2)) -> fails (fill_edges c1) a.
Proof.
  intros He Hb.
  assert (Hf : fails (fun m => m ← Ok (CellsInitialize D1 (length c1) m); m ← Cell1DsInsertExtremes c1 m; activate D1 (length c1) m) a); [|done].
  eapply fails_later; [by apply does_Initialize|]. apply fails_here.
  apply (fails_step _ (OAllExtremes c1)); [done|]. cbn [astep]. apply decide_False. rewrite !wc_num. rewrite !(decide_False (P := D1 = D0)) by done. tauto.
Qed.

(** The mesh made of given cells. *)
Section built.
Context (names : dim -> list string) (c0 : list (N * N * N)) (c1 : list (N * N)) (c2 : list (list (N * N))) (c3 : list polyhedron).

Definition built_cells (d : dim) : list acell :=
  match d with
  | D0 => point_cell (length (names D0)) <$> c0
  | D1 => edge_cell (length (names D1)) <$> c1
  | D2 => polygon_cell (length (names D2)) <$> c2
  | D3 => polyhedron_cell (length (names D3)) <$> c3
  end.
Definition built (n : nat) : amesh := AMesh n built_cells names.

Definition with_marks (act : dim -> nat -> bool) (mark : dim -> nat -> N) : dim -> nat -> acell -> acell :=
  fun d i x => with_act (act d i) (with_mark (mark d i) x).

Lemma built_num n d : anum d (built n) = match d with D0 => length c0 | D1 => length c1 | D2 => length c2 | D3 => length c3 end.
Proof. destruct d; unfold anum; cbn; by rewrite fmap_length. Qed.

Definition fits : Prop :=
  (N.of_nat (length c0) <= UINT_MAX /\ N.of_nat (length c1) <= UINT_MAX /\ N.of_nat (length c2) <= UINT_MAX /\
   N.of_nat (length c3) <= UINT_MAX)%N.

Lemma built_plain n act mark m d :
  fits -> represents m (amap (with_marks act mark) (built n)) ->
  plain_cells d (anum d (built n)) (act d) (mark d) m.
Proof.
  intros (F0 & F1 & F2 & F3) R. split; [rewrite (g_num _ _ R); by rewrite amap_num|].
  intros i Hi. destruct (lookup_lt_is_Some_2 (am_cells (built n) d) i Hi) as [x Hx].
  assert (Hb : ac_upd x = None /\ ac_orig x = UINT_MAX).
  { destruct d; cbn in Hx; apply list_lookup_fmap_inv in Hx as (c & -> & _); done. }
  destruct Hb as [Hu Ho].
  rewrite (g_active _ _ R), (g_marker _ _ R), (g_hasupdateds _ _ R). unfold look. rewrite amap_lookup, Hx. cbn. rewrite Hu.
  split_and!; [done..|]. intros Hd. rewrite (g_hasoriginal _ _ R) by done. rewrite amap_num. unfold look. rewrite amap_lookup, Hx.
  cbn [fmap option_fmap option_map]. change (ac_orig (with_marks act mark d i x)) with (ac_orig x). rewrite Ho. f_equal. apply N.ltb_ge. rewrite built_num. destruct d; done.
Qed.

Lemma built_reads n act mark m :
  fits -> represents m (amap (with_marks act mark) (built n)) -> reads_back c0 c1 c2 c3 act mark m.
Proof.
  intros Hf R.
  assert (P : forall d, plain_cells d (anum d (built n)) (act d) (mark d) m) by (intros d; by apply built_plain).
  assert (L : forall d i x, built_cells d !! i = Some x -> am_cells (amap (with_marks act mark) (built n)) d !! i = Some (with_marks act mark d i x)).
  { intros d i x Hx. rewrite amap_lookup. cbn. by rewrite Hx. }
  split_and!.
  - specialize (P D0). by rewrite built_num in P.
  - specialize (P D1). by rewrite built_num in P.
  - specialize (P D2). by rewrite built_num in P.
  - specialize (P D3). by rewrite built_num in P.
  - intros i p Hp. rewrite (g_coord _ _ R). unfold look. rewrite (L D0 i (point_cell (length (names D0)) p)) by (cbn; by rewrite list_lookup_fmap, Hp).
    by destruct p as [[? ?] ?].
  - intros i p Hp. rewrite (g_origin _ _ R), (g_end _ _ R). unfold look.
    rewrite (L D1 i (edge_cell (length (names D1)) p)) by (cbn; by rewrite list_lookup_fmap, Hp). done.
  - intros i p Hp. rewrite !(g_row _ _ R). unfold look. cbn [src].
    rewrite (L D2 i (polygon_cell (length (names D2)) p)) by (cbn; by rewrite list_lookup_fmap, Hp). done.
  - intros i p Hp. rewrite !(g_row _ _ R). unfold look. cbn [src].
    rewrite (L D3 i (polyhedron_cell (length (names D3)) p)) by (cbn; by rewrite list_lookup_fmap, Hp). done.
  - intros r i Hr Hi. rewrite (g_row _ _ R). rewrite (g_num _ _ R), amap_num in Hi. unfold look.
    destruct (lookup_lt_is_Some_2 (am_cells (built n) (src r)) i Hi) as [x Hx]. rewrite (L _ _ _ Hx).
    set_unfold in Hr. destruct_or! Hr; subst r; cbn in Hx; apply list_lookup_fmap_inv in Hx as (c & -> & _); done.
Qed.

Lemma built_marks0 n : aeq (built n) (amap (with_marks (fun _ _ => true) (fun _ _ => 0%N)) (built n)).
Proof.
  apply aeq_intro; [done..| |].
  - intros d. by rewrite amap_num.
  - intros d i x y Hx. rewrite amap_lookup, Hx. intros [= <-]. destruct d; cbn in Hx; apply list_lookup_fmap_inv in Hx as (c & -> & _); done.
Qed.
End built.

(** Nothing but what [blank] says. *)
Lemma blank_rr m : blank m -> exists a, rr m a /\ forall d, am_cells a d = [].
Proof.
  intros [Hr Hn]. destruct (rr_of m Hr) as (a & Ha). exists a. split; [done|]. intros d. destruct Ha as [_ R].
  specialize (Hn d). rewrite (g_num _ _ R) in Hn. by apply nil_length_inv.
Qed.

Lemma consistent_below {A} (c0 : list A) c1 c2 c3 : consistent c0 c1 c2 c3 <->
  (all_below (length c0) (c1.*1) /\ all_below (length c0) (c1.*2)) /\
  Forall (fun p => all_below (length c0) (p.*1) /\ all_below (length c1) (p.*2)) c2 /\
  Forall (fun p => all_below (length c0) (ph_v p) /\ all_below (length c1) (ph_e p) /\ all_below (length c2) (ph_f p)) c3.
Proof. unfold consistent, all_below. tauto. Qed.

Section fill.
Context (a : amesh) (Ha : forall d, am_cells a d = []) (c0 : list (N * N * N)) (c1 : list (N * N)) (c2 : list (list (N * N))).
Notation names := (am_names a).

Notation A0 n := (AMesh n (am_cells a) (am_names a)).
Definition a1 n := with_cells D0 (point_cell (length (names D0)) <$> c0) (A0 n).
Definition a2 n := with_cells D1 (edge_cell (length (names D1)) <$> c1) (a1 n).
Definition a3 n := with_cells D2 (polygon_cell (length (names D2)) <$> c2) (a2 n).
Definition a4 n c3 := with_cells D3 (polyhedron_cell (length (names D3)) <$> c3) (a3 n).

Lemma a1_num n : anum D0 (a1 n) = length c0.
Proof. unfold a1. by rewrite wc_num, decide_True, fmap_length by done. Qed.
Lemma a2_num n : anum D0 (a2 n) = length c0 /\ anum D1 (a2 n) = length c1.
Proof. unfold a2. rewrite !wc_num. rewrite decide_False by done. rewrite decide_True by done. rewrite fmap_length. split; [apply a1_num|done]. Qed.
Lemma a3_num n : anum D0 (a3 n) = length c0 /\ anum D1 (a3 n) = length c1 /\ anum D2 (a3 n) = length c2.
Proof.
  unfold a3. rewrite !wc_num. rewrite !decide_False by done. rewrite decide_True by done. rewrite fmap_length. destruct (a2_num n). done.
Qed.

Lemma a3_built n : aeq (a3 n) (built names c0 c1 c2 [] n).
Proof.
  apply aeq_intro; [done..| |].
  - intros d. rewrite built_num. destruct d; [apply a3_num..|]. unfold anum, a3, a2, a1. rewrite !wc_other by done. cbn. by rewrite Ha.
  - intros d i x y. unfold a3, a2, a1. rewrite !wc_cells. cbn. rewrite Ha. destruct d; cbn; repeat case_decide; try done; intros Hx Hy; simplify_eq; apply ceq_refl.
Qed.
Lemma a4_built n c3 : aeq (a4 n c3) (built names c0 c1 c2 c3 n).
Proof.
  apply aeq_intro; [done..| |].
  - intros d. rewrite built_num. unfold a4. rewrite wc_num. destruct d; case_decide; try done; [apply a3_num..|]. by rewrite fmap_length.
  - intros d i x y. unfold a4, a3, a2, a1. rewrite !wc_cells. destruct d; cbn; repeat case_decide; try done; intros Hx Hy; simplify_eq; apply ceq_refl.
Qed.

Lemma fill2_does : consistent c0 c1 c2 [] -> does (FillMesh2D c0 c1 c2) a (built names c0 c1 c2 [] 2).
Proof.
  intros ((H1 & H2) & H3 & _)%consistent_below.
  eapply does_ext with (Q := fun m => m ← Ok (InitializeDimension 2 m); m ← fill_points c0 m; m ← fill_edges c1 m; fill_polygons c2 m); [done|].
  eapply does_aeq; [|apply (a3_built 2)].
  eapply does_bind; [apply does_Dimension|]. eapply does_bind; [apply (stage_points c0 (A0 2)), Ha|]. fold (a1 2).
  eapply does_bind; [apply (stage_edges c1 (a1 2)); [apply Ha|by rewrite a1_num..]|]. fold (a2 2).
  apply (stage_polygons c2 (a2 2)); [apply Ha|]. destruct (a2_num 2) as [-> ->]. done.
Qed.

Lemma fill2_fails : ~ consistent c0 c1 c2 [] -> fails (FillMesh2D c0 c1 c2) a.
Proof.
  rewrite consistent_below. intros Hc.
  assert (Hf : fails (fun m => m ← Ok (InitializeDimension 2 m); m ← fill_points c0 m; m ← fill_edges c1 m; fill_polygons c2 m) a); [|done].
  eapply fails_later; [apply does_Dimension|]. eapply fails_later; [apply (stage_points c0 (A0 2)), Ha|]. fold (a1 2).
  destruct (decide (all_below (length c0) (c1.*1) /\ all_below (length c0) (c1.*2))) as [E|E].
  2:{ apply fails_here. apply (edges_fail c1 (a1 2)); [apply Ha|]. by rewrite a1_num. }
  destruct E as [H1 H2].
  eapply fails_later; [apply (stage_edges c1 (a1 2)); [apply Ha|by rewrite a1_num..]|]. fold (a2 2).
  apply (polygons_fail c2 (a2 2)); [apply Ha|]. destruct (a2_num 2) as [-> ->]. intros H3. by apply Hc.
Qed.

Lemma unless_empty_does {A} (f : list A -> mesh -> outcome mesh) (l : list A) b b' :
  (l = [] -> aeq b b') -> does (f l) b b' -> does (unless_empty f l) b b'.
Proof. intros He Hd. destruct l as [|x l]; [|done]. cbn. eapply does_aeq; [apply does_ret|by apply He]. Qed.
Lemma unless_empty_fails {A} (f : list A -> mesh -> outcome mesh) (l : list A) b : l <> [] -> fails (f l) b -> fails (unless_empty f l) b.
Proof. by destruct l. Qed.

Lemma wc_nil d b : am_cells b d = [] -> aeq b (with_cells d [] b).
Proof.
  intros He. apply aeq_intro; [done..| |].
  - intros d'. rewrite wc_num. case_decide; [|done]. subst. unfold anum. by rewrite He.
  - intros d' i x y. rewrite wc_cells. case_decide; [done|]. intros Hx Hy. simplify_eq. apply ceq_refl.
Qed.

Context (c3 : list polyhedron).
Notation body := (fun m => m ← Ok (InitializeDimension 3 m); m ← unless_empty fill_points c0 m; m ← unless_empty fill_edges c1 m;
  m ← unless_empty fill_polygons c2 m; unless_empty fill_polyhedra c3 m).

Lemma does_1 : does (unless_empty fill_points c0) (A0 3) (a1 3).
Proof. apply unless_empty_does; [intros E; unfold a1; rewrite E; apply wc_nil, Ha|]. apply (stage_points c0 (A0 3)), Ha. Qed.
Lemma does_2 : all_below (length c0) (c1.*1) -> all_below (length c0) (c1.*2) -> does (unless_empty fill_edges c1) (a1 3) (a2 3).
Proof.
  intros H1 H2. apply unless_empty_does; [intros E; unfold a2; rewrite E; apply wc_nil, Ha|].
  apply (stage_edges c1 (a1 3)); [apply Ha|by rewrite a1_num..].
Qed.
Lemma does_3 : Forall (fun p => all_below (length c0) (p.*1) /\ all_below (length c1) (p.*2)) c2 -> does (unless_empty fill_polygons c2) (a2 3) (a3 3).
Proof.
  intros H. apply unless_empty_does; [intros E; unfold a3; rewrite E; apply wc_nil, Ha|].
  apply (stage_polygons c2 (a2 3)); [apply Ha|]. destruct (a2_num 3) as [-> ->]. done.
Qed.
Lemma does_4 : Forall (fun p => all_below (length c0) (ph_v p) /\ all_below (length c1) (ph_e p) /\ all_below (length c2) (ph_f p)) c3 ->
  does (unless_empty fill_polyhedra c3) (a3 3) (a4 3 c3).
Proof.
  intros H. apply unless_empty_does; [intros E; unfold a4; rewrite E; apply wc_nil, Ha|].
  apply (stage_polyhedra c3 (a3 3)); [apply Ha|]. destruct (a3_num 3) as (-> & -> & ->). done.
Qed.

Lemma fill3_does : consistent c0 c1 c2 c3 -> does (FillMesh3D c0 c1 c2 c3) a (built names c0 c1 c2 c3 3).
Proof.
  intros ((H1 & H2) & H3 & H4)%consistent_below.
  eapply does_ext with (Q := body); [done|]. eapply does_aeq; [|apply (a4_built 3)].
  eapply does_bind; [apply does_Dimension|]. eapply does_bind; [apply does_1|]. eapply does_bind; [by apply does_2|].
  eapply does_bind; [by apply does_3|]. by apply does_4.
Qed.

Lemma fill3_fails : ~ consistent c0 c1 c2 c3 -> fails (FillMesh3D c0 c1 c2 c3) a.
Proof.
  rewrite consistent_below. intros Hc. assert (Hf : fails body a); [|done].
  eapply fails_later; [apply does_Dimension|]. eapply fails_later; [apply does_1|].
  destruct (decide (all_below (length c0) (c1.*1) /\ all_below (length c0) (c1.*2))) as [E|E].
  2:{ apply fails_here. apply unless_empty_fails; [intros ->; apply E; split; constructor|]. apply (edges_fail c1 (a1 3)); [apply Ha|]. by rewrite a1_num. }
  destruct E as [H1 H2]. eapply fails_later; [by apply does_2|].
  destruct (decide (Forall (fun p => all_below (length c0) (p.*1) /\ all_below (length c1) (p.*2)) c2)) as [H3|H3].
  2:{ apply fails_here. apply unless_empty_fails; [intros ->; apply H3; constructor|]. apply (polygons_fail c2 (a2 3)); [apply Ha|].
      destruct (a2_num 3) as [-> ->]. done. }
  eapply fails_later; [by apply does_3|].
  apply unless_empty_fails; [intros ->; apply Hc; split_and!; [done..|constructor]|]. apply (polyhedra_fail c3 (a3 3)); [apply Ha|].
  destruct (a3_num 3) as (-> & -> & ->). intros H4. by apply Hc.
Qed.
End fill.

(** ** The statements *)
Definition few (n : nat) : Prop := (N.of_nat n <= UINT_MAX)%N.

Lemma fill2_ok m c0 c1 c2 : blank m -> few (length c0) -> few (length c1) -> few (length c2) -> consistent c0 c1 c2 [] ->
  exists m', FillMesh2D c0 c1 c2 m = Ok m' /\ reachable m' /\ mdim m' = 2 /\ reads_back c0 c1 c2 [] (fun _ _ => true) (fun _ _ => 0%N) m'.
Proof.
  intros Hb F0 F1 F2 Hc. destruct (blank_rr m Hb) as (a & Hm & Ha). destruct (fill2_does a Ha c0 c1 c2 Hc m Hm) as (m' & E & Hr).
  exists m'. split_and!; [done|apply Hr| |].
  - destruct Hr as [_ R]. by rewrite (r_dim _ _ R).
  - apply (built_reads (am_names a) c0 c1 c2 [] 2); [split_and!; done|]. eapply represents_aeq; [apply Hr|]. apply built_marks0.
Qed.
Lemma fill2_abort m c0 c1 c2 : blank m -> ~ consistent c0 c1 c2 [] -> FillMesh2D c0 c1 c2 m = Abort.
Proof. intros Hb Hc. destruct (blank_rr m Hb) as (a & Hm & Ha). by apply (fill2_fails a Ha c0 c1 c2 Hc m Hm). Qed.

Lemma fill3_ok m c0 c1 c2 c3 : blank m -> few (length c0) -> few (length c1) -> few (length c2) -> few (length c3) -> consistent c0 c1 c2 c3 ->
  exists m', FillMesh3D c0 c1 c2 c3 m = Ok m' /\ reachable m' /\ mdim m' = 3 /\ reads_back c0 c1 c2 c3 (fun _ _ => true) (fun _ _ => 0%N) m'.
Proof.
  intros Hb F0 F1 F2 F3 Hc. destruct (blank_rr m Hb) as (a & Hm & Ha). destruct (fill3_does a Ha c0 c1 c2 c3 Hc m Hm) as (m' & E & Hr).
  exists m'. split_and!; [done|apply Hr| |].
  - destruct Hr as [_ R]. by rewrite (r_dim _ _ R).
  - apply (built_reads (am_names a) c0 c1 c2 c3 3); [split_and!; done|]. eapply represents_aeq; [apply Hr|]. apply built_marks0.
Qed.
Lemma fill3_abort m c0 c1 c2 c3 : blank m -> ~ consistent c0 c1 c2 c3 -> FillMesh3D c0 c1 c2 c3 m = Abort.
Proof. intros Hb Hc. destruct (blank_rr m Hb) as (a & Hm & Ha). by apply (fill3_fails a Ha c0 c1 c2 c3 Hc m Hm). Qed.
