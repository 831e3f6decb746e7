(** Building 1D meshes: C15 and C51. *)
From Coq Require Import QArith Qcanon.
From Verif Require Import Base BaseProof CsrModel CsrSpec CsrProof MeshModel MeshSpec MeshRep MeshHist
  MeshProof MeshProof2 MeshProof3 MeshProof4 MeshProof5 MeshProof6 MeshProof7 MeshProof8 MeshProof9 MeshProofA MeshProofB
  MeshProg UtilModel UtilProofD FillModel FillSpec FillProofA FillProofB.
From Coq Require Import ZifyBool ZifyNat ZifyN.
Local Open Scope nat_scope.

Lemma imap_same {A B} (f : nat -> A -> B) (l : list A) (x : A) n : n = length l ->
  Forall (eq x) l -> imap f l = (fun i => f i x) <$> seq 0 n.
Proof.
  intros -> H. apply list_eq. intros i. rewrite list_lookup_imap, list_lookup_fmap. destruct (l !! i) as [y|] eqn:Hy; cbn.
  - rewrite lookup_seq_lt by (by eapply lookup_lt_Some). rewrite Forall_lookup in H. by rewrite <- (H i y Hy).
  - rewrite lookup_seq_ge; [done|]. by apply lookup_ge_None.
Qed.

Lemma stage_line o t cs a : am_cells a D0 = [] ->
  does (fun m => m ← Ok (CellsInitialize D0 (length cs) m);
                 ofold (fun m ic => m ← SetState D0 ic.1 true m; let p := dbl3 (along o t ic.2) in
                                    Cell0DInsertCoordinates ic.1 p.1.1 p.1.2 p.2 m) (imap pair cs) m)
       a (with_cells D0 (point_cell (length (am_names a D0)) <$> line_points o t cs) a).
Proof.
  intros He. eapply does_bind; [by apply does_Initialize|]. set (new := new_cell D0 (length (am_names a D0))).
  set (b := with_cells D0 (replicate (length cs) new) a).
  assert (Hb : anum D0 b = length cs) by (unfold b; rewrite wc_num, decide_True by done; by rewrite replicate_length).
  eapply does_aeq.
  - apply (does_each D0 (fun _ c x => with_geo [(dbl3 (along o t c)).1.1; (dbl3 (along o t c)).1.2; (dbl3 (along o t c)).2] (with_act true x)) _ cs b Hb).
    intros k c x F Hk Hx HF. cbn [fst snd]. cbv zeta.
    assert (Hlk : k < anum D0 b) by (rewrite Hb; by eapply lookup_lt_Some).
    eapply does_aeq; [eapply does_bind; [by apply does_State|by apply does_Coordinates]|].
    apply amap_ext. intros d i z Hz. unfold also. destruct (decide (d = D0 /\ i = k)); apply ceq_refl.
  - eapply aeq_trans; [apply wc_wc|]. apply wc_aeq. unfold b. rewrite wc_same. apply Forall2_same_length_lookup.
    unfold line_points. rewrite imap_length, !fmap_length, replicate_length. split; [done|]. intros i x y. rewrite list_lookup_imap, !list_lookup_fmap.
    destruct (cs !! i) as [c|] eqn:Hc; [|by destruct (_ !! i)]. rewrite lookup_replicate_2 by (by eapply lookup_lt_Some).
    cbn. intros [= <-] [= <-]. apply ceq_refl.
Qed.

Lemma stage_links n a : am_cells a D1 = [] ->
  does (fun m => m ← Ok (CellsInitialize D1 n m);
                 ofold (fun m e => m ← Cell1DInsertExtremes e (N.of_nat e) (N.of_nat (e + 1)) m; m ← SetState D1 e true m; SetMarker D1 e 0 m)
                       (seq 0 n) m)
       a (with_cells D1 (edge_cell (length (am_names a D1)) <$> line_edges (S n)) a).
Proof.
  intros He. eapply does_bind; [by apply does_Initialize|]. set (new := new_cell D1 (length (am_names a D1))).
  set (b := with_cells D1 (replicate n new) a).
  assert (Hb : anum D1 b = n) by (unfold b; rewrite wc_num, decide_True by done; by rewrite replicate_length).
  eapply does_aeq.
  - apply (does_each_seq D1 (fun e x => with_mark 0 (with_act true (with_geo [N.of_nat e; N.of_nat (e + 1)] x))) _ n b Hb).
    intros k x F Hk Hx HF. assert (Hlk : k < anum D1 b) by lia.
    eapply does_aeq; [eapply does_bind; [by apply does_Extremes|eapply does_bind; [by apply does_State|by apply does_Marker]]|].
    apply amap_ext. intros d i z Hz. unfold also. destruct (decide (d = D1 /\ i = k)); apply ceq_refl.
  - eapply aeq_trans; [apply wc_wc|]. apply wc_aeq. unfold b. rewrite wc_same.
    rewrite (imap_same _ _ new n); [|by rewrite replicate_length|by apply Forall_replicate].
    unfold line_edges. cbn [Nat.sub]. rewrite Nat.sub_0_r, <- list_fmap_compose. apply Forall2_fmap_2, Forall_Forall2_diag, Forall_true.
    intros e. apply ceq_refl.
Qed.

Lemma line_edges_length n : length (line_edges n) = n - 1.
Proof. unfold line_edges. by rewrite fmap_length, seq_length. Qed.

Lemma fill1_does o t cs a : (forall d, am_cells a d = []) -> cs <> [] ->
  does (FillMesh1D o t cs) a
    (amap (with_marks (fun _ _ => true) (line_mark (length cs)))
          (built (am_names a) (line_points o t cs) (line_edges (length cs)) [] [] 1)).
Proof.
  intros Ha Hcs. set (n := length cs). assert (Hn : 0 < n) by (unfold n; destruct cs; [done|cbn; lia]).
  set (a0 := AMesh 1 (am_cells a) (am_names a)).
  set (a1 := with_cells D0 (point_cell (length (am_names a D0)) <$> line_points o t cs) a0).
  assert (Hn1 : anum D0 a1 = n) by (unfold a1; rewrite wc_num, decide_True by done; unfold line_points; by rewrite !fmap_length).
  set (G := also (also keep D0 0 (with_mark 1)) D0 (n - 1) (with_mark 2)).
  eapply does_ext with (Q := fun m => m ← Ok (InitializeDimension 1 m);
    m ← (m ← Ok (CellsInitialize D0 n m);
         ofold (fun m ic => m ← SetState D0 ic.1 true m; let p := dbl3 (along o t ic.2) in
                            Cell0DInsertCoordinates ic.1 p.1.1 p.1.2 p.2 m) (imap pair cs) m);
    m ← SetMarker D0 0 1 m;
    m ← SetMarker D0 (n - 1) 2 m;
    m ← Ok (CellsInitialize D1 (n - 1) m);
    ofold (fun m e => m ← Cell1DInsertExtremes e (N.of_nat e) (N.of_nat (e + 1)) m; m ← SetState D1 e true m; SetMarker D1 e 0 m)
          (seq 0 (n - 1)) m).
  { intros m _. unfold FillMesh1D. destruct cs; done. }
  eapply does_aeq.
  - eapply does_bind; [apply does_Dimension|]. fold a0.
    eapply does_bind; [apply (stage_line o t cs a0), Ha|]. change (am_names a0) with (am_names a). fold a1.
    apply (does_aeq_l _ a1 (amap keep a1)); [apply amap_keep|].
    eapply does_bind; [apply does_Marker; lia|]. eapply does_bind; [apply does_Marker; lia|]. fold G.
    apply (stage_links (n - 1) (amap G a1)). cbn. unfold upd_fun. rewrite decide_False by done. by rewrite Ha.
  - replace (S (n - 1)) with n by lia. rewrite amap_names. change (am_names a1) with (am_names a). apply aeq_intro; [done..| |].
    + intros d. rewrite wc_num, !amap_num, built_num, fmap_length, line_edges_length. case_decide as E; [by subst|].
      destruct d; try done.
      * rewrite Hn1. unfold line_points. by rewrite fmap_length.
      * unfold a1. rewrite wc_num. unfold anum. cbn. by rewrite Ha.
      * unfold a1. rewrite wc_num. unfold anum. cbn. by rewrite Ha.
    + intros d i x y. rewrite wc_cells, amap_lookup. cbn [am_cells built]. destruct d; cbn [built_cells].
      * rewrite decide_False by done. rewrite amap_lookup. unfold a1. rewrite wc_same.
        rewrite list_lookup_fmap. destruct (line_points o t cs !! i) as [p|] eqn:Hp; [|done]. cbn [fmap option_fmap option_map].
        intros [= <-] [= <-]. unfold G, also, keep, with_marks, line_mark.
        destruct (decide (D0 = D0 /\ i = n - 1)) as [[_ ->]|E1].
        { rewrite Nat.eqb_refl. destruct (decide (D0 = D0 /\ n - 1 = 0)); repeat split. }
        destruct (Nat.eqb_spec i (n - 1)) as [->|]; [tauto|].
        destruct (decide (D0 = D0 /\ i = 0)) as [[_ ->]|E2]; [repeat split|].
        destruct (Nat.eqb_spec i 0) as [->|]; [tauto|]. repeat split.
      * rewrite decide_True by done. rewrite list_lookup_fmap. destruct (line_edges n !! i) as [p|]; [|done]. cbn. intros [= <-] [= <-]. repeat split.
      * done.
      * done.
Qed.

Lemma fill1_ok m o t cs : blank m -> cs <> [] -> few (length cs) ->
  exists m', FillMesh1D o t cs m = Ok m' /\ reachable m' /\ mdim m' = 1 /\
    reads_back (line_points o t cs) (line_edges (length cs)) [] [] (fun _ _ => true) (line_mark (length cs)) m'.
Proof.
  intros Hb Hcs Hf. destruct (blank_rr m Hb) as (a & Hm & Ha). destruct (fill1_does o t cs a Ha Hcs m Hm) as (m' & E & Hr).
  exists m'. split_and!; [done|apply Hr| |].
  - destruct Hr as [_ R]. by rewrite (r_dim _ _ R).
  - eapply built_reads; [|apply Hr]. unfold few in Hf. split_and!; rewrite ?line_edges_length; try (cbn; lia). unfold line_points. by rewrite fmap_length.
Qed.

(** ** Mesh1DFromSegment *)
Definition segment_mark (k0 k1 : N) (d : dim) (i : nat) : N := match d with D0 => if i =? 0 then k0 else k1 | _ => 0%N end.

Lemma segment_ok m v0 v1 k0 k1 : blank m ->
  exists m', Mesh1DFromSegment v0 v1 [k0; k1] m = Ok m' /\ reachable m' /\ mdim m' = 1 /\
    reads_back [dbl3 v0; dbl3 (along v0 v1 1%Qc)] [(0%N, 1%N)] [] [] (fun _ _ => true) (segment_mark k0 k1) m'.
Proof.
  intros Hb. destruct (blank_rr m Hb) as (a & Hm & Ha). set (cs := [0%Qc; 1%Qc]).
  destruct (fill1_does v0 v1 cs a Ha ltac:(done) m Hm) as (m1 & E & Hr).
  set (b := built (am_names a) (line_points v0 v1 cs) (line_edges (length cs)) [] [] 1) in *.
  assert (Hd : does (fun m => m ← SetMarker D0 0 k0 m; SetMarker D0 1 k1 m)
                    (amap (with_marks (fun _ _ => true) (line_mark (length cs))) b)
                    (amap (with_marks (fun _ _ => true) (segment_mark k0 k1)) b)).
  { eapply does_aeq; [eapply does_bind; [apply does_Marker; unfold b; rewrite built_num; cbn; lia|apply does_Marker; unfold b; rewrite built_num; cbn; lia]|].
    apply amap_ext. intros d i x Hx. unfold also, with_marks, segment_mark.
    assert (Hi : i < anum d b) by (by eapply lookup_lt_Some). unfold b in Hi. rewrite built_num in Hi.
    destruct d; cbn in Hi; try lia.
    - destruct i as [|[|i]]; [..|lia]; cbn; repeat split.
    - destruct i as [|i]; [|lia]. cbn. repeat split. }
  destruct (Hd m1 Hr) as (m2 & E2 & Hr2). exists m2. split_and!.
  - unfold Mesh1DFromSegment. fold cs. rewrite E. cbn [mbind outcome_bind vget lookup list_lookup].
    destruct (SetMarker D0 0 k0 m1) as [m3| | | |] eqn:E3; try done. cbn [mbind outcome_bind] in *.
    assert (Hn3 : num D0 m3 = 2).
    { destruct (does_Marker keep (amap (with_marks (fun _ _ => true) (line_mark (length cs))) b) D0 0 k0 ltac:(rewrite amap_num; unfold b; rewrite built_num; cbn; lia) m1 (rr_aeq _ _ _ Hr (amap_keep _))) as (m3' & E3' & Hr3).
      rewrite E3 in E3'. injection E3' as <-. destruct Hr3 as [_ R]. rewrite (g_num _ _ R), !amap_num. unfold b. by rewrite built_num. }
    rewrite Hn3. exact E2.
  - apply Hr2.
  - destruct Hr2 as [_ R]. by rewrite (r_dim _ _ R).
  - assert (Hl : line_points v0 v1 cs = [dbl3 v0; dbl3 (along v0 v1 1%Qc)]).
    { unfold line_points, cs. cbn [fmap list_fmap]. do 2 f_equal. unfold along. destruct v0 as [[x y] z], v1 as [[x' y'] z']. cbn.
      f_equal; [f_equal|]; ring. }
    rewrite <- Hl. change [(0%N, 1%N)] with (line_edges (length cs)). eapply built_reads; [|apply Hr2].
    unfold fits. rewrite Hl. split_and!; cbn [length cs line_edges fmap list_fmap seq Nat.sub]; unfold UINT_MAX; lia.
Qed.

Lemma dbl_inj p q : dbl p = dbl q -> p = q.
Proof. unfold dbl. intros [= H]. by apply (inj encode). Qed.
Lemma dbl3_inj u v : dbl3 u = dbl3 v -> u = v.
Proof. destruct u as [[? ?] ?], v as [[? ?] ?]. unfold dbl3. cbn. intros H. injection H as H1 H2 H3. apply (inj encode) in H1, H2, H3. congruence. Qed.

Lemma along_one v0 v1 : along v0 v1 1%Qc = v1 <-> v0 = (0%Qc, 0%Qc, 0%Qc).
Proof.
  destruct v0 as [[x y] z], v1 as [[x' y'] z']. unfold along. cbn. split.
  - intros [= H1 H2 H3]. f_equal; [f_equal|].
    + replace x with ((x + 1 * x') - x')%Qc by ring. rewrite H1. ring.
    + replace y with ((y + 1 * y') - y')%Qc by ring. rewrite H2. ring.
    + replace z with ((z + 1 * z') - z')%Qc by ring. rewrite H3. ring.
  - intros [= -> -> ->]. f_equal; [f_equal|]; ring.
Qed.

(** The end points are those of the segment exactly when the segment starts at the origin of the coordinates. *)
Lemma segment_ends m v0 v1 k0 k1 m' : blank m -> Mesh1DFromSegment v0 v1 [k0; k1] m = Ok m' ->
  Cell0DCoordinates 0 m' = Ok (dbl3 v0) /\ (Cell0DCoordinates 1 m' = Ok (dbl3 v1) <-> v0 = (0%Qc, 0%Qc, 0%Qc)).
Proof.
  intros Hb E. destruct (segment_ok m v0 v1 k0 k1 Hb) as (m2 & E2 & _ & _ & (_ & _ & _ & _ & Hc & _)).
  rewrite E in E2. injection E2 as <-. split; [by apply (Hc 0)|].
  rewrite (Hc 1 _ eq_refl), <- (along_one v0 v1). split; [intros H; apply dbl3_inj; congruence|by intros ->].
Qed.
