(** Meshes generated cell by cell: the stages on the abstract mesh. *)
From Coq Require Import QArith Qcanon.
From Verif Require Import Base BaseProof CsrModel CsrSpec CsrProof MeshModel MeshSpec MeshRep MeshHist
  MeshProof MeshProof2 MeshProof3 MeshProof4 MeshProof5 MeshProof6 MeshProof7 MeshProof8 MeshProof9 MeshProofA MeshProofB
  MeshProg UtilModel UtilProofD UtilProofE FillModel FillSpec FillProofA FillProofB GridModel.
From Coq Require Import ZifyBool ZifyNat ZifyN.
Local Open Scope nat_scope.

Section stages.
  Context {A : Type}.
  Lemma imap_over (f : nat -> A -> acell -> acell) (l : list A) (x : acell) (g : A -> acell) :
    (forall i y, ceq (f i y x) (g y)) ->
    Forall2 ceq (imap (fun i z => match l !! i with Some y => f i y z | None => z end) (replicate (length l) x)) (g <$> l).
  Proof.
    intros H. apply Forall2_same_length_lookup. rewrite imap_length, fmap_length, replicate_length. split; [done|].
    intros i u v. rewrite list_lookup_imap, list_lookup_fmap. destruct (l !! i) as [y|] eqn:Hy; [|done].
    rewrite lookup_replicate_2 by (by eapply lookup_lt_Some). cbn. intros [= <-] [= <-]. apply H.
  Qed.
End stages.

Lemma stage_put_points (l : list (N * N * N * N)) a : am_cells a D0 = replicate (length l) (blank_cell a D0) ->
  does (ofold put_point (imap pair l)) a
       (with_cells D0 ((fun q => with_mark q.2 (point_cell (length (am_names a D0)) q.1)) <$> l) a).
Proof.
  intros He. assert (Hn : anum D0 a = length l) by (unfold anum; by rewrite He, replicate_length).
  eapply does_aeq.
  - apply (does_each D0 (fun _ q x => with_mark q.2 (with_geo [q.1.1.1; q.1.1.2; q.1.2] (with_act true x))) put_point l a Hn).
    intros k q x F Hk Hx HF. unfold put_point. cbn [fst snd]. assert (Hlk : k < anum D0 a) by (rewrite Hn; by eapply lookup_lt_Some).
    eapply does_aeq; [eapply does_bind; [by apply does_State|eapply does_bind; [by apply does_Coordinates|by apply does_Marker]]|].
    apply amap_ext. intros d i z Hz. unfold also. destruct (decide (d = D0 /\ i = k)); apply ceq_refl.
  - apply wc_aeq. rewrite He. apply (imap_over (fun _ (q : N * N * N * N) x => with_mark q.2 (with_geo [q.1.1.1; q.1.1.2; q.1.2] (with_act true x)))).
    intros i q. repeat split.
Qed.

Lemma stage_put_edges (l : list (N * N * N)) a : am_cells a D1 = replicate (length l) (blank_cell a D1) ->
  does (ofold put_edge (imap pair l)) a
       (with_cells D1 ((fun q => with_mark q.2 (edge_cell (length (am_names a D1)) q.1)) <$> l) a).
Proof.
  intros He. assert (Hn : anum D1 a = length l) by (unfold anum; by rewrite He, replicate_length).
  eapply does_aeq.
  - apply (does_each D1 (fun _ q x => with_mark q.2 (with_act true (with_geo [q.1.1; q.1.2] x))) put_edge l a Hn).
    intros k q x F Hk Hx HF. unfold put_edge. cbn [fst snd]. assert (Hlk : k < anum D1 a) by (rewrite Hn; by eapply lookup_lt_Some).
    eapply does_aeq; [eapply does_bind; [by apply does_Extremes|eapply does_bind; [by apply does_State|by apply does_Marker]]|].
    apply amap_ext. intros d i z Hz. unfold also. destruct (decide (d = D1 /\ i = k)); apply ceq_refl.
  - apply wc_aeq. rewrite He. apply (imap_over (fun _ (q : N * N * N) x => with_mark q.2 (with_act true (with_geo [q.1.1; q.1.2] x)))).
    intros i q. repeat split.
Qed.

(** Polygons given by their vertices and edges. *)
Definition sides_of (q : list N * list N * N) : list (N * N) := zip q.1.1 q.1.2.
Definition balanced (q : list N * list N * N) : Prop := length q.1.1 = length q.1.2.
Definition polygon_below (n0 n1 : nat) (q : list N * list N * N) : Prop := all_below n0 q.1.1 /\ all_below n1 q.1.2.


Definition polygon_put (q : list N * list N * N) (x : acell) : acell :=
  with_mark q.2 (with_act true (with_row E2 q.1.2 (with_row V2 q.1.1 x))).
Lemma polygon_put_ceq (q : list N * list N * N) p x : balanced q ->
  ac_geo x = ac_geo (new_cell D2 p) -> ac_orig x = ac_orig (new_cell D2 p) -> ac_upd x = ac_upd (new_cell D2 p) ->
  ac_prop x = ac_prop (new_cell D2 p) -> (forall r, r <> V2 -> r <> E2 -> ac_rel x r = ac_rel (new_cell D2 p) r) ->
  ceq (polygon_put q x) (with_mark q.2 (polygon_cell p (sides_of q))).
Proof.
  intros B. unfold balanced in B. unfold polygon_put, polygon_cell, sides_of. rewrite fst_zip, snd_zip by lia.
  intros H1 H2 H3 H4 H5. unfold ceq. split_and!; try done. intros r. cbn [with_mark with_act with_row ac_rel]. unfold upd_fun.
  repeat case_decide; subst; try done. by apply H5.
Qed.
Lemma imap_polygons l x p : Forall balanced l ->
  (forall q, balanced q -> ceq (polygon_put q x) (with_mark q.2 (polygon_cell p (sides_of q)))) ->
  Forall2 ceq (imap (fun i z => match l !! i with Some y => polygon_put y z | None => z end) (replicate (length l) x))
    ((fun q => with_mark q.2 (polygon_cell p (sides_of q))) <$> l).
Proof.
  intros B H. apply Forall2_same_length_lookup. rewrite imap_length, fmap_length, replicate_length. split; [done|].
  intros i u v. rewrite list_lookup_imap, list_lookup_fmap. destruct (l !! i) as [y|] eqn:Hy; [|done].
  rewrite lookup_replicate_2 by (by eapply lookup_lt_Some). cbn [fmap option_fmap option_map]. intros [= <-] [= <-].
  apply H. by eapply (Forall_lookup_1 _ l).
Qed.

Lemma stage_put_polygons (l : list (list N * list N * N)) n a : am_cells a D2 = replicate (length l) (blank_cell a D2) ->
  Forall (fun q => length q.1.1 = n /\ length q.1.2 = n) l -> Forall (polygon_below (anum D0 a) (anum D1 a)) l ->
  does (fun m => m ← RelInitConst V2 n m; m ← RelInitConst E2 n m; ofold put_polygon (imap pair l) m) a
       (with_cells D2 ((fun q => with_mark q.2 (polygon_cell (length (am_names a D2)) (sides_of q))) <$> l) a).
Proof.
  intros He Hl Hb. assert (Hn : anum D2 a = length l) by (unfold anum; by rewrite He, replicate_length).
  assert (Hbal : Forall balanced l) by (eapply Forall_impl; [exact Hl|]; intros q [E1 E2]; unfold balanced; congruence).
  set (x0 := with_row E2 (replicate n (default_bulk E2)) (with_row V2 (replicate n (default_bulk V2)) (blank_cell a D2))).
  set (b := with_cells D2 (replicate (length l) x0) a).
  assert (Hbn : anum D2 b = length l) by (unfold b; rewrite wc_num, decide_True by done; by rewrite replicate_length).
  assert (Hi : does (fun m => m ← RelInitConst V2 n m; RelInitConst E2 n m) a b).
  { eapply does_aeq; [eapply does_bind; [apply does_InitConst_empty|apply does_InitConst_empty]|].
    - intros i x. cbn [src]. rewrite He. intros [-> _]%lookup_replicate. done.
    - intros i x. rewrite amap_lookup. cbn [src]. rewrite He. destruct (_ !! i) as [y|] eqn:Hy; [|done].
      apply lookup_replicate in Hy as [-> _]. cbn. by intros [= <-].
    - apply aeq_intro; [done..| |].
      + intros d. rewrite !amap_num. unfold b. rewrite wc_num. case_decide; [subst|done]. by rewrite replicate_length.
      + intros d i x y. rewrite !amap_lookup. unfold b. rewrite wc_cells. case_decide as E.
        * subst d. rewrite He. destruct (replicate (length l) (blank_cell a D2) !! i) as [z|] eqn:Hz; [|done].
          apply lookup_replicate in Hz as [-> Hz]. rewrite lookup_replicate_2 by done. cbn. intros [= <-] [= <-]. apply ceq_refl.
        * intros Hx Hy. rewrite Hy in Hx. cbn in Hx. injection Hx as <-. unfold set_rows. cbn [src].
          rewrite !(decide_False (P := d = D2)) by congruence. apply ceq_refl. }
  eapply does_ext with (Q := fun m => m ← (m ← RelInitConst V2 n m; RelInitConst E2 n m); ofold put_polygon (imap pair l) m).
  { intros m _. destruct (RelInitConst V2 n m); done. }
  eapply does_bind; [exact Hi|]. eapply does_aeq.
  - apply (does_each D2 (fun _ q => polygon_put q) put_polygon l b Hbn).
    intros k q x F Hk Hx HF. unfold put_polygon. cbn [fst snd]. assert (Hlk : k < anum D2 b) by (rewrite Hbn; by eapply lookup_lt_Some).
    rewrite Forall_lookup in Hl, Hb. destruct (Hl k q Hk) as [L1 L2]. destruct (Hb k q Hk) as [B1 B2].
    assert (x = x0) as ->. { unfold b in Hx. rewrite wc_same in Hx. by apply lookup_replicate in Hx as [-> _]. }
    eapply does_aeq; [eapply does_bind; [apply (does_Fill F b V2 k q.1.1 x0 Hx)|eapply does_bind;
      [apply (does_Fill _ b E2 k q.1.2 x0 Hx)|eapply does_bind; [by apply does_State|by apply does_Marker]]]|].
    + cbn [src]. rewrite HF. cbn. unfold upd_fun. repeat case_decide; try done. by rewrite replicate_length.
    + unfold b. rewrite wc_num. exact B1.
    + cbn [src]. unfold also. rewrite !decide_True by done. rewrite HF. cbn. unfold upd_fun. repeat case_decide; try done. by rewrite replicate_length.
    + unfold b. rewrite wc_num. exact B2.
    + apply amap_ext. intros d i z Hz. unfold also. cbn [src]. destruct (decide (d = D2 /\ i = k)); apply ceq_refl.
  - unfold b at 1. rewrite wc_same. unfold b. eapply aeq_trans; [apply wc_wc|]. apply wc_aeq. apply imap_polygons; [done|].
    intros q Hq. apply polygon_put_ceq; try done. intros r H1 H2. cbn. unfold upd_fun. repeat case_decide; done.
Qed.

Lemma stage_add_polygons (l : list (list N * list N * N)) a : am_cells a D2 = replicate (length l) (blank_cell a D2) ->
  Forall balanced l -> Forall (polygon_below (anum D0 a) (anum D1 a)) l ->
  does (ofold add_polygon (imap pair l)) a
       (with_cells D2 ((fun q => with_mark q.2 (polygon_cell (length (am_names a D2)) (sides_of q))) <$> l) a).
Proof.
  intros He Hbal Hb. assert (Hn : anum D2 a = length l) by (unfold anum; by rewrite He, replicate_length).
  eapply does_aeq.
  - apply (does_each D2 (fun _ q => polygon_put q) add_polygon l a Hn).
    intros k q x F Hk Hx HF. unfold add_polygon. cbn [fst snd]. assert (Hlk : k < anum D2 a) by (rewrite Hn; by eapply lookup_lt_Some).
    rewrite Forall_lookup in Hb. destruct (Hb k q Hk) as [B1 B2].
    eapply does_aeq; [eapply does_bind; [by apply (does_Add F a V2 k q.1.1)|eapply does_bind;
      [by apply (does_Add _ a E2 k q.1.2)|eapply does_bind; [by apply does_State|by apply does_Marker]]]|].
    apply amap_ext. intros d i z Hz. unfold also. cbn [src]. destruct (decide (d = D2 /\ i = k)); apply ceq_refl.
  - apply wc_aeq. rewrite He. apply imap_polygons; [done|]. intros q Hq. by apply polygon_put_ceq.
Qed.

Lemma stage_add_polyhedra (l : list (polyhedron * N)) a : am_cells a D3 = replicate (length l) (blank_cell a D3) ->
  Forall (fun q => all_below (anum D0 a) (ph_v q.1) /\ all_below (anum D1 a) (ph_e q.1) /\ all_below (anum D2 a) (ph_f q.1)) l ->
  does (ofold add_polyhedron (imap pair l)) a
       (with_cells D3 ((fun q => with_mark q.2 (polyhedron_cell (length (am_names a D3)) q.1)) <$> l) a).
Proof.
  intros He Hb. assert (Hn : anum D3 a = length l) by (unfold anum; by rewrite He, replicate_length).
  set (f := fun (_ : nat) (q : polyhedron * N) x => with_mark q.2 (with_act true (with_row F3 (ph_f q.1) (with_row E3 (ph_e q.1) (with_row V3 (ph_v q.1) x))))).
  eapply does_aeq.
  - apply (does_each D3 f add_polyhedron l a Hn).
    intros k q x F Hk Hx HF. unfold add_polyhedron. cbn [fst snd]. assert (Hlk : k < anum D3 a) by (rewrite Hn; by eapply lookup_lt_Some).
    rewrite Forall_lookup in Hb. destruct (Hb k q Hk) as (B1 & B2 & B3).
    eapply does_aeq; [eapply does_bind; [by apply (does_Add F a V3 k (ph_v q.1))|eapply does_bind;
      [by apply (does_Add _ a E3 k (ph_e q.1))|eapply does_bind; [by apply (does_Add _ a F3 k (ph_f q.1))|
       eapply does_bind; [by apply does_State|by apply does_Marker]]]]|].
    apply amap_ext. intros d i z Hz. unfold also, f. cbn [src]. destruct (decide (d = D3 /\ i = k)); apply ceq_refl.
  - apply wc_aeq. rewrite He. apply (imap_over f). intros i q. apply ceq_refl.
Qed.

(** ** Whole generators *)
Definition marks_of {A B C D} (p0 : list (A * N)) (p1 : list (B * N)) (p2 : list (C * N)) (p3 : list (D * N)) (d : dim) (i : nat) : N :=
  match d with
  | D0 => default 0%N (snd <$> p0 !! i)
  | D1 => default 0%N (snd <$> p1 !! i)
  | D2 => default 0%N (snd <$> p2 !! i)
  | D3 => default 0%N (snd <$> p3 !! i)
  end.

Section generate.
  Context (p0 : list (N * N * N * N)) (p1 : list (N * N * N)) (p2 : list (list N * list N * N)) (p3 : list (polyhedron * N)).
  Context (a : amesh) (Ha : forall d, am_cells a d = []).
  Notation names := (am_names a).
  Definition goal_mesh (n : nat) : amesh :=
    amap (with_marks (fun _ _ => true) (marks_of p0 p1 p2 p3)) (built names (p0.*1) (p1.*1) (sides_of <$> p2) (p3.*1) n).

  Definition g0 (n : nat) := AMesh n (am_cells a) (am_names a).
  Definition g1 n := with_cells D0 (replicate (length p0) (blank_cell a D0)) (g0 n).
  Definition g2 n := with_cells D1 (replicate (length p1) (blank_cell a D1)) (g1 n).
  Definition g3 n := with_cells D2 (replicate (length p2) (blank_cell a D2)) (g2 n).
  Definition g4 n := with_cells D3 (replicate (length p3) (blank_cell a D3)) (g3 n).
  Definition h0 (b : amesh) := with_cells D0 ((fun q => with_mark q.2 (point_cell (length (names D0)) q.1)) <$> p0) b.
  Definition h1 (b : amesh) := with_cells D1 ((fun q => with_mark q.2 (edge_cell (length (names D1)) q.1)) <$> p1) (h0 b).
  Definition h2 (b : amesh) := with_cells D2 ((fun q => with_mark q.2 (polygon_cell (length (names D2)) (sides_of q))) <$> p2) (h1 b).
  Definition h3 (b : amesh) := with_cells D3 ((fun q => with_mark q.2 (polyhedron_cell (length (names D3)) q.1)) <$> p3) (h2 b).

  Lemma gen_goal n b : am_dim b = n -> am_names b = names -> (p3 = [] -> am_cells b D3 = []) ->
    aeq (h3 b) (goal_mesh n) /\ (p3 = [] -> aeq (h2 b) (goal_mesh n)).
  Proof.
    intros Hd Hna H3.
    assert (X : aeq (h3 b) (goal_mesh n)).
    { apply aeq_intro; [done|unfold goal_mesh; cbn; by rewrite Hna| |].
      - intros d. unfold goal_mesh. rewrite amap_num, built_num. unfold h3, h2, h1, h0. rewrite !wc_num. destruct d; rewrite !fmap_length; done.
      - intros d i x y. unfold goal_mesh. rewrite amap_lookup. unfold h3, h2, h1, h0. rewrite !wc_cells. cbn [am_cells built].
        destruct d; cbn [built_cells marks_of]; repeat (rewrite decide_False by done); rewrite ?(decide_True (P := _ = _)) by done;
          rewrite !list_lookup_fmap.
        + destruct (p0 !! i) as [q|] eqn:E; [|done]. cbn [fmap option_fmap option_map]. intros [= <-] [= <-].
          unfold with_marks, marks_of. rewrite E. apply ceq_refl.
        + destruct (p1 !! i) as [q|] eqn:E; [|done]. cbn [fmap option_fmap option_map]. intros [= <-] [= <-].
          unfold with_marks, marks_of. rewrite E. apply ceq_refl.
        + destruct (p2 !! i) as [q|] eqn:E; [|done]. cbn [fmap option_fmap option_map]. intros [= <-] [= <-].
          unfold with_marks, marks_of. rewrite E. apply ceq_refl.
        + destruct (p3 !! i) as [q|] eqn:E; [|done]. cbn [fmap option_fmap option_map]. intros [= <-] [= <-].
          unfold with_marks, marks_of. rewrite E. apply ceq_refl. }
    split; [done|]. intros E. eapply aeq_trans; [|exact X]. unfold h3. rewrite E. cbn [fmap list_fmap]. apply wc_nil.
    unfold h2, h1, h0. rewrite !wc_other by done. by apply H3.
  Qed.

  Lemma gen_init n :
    does (fun m => m ← Ok (InitializeDimension n m); m ← Ok (CellsInitialize D0 (length p0) m); m ← Ok (CellsInitialize D1 (length p1) m);
                   Ok (CellsInitialize D2 (length p2) m)) a (g3 n).
  Proof.
    eapply does_bind; [apply does_Dimension|]. fold (g0 n).
    eapply does_bind; [apply (does_Initialize D0 _ (g0 n)), Ha|]. fold (g1 n).
    eapply does_bind; [apply (does_Initialize D1 _ (g1 n))|].
    { unfold g1. rewrite wc_other by done. apply Ha. }
    apply (does_Initialize D2 _ (g2 n)). unfold g2, g1. rewrite !wc_other by done. apply Ha.
  Qed.

  Lemma generate2_does k : p3 = [] ->
    Forall (fun q => length q.1.1 = k /\ length q.1.2 = k) p2 -> Forall (polygon_below (length p0) (length p1)) p2 ->
    does (fun m =>
      let m := InitializeDimension 2 m in
      let m := CellsInitialize D0 (length p0) m in
      let m := CellsInitialize D1 (length p1) m in
      let m := CellsInitialize D2 (length p2) m in
      m ← ofold put_point (imap pair p0) m;
      m ← ofold put_edge (imap pair p1) m;
      m ← RelInitConst V2 k m;
      m ← RelInitConst E2 k m;
      ofold put_polygon (imap pair p2) m) a (goal_mesh 2).
  Proof.
    intros E3 Hl Hb.
    eapply does_ext with (Q := fun m => m ← (m ← Ok (InitializeDimension 2 m); m ← Ok (CellsInitialize D0 (length p0) m); m ← Ok (CellsInitialize D1 (length p1) m);
                   Ok (CellsInitialize D2 (length p2) m));
      m ← ofold put_point (imap pair p0) m;
      m ← ofold put_edge (imap pair p1) m;
      m ← RelInitConst V2 k m;
      m ← RelInitConst E2 k m;
      ofold put_polygon (imap pair p2) m); [done|].
    eapply does_aeq; [|apply (gen_goal 2 (g3 2)); try done].
    2: { intros _. unfold g3, g2, g1. rewrite !wc_other by done. apply Ha. }
    eapply does_bind; [apply gen_init|].
    eapply does_bind.
    { apply (stage_put_points p0 (g3 2)). unfold g3, g2, g1. rewrite !wc_other by done. rewrite wc_same. done. }
    eapply does_bind.
    { apply (stage_put_edges p1). unfold g3, g2. rewrite !wc_other by done. rewrite wc_same. done. }
    apply (stage_put_polygons p2 k).
    - rewrite !wc_other by done. unfold g3. rewrite wc_same. done.
    - done.
    - unfold g4, g3, g2, g1. rewrite !wc_num. cbn. rewrite !fmap_length. done.
  Qed.

  Lemma generate3_does :
    Forall balanced p2 -> Forall (polygon_below (length p0) (length p1)) p2 ->
    Forall (fun q => all_below (length p0) (ph_v q.1) /\ all_below (length p1) (ph_e q.1) /\ all_below (length p2) (ph_f q.1)) p3 ->
    does (fun m =>
      let m := InitializeDimension 3 m in
      let m := CellsInitialize D0 (length p0) m in
      let m := CellsInitialize D1 (length p1) m in
      let m := CellsInitialize D2 (length p2) m in
      let m := CellsInitialize D3 (length p3) m in
      m ← ofold put_point (imap pair p0) m;
      m ← ofold put_edge (imap pair p1) m;
      m ← ofold add_polygon (imap pair p2) m;
      ofold add_polyhedron (imap pair p3) m) a (goal_mesh 3).
  Proof.
    intros Hl Hb Hb3.
    eapply does_ext with (Q := fun m => m ← (m ← Ok (InitializeDimension 3 m); m ← Ok (CellsInitialize D0 (length p0) m); m ← Ok (CellsInitialize D1 (length p1) m);
                   Ok (CellsInitialize D2 (length p2) m));
      m ← Ok (CellsInitialize D3 (length p3) m);
      m ← ofold put_point (imap pair p0) m;
      m ← ofold put_edge (imap pair p1) m;
      m ← ofold add_polygon (imap pair p2) m;
      ofold add_polyhedron (imap pair p3) m); [done|].
    assert (X : p3 = [] -> am_cells (g4 3) D3 = []) by (intros E; unfold g4; rewrite wc_same, E; done).
    eapply does_aeq; [|exact (proj1 (gen_goal 3 (g4 3) eq_refl eq_refl X))].
    eapply does_bind; [apply gen_init|].
    eapply does_bind.
    { apply (does_Initialize D3 _ (g3 3)). unfold g3, g2, g1. rewrite !wc_other by done. apply Ha. }
    change (am_names (g3 3) D3) with (am_names a D3). fold (g4 3).
    eapply does_bind.
    { apply (stage_put_points p0 (g4 3)). unfold g4, g3, g2, g1. rewrite !wc_other by done. rewrite wc_same. done. }
    eapply does_bind.
    { apply (stage_put_edges p1). unfold g4, g3, g2. rewrite !wc_other by done. rewrite wc_same. done. }
    eapply does_bind.
    { apply (stage_add_polygons p2).
      - rewrite !wc_other by done. unfold g4, g3. rewrite wc_other by done. rewrite wc_same. done.
      - done.
      - unfold g4, g3, g2, g1. rewrite !wc_num. cbn. rewrite !fmap_length. done. }
    apply (stage_add_polyhedra p3).
    - rewrite !wc_other by done. unfold g4. rewrite wc_same. done.
    - unfold g4, g3, g2, g1. rewrite !wc_num. cbn. rewrite !fmap_length. done.
  Qed.
End generate.
