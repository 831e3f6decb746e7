(** Sub-meshes: the extraction theorems and the filters. *)
From Coq Require Import QArith Qcanon Sorted.
From Verif Require Import Base BaseProof CsrModel CsrSpec CsrProof MeshModel MeshSpec MeshRep MeshHist
  MeshProof MeshProof2 MeshProof3 MeshProof4 MeshProof5 MeshProof6 MeshProof7 MeshProof8 MeshProof9 MeshProofA MeshProofB
  MeshProg UtilModel UtilProofD FillModel FillSpec FillProofA FillProofB FillProofD FillProofE.
From Coq Require Import ZifyBool ZifyNat ZifyN.
Local Open Scope nat_scope.

Lemma extract1_ok old m f0 f1 :
  reachable old -> (forall d, few (num d old)) -> blank m ->
  good_filter D0 f0 old -> good_filter D1 f1 old -> closed_edges f0 f1 old ->
  exists m' t0 t1, ExtractMesh1D f0 f1 old m = Ok (m', (t0, t1)) /\ reachable m' /\ mdim m' = 1 /\
    renumbering (num D0 old) f0 t0 /\ renumbering (num D1 old) f1 t1 /\
    num D0 m' = length f0 /\ num D1 m' = length f1 /\ num D2 m' = 0 /\ num D3 m' = 0 /\
    taken_points f0 old m' /\ taken_edges f0 f1 old m' /\
    (forall d i, i < num d m' -> IsActive d i m' = Ok true /\ Marker d i m' = Ok 0%N).
Proof.
  intros Ho Few Hb G0 G1 C1. destruct (reachable_rep old Ho) as [a R]. destruct (blank_rr m Hb) as (b & Hm & Ha).
  set (F := fun d => match d with D0 => f0 | D1 => f1 | _ => [] end).
  pose proof (read_points old a R F G0) as E0. pose proof (read_edges old a R F G0 G1 C1) as E1. cbn [F] in E0, E1.
  set (c0 := (fun o => geo_triple (cell_at a D0 o)) <$> f0) in *. set (c1 := new_edge a f0 <$> f1) in *.
  assert (L0 : length c0 = length f0) by (unfold c0; by rewrite fmap_length).
  assert (Hd : does (fun m => m ← Ok (InitializeDimension 1 m); m ← fill_points c0 m; fill_edges c1 m) b (built (am_names b) c0 c1 [] [] 1)).
  { destruct (edges_below old a R F G0 G1 C1) as [B1 B2]. cbn [F] in B1, B2.
    eapply does_aeq; [eapply does_bind; [apply does_Dimension|eapply does_bind; [apply (stage_points c0 (AMesh 1 (am_cells b) (am_names b))), Ha|]];
      apply (stage_edges c1 (a1 b c0 1)); [apply Ha|by rewrite a1_num, L0..]|].
    fold (a2 b c0 c1 1). apply aeq_intro; [done..| |].
    - intros d. rewrite built_num. destruct (a2_num b c0 c1 1) as [N0 N1]. destruct d; [done..| |]; unfold anum, a2, a1; rewrite !wc_other by done; cbn; by rewrite Ha.
    - intros d i x y. unfold a2, a1. rewrite !wc_cells. cbn. rewrite Ha. destruct d; cbn; repeat case_decide; try done; intros Hx Hy; simplify_eq; apply ceq_refl. }
  destruct (Hd m Hm) as (m' & E & Hr).
  assert (Hrb : reads_back c0 c1 [] [] (fun _ _ => true) (fun _ _ => 0%N) m').
  { apply (built_reads (am_names b) c0 c1 [] [] 1).
    - pose proof (filter_few old Few D0 f0 G0). pose proof (filter_few old Few D1 f1 G1). unfold fits, few in *. unfold c1. rewrite L0, fmap_length. cbn; lia.
    - eapply represents_aeq; [apply Hr|]. apply built_marks0. }
  exists m', (table (num D0 old) f0), (table (num D1 old) f1). split_and!; try (by apply table_renumbering).
  - unfold ExtractMesh1D. rewrite E0. cbn [mbind outcome_bind fst snd]. rewrite E1. cbn [mbind outcome_bind fst snd] in *.
    destruct (fill_points c0 _); try done. cbn [mbind outcome_bind] in *. by rewrite E.
  - apply Hr.
  - destruct Hr as [_ R']. by rewrite (r_dim _ _ R').
  - destruct Hrb as ((-> & _) & _). done.
  - destruct Hrb as (_ & (-> & _) & _). unfold c1. by rewrite fmap_length.
  - by destruct Hrb as (_ & _ & (-> & _) & _).
  - by destruct Hrb as (_ & _ & _ & (-> & _) & _).
  - by eapply (took_points old a R F).
  - by eapply (took_edges old a R F).
  - destruct Hrb as (P0 & P1 & P2 & P3 & _). intros d i Hi.
    destruct d; [destruct P0 as [N P]|destruct P1 as [N P]|destruct P2 as [N P]|destruct P3 as [N P]]; rewrite N in Hi; by destruct (P i Hi) as (? & ? & _).
Qed.

Lemma extract2_ok old m f0 f1 f2 :
  reachable old -> (forall d, few (num d old)) -> blank m ->
  good_filter D0 f0 old -> good_filter D1 f1 old -> good_filter D2 f2 old ->
  closed_edges f0 f1 old -> closed_rows V2 f2 f0 old -> closed_rows E2 f2 f1 old -> same_numbers f2 old ->
  exists m' t0 t1 t2, ExtractMesh2D f0 f1 f2 old m = Ok (m', (t0, t1, t2)) /\ reachable m' /\ mdim m' = 2 /\
    renumbering (num D0 old) f0 t0 /\ renumbering (num D1 old) f1 t1 /\ renumbering (num D2 old) f2 t2 /\
    num D0 m' = length f0 /\ num D1 m' = length f1 /\ num D2 m' = length f2 /\ num D3 m' = 0 /\
    taken_points f0 old m' /\ taken_edges f0 f1 old m' /\ taken_rows V2 f2 f0 old m' /\ taken_rows E2 f2 f1 old m' /\
    taken_marks D0 f0 old m' /\ taken_marks D1 f1 old m' /\ taken_marks D2 f2 old m'.
Proof.
  intros Ho Few Hb G0 G1 G2 C1 C20 C21 Sn. destruct (reachable_rep old Ho) as [a R]. destruct (blank_rr m Hb) as (b & Hm & Ha).
  set (F := fun d => match d with D0 => f0 | D1 => f1 | D2 => f2 | D3 => [] end).
  pose proof (read_points old a R F G0) as E0. pose proof (read_edges old a R F G0 G1 C1) as E1.
  pose proof (read_polygons old a R F G0 G1 G2 C20 C21 Sn) as E2. cbn [F] in E0, E1, E2.
  set (c0 := (fun o => geo_triple (cell_at a D0 o)) <$> f0) in *. set (c1 := new_edge a f0 <$> f1) in *.
  set (c2 := new_polygon a f0 f1 <$> f2) in *.
  assert (L0 : length c0 = length f0) by (unfold c0; by rewrite fmap_length).
  assert (L1 : length c1 = length f1) by (unfold c1; by rewrite fmap_length).
  assert (L2 : length c2 = length f2) by (unfold c2; by rewrite fmap_length).
  set (B := built (am_names b) c0 c1 c2 [] 2).
  assert (Hd : does (fun m => m ← FillMesh2D c0 c1 c2 m; m ← copy_marks D0 f0 old m; m ← copy_marks D1 f1 old m; copy_marks D2 f2 old m) b
                    (amap (with_marks (acts a F) (marks a F)) B)).
  { eapply does_aeq; [eapply does_bind; [apply (fill2_does b Ha)|]; [|eapply does_bind; [apply (copy_does old a R F D0)|]; [done|by rewrite built_num|];
      eapply does_bind; [apply (copy_does old a R F D1)|]; [done|by rewrite amap_num, built_num|]; apply (copy_does old a R F D2);
      [done|by rewrite !amap_num, built_num]]|].
    - apply consistent_below. rewrite L0, L1. split_and!; [apply (edges_below old a R F G0 G1 C1)..| |constructor].
      apply (polygons_below old a R F G2 C20 C21 Sn).
    - apply aeq_intro; [done..| |].
      + intros d. by rewrite !amap_num.
      + intros d i x y. rewrite !amap_lookup. fold B. destruct (am_cells B d !! i) as [z|] eqn:Hz; [|done]. cbn. intros [= <-] [= <-].
        unfold in_dim. destruct d; cbn in Hz; try done; repeat (destruct (decide _); try done); apply ceq_refl. }
  destruct (Hd m Hm) as (m' & E & Hr).
  assert (Hrb : reads_back c0 c1 c2 [] (acts a F) (marks a F) m').
  { apply (built_reads (am_names b) c0 c1 c2 [] 2); [|apply Hr].
    pose proof (filter_few old Few D0 f0 G0). pose proof (filter_few old Few D1 f1 G1). pose proof (filter_few old Few D2 f2 G2).
    unfold fits, few in *. rewrite L0, L1, L2. cbn; lia. }
  exists m', (table (num D0 old) f0), (table (num D1 old) f1), (table (num D2 old) f2). split_and!; try (by apply table_renumbering).
  - unfold ExtractMesh2D. rewrite E0. cbn [mbind outcome_bind fst snd]. rewrite E1. cbn [mbind outcome_bind fst snd]. rewrite E2.
    cbn [mbind outcome_bind fst snd].
    destruct (FillMesh2D c0 c1 c2 m) as [m1| | | |]; try done. cbn [mbind outcome_bind] in *.
    destruct (copy_marks D0 f0 old m1) as [m2| | | |]; try done. cbn [mbind outcome_bind] in *.
    destruct (copy_marks D1 f1 old m2) as [m3| | | |]; try done. cbn [mbind outcome_bind] in *. by rewrite E.
  - apply Hr.
  - destruct Hr as [_ R']. by rewrite (r_dim _ _ R').
  - by destruct Hrb as ((-> & _) & _).
  - by destruct Hrb as (_ & (-> & _) & _).
  - by destruct Hrb as (_ & _ & (-> & _) & _).
  - by destruct Hrb as (_ & _ & _ & (-> & _) & _).
  - by eapply (took_points old a R F).
  - by eapply (took_edges old a R F).
  - by eapply (took_polygons old a R F).
  - by eapply (took_polygons old a R F).
  - by eapply (took_marks old a R F D0).
  - by eapply (took_marks old a R F D1).
  - by eapply (took_marks old a R F D2).
Qed.

Lemma extract3_ok old m f0 f1 f2 f3 :
  reachable old -> (forall d, few (num d old)) -> blank m ->
  good_filter D0 f0 old -> good_filter D1 f1 old -> good_filter D2 f2 old -> good_filter D3 f3 old ->
  closed_edges f0 f1 old -> closed_rows V2 f2 f0 old -> closed_rows E2 f2 f1 old -> same_numbers f2 old ->
  closed_rows V3 f3 f0 old -> closed_rows E3 f3 f1 old -> closed_rows F3 f3 f2 old ->
  exists m' t0 t1 t2 t3, ExtractMesh3D f0 f1 f2 f3 old m = Ok (m', (t0, t1, t2, t3)) /\ reachable m' /\ mdim m' = 3 /\
    renumbering (num D0 old) f0 t0 /\ renumbering (num D1 old) f1 t1 /\ renumbering (num D2 old) f2 t2 /\
    renumbering (num D3 old) f3 t3 /\
    num D0 m' = length f0 /\ num D1 m' = length f1 /\ num D2 m' = length f2 /\ num D3 m' = length f3 /\
    taken_points f0 old m' /\ taken_edges f0 f1 old m' /\ taken_rows V2 f2 f0 old m' /\ taken_rows E2 f2 f1 old m' /\
    taken_rows V3 f3 f0 old m' /\ taken_rows E3 f3 f1 old m' /\ taken_rows F3 f3 f2 old m' /\
    taken_marks D0 f0 old m' /\ taken_marks D1 f1 old m' /\ taken_marks D2 f2 old m' /\ taken_marks D3 f3 old m'.
Proof.
  intros Ho Few Hb G0 G1 G2 G3 C1 C20 C21 Sn C30 C31 C32. destruct (reachable_rep old Ho) as [a R]. destruct (blank_rr m Hb) as (b & Hm & Ha).
  set (F := fun d => match d with D0 => f0 | D1 => f1 | D2 => f2 | D3 => f3 end).
  pose proof (read_points old a R F G0) as E0. pose proof (read_edges old a R F G0 G1 C1) as E1.
  pose proof (read_polygons old a R F G0 G1 G2 C20 C21 Sn) as E2.
  pose proof (read_polyhedra old a R F G0 G1 G2 G3 C30 C31 C32) as E3. cbn [F] in E0, E1, E2, E3.
  set (c0 := (fun o => geo_triple (cell_at a D0 o)) <$> f0) in *. set (c1 := new_edge a f0 <$> f1) in *.
  set (c2 := new_polygon a f0 f1 <$> f2) in *. set (c3 := new_polyhedron a f0 f1 f2 <$> f3) in *.
  assert (L0 : length c0 = length f0) by (unfold c0; by rewrite fmap_length).
  assert (L1 : length c1 = length f1) by (unfold c1; by rewrite fmap_length).
  assert (L2 : length c2 = length f2) by (unfold c2; by rewrite fmap_length).
  assert (L3 : length c3 = length f3) by (unfold c3; by rewrite fmap_length).
  set (B := built (am_names b) c0 c1 c2 c3 3).
  assert (Hd : does (fun m => m ← FillMesh3D c0 c1 c2 c3 m; m ← copy_marks D0 f0 old m; m ← copy_marks D1 f1 old m;
                              m ← copy_marks D2 f2 old m; copy_marks D3 f3 old m) b
                    (amap (with_marks (acts a F) (marks a F)) B)).
  { eapply does_aeq; [eapply does_bind; [apply (fill3_does b Ha)|]; [|eapply does_bind; [apply (copy_does old a R F D0)|]; [done|by rewrite built_num|];
      eapply does_bind; [apply (copy_does old a R F D1)|]; [done|by rewrite amap_num, built_num|];
      eapply does_bind; [apply (copy_does old a R F D2)|]; [done|by rewrite !amap_num, built_num|]; apply (copy_does old a R F D3);
      [done|by rewrite !amap_num, built_num]]|].
    - apply consistent_below. rewrite L0, L1, L2. split_and!; [apply (edges_below old a R F G0 G1 C1)..| |].
      + apply (polygons_below old a R F G2 C20 C21 Sn).
      + apply (polyhedra_below old a R F G3 C30 C31 C32).
    - apply aeq_intro; [done..| |].
      + intros d. by rewrite !amap_num.
      + intros d i x y. rewrite !amap_lookup. fold B. destruct (am_cells B d !! i) as [z|] eqn:Hz; [|done]. cbn. intros [= <-] [= <-].
        unfold in_dim. destruct d; repeat (destruct (decide _); try done); apply ceq_refl. }
  destruct (Hd m Hm) as (m' & E & Hr).
  assert (Hrb : reads_back c0 c1 c2 c3 (acts a F) (marks a F) m').
  { apply (built_reads (am_names b) c0 c1 c2 c3 3); [|apply Hr].
    pose proof (filter_few old Few D0 f0 G0). pose proof (filter_few old Few D1 f1 G1). pose proof (filter_few old Few D2 f2 G2).
    pose proof (filter_few old Few D3 f3 G3). unfold fits, few in *. rewrite L0, L1, L2, L3. lia. }
  exists m', (table (num D0 old) f0), (table (num D1 old) f1), (table (num D2 old) f2), (table (num D3 old) f3).
  split_and!; try (by apply table_renumbering).
  - unfold ExtractMesh3D. rewrite E0. cbn [mbind outcome_bind fst snd]. rewrite E1. cbn [mbind outcome_bind fst snd]. rewrite E2.
    cbn [mbind outcome_bind fst snd]. rewrite E3. cbn [mbind outcome_bind fst snd].
    destruct (FillMesh3D c0 c1 c2 c3 m) as [m1| | | |]; try done. cbn [mbind outcome_bind] in *.
    destruct (copy_marks D0 f0 old m1) as [m2| | | |]; try done. cbn [mbind outcome_bind] in *.
    destruct (copy_marks D1 f1 old m2) as [m3| | | |]; try done. cbn [mbind outcome_bind] in *.
    destruct (copy_marks D2 f2 old m3) as [m4| | | |]; try done. cbn [mbind outcome_bind] in *. by rewrite E.
  - apply Hr.
  - destruct Hr as [_ R']. by rewrite (r_dim _ _ R').
  - by destruct Hrb as ((-> & _) & _).
  - by destruct Hrb as (_ & (-> & _) & _).
  - by destruct Hrb as (_ & _ & (-> & _) & _).
  - by destruct Hrb as (_ & _ & _ & (-> & _) & _).
  - by eapply (took_points old a R F).
  - by eapply (took_edges old a R F).
  - by eapply (took_polygons old a R F).
  - by eapply (took_polygons old a R F).
  - by eapply (took_polyhedra old a R F).
  - by eapply (took_polyhedra old a R F).
  - by eapply (took_polyhedra old a R F).
  - by eapply (took_marks old a R F D0).
  - by eapply (took_marks old a R F D1).
  - by eapply (took_marks old a R F D2).
  - by eapply (took_marks old a R F D3).
Qed.

Lemma extract2_marks old m f0 f1 f2 m' t :
  reachable old -> (forall d, few (num d old)) -> blank m ->
  good_filter D0 f0 old -> good_filter D1 f1 old -> good_filter D2 f2 old ->
  closed_edges f0 f1 old -> closed_rows V2 f2 f0 old -> closed_rows E2 f2 f1 old -> same_numbers f2 old ->
  ExtractMesh2D f0 f1 f2 old m = Ok (m', t) ->
  taken_marks D0 f0 old m' /\ taken_marks D1 f1 old m' /\ taken_marks D2 f2 old m'.
Proof.
  intros H1 H2 H3 H4 H5 H6 H7 H8 H9 H10 E.
  destruct (extract2_ok old m f0 f1 f2 H1 H2 H3 H4 H5 H6 H7 H8 H9 H10) as (m2 & t0 & t1 & t2 & E' & K).
  rewrite E in E'. injection E' as <- ?. tauto.
Qed.
Lemma extract3_marks old m f0 f1 f2 f3 m' t :
  reachable old -> (forall d, few (num d old)) -> blank m ->
  good_filter D0 f0 old -> good_filter D1 f1 old -> good_filter D2 f2 old -> good_filter D3 f3 old ->
  closed_edges f0 f1 old -> closed_rows V2 f2 f0 old -> closed_rows E2 f2 f1 old -> same_numbers f2 old ->
  closed_rows V3 f3 f0 old -> closed_rows E3 f3 f1 old -> closed_rows F3 f3 f2 old ->
  ExtractMesh3D f0 f1 f2 f3 old m = Ok (m', t) ->
  taken_marks D0 f0 old m' /\ taken_marks D1 f1 old m' /\ taken_marks D2 f2 old m' /\ taken_marks D3 f3 old m'.
Proof.
  intros H1 H2 H3 H4 H5 H6 H7 H8 H9 H10 H11 H12 H13 H14 E.
  destruct (extract3_ok old m f0 f1 f2 f3 H1 H2 H3 H4 H5 H6 H7 H8 H9 H10 H11 H12 H13 H14) as (m2 & t0 & t1 & t2 & t3 & E' & K).
  rewrite E in E'. injection E' as <- ?. tauto.
Qed.
