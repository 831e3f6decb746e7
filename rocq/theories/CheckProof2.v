(** * The checks of plane meshes: distances and areas. *)
From Coq Require Import QArith Qcanon.
From Coq Require Import ZifyBool ZifyNat ZifyN.
From Verif Require Import Base BaseProof QcTac FillModel GeoModel MapModel PointModel PointSpec PointProof PolyModel PolySpec PolyProof HullModel CsrModel
  MeshModel MeshSpec MeshRep MeshHist MeshProof MeshProof8 MeshProof9 MeshProofE UtilSpec RefineModel RefineSpec CheckModel CheckSpec CheckProof.
Local Open Scope nat_scope.

Lemma point_iff A m v p : Point A v m = Ok p <-> placed A m v p.
Proof.
  unfold Point, placed. rewrite bind_ok. split.
  - intros ([[x y] z] & C & [= <-]). exists x, y, z. done.
  - intros (x & y & z & C & ->). exists (x, y, z). done.
Qed.
Lemma apart_iff g p q : (0 <= MinTolerance g)%Qc -> (0 <= cfgTolerance1D g)%Qc -> negb (PointsAreCoincident g p q) = true <-> apart g p q.
Proof.
  intros P P2. unfold PointsAreCoincident, norm_zero, apart. rewrite negb_true_iff.
  assert (norm2 (vsub q p) = distance2 p q) as -> by (unfold norm2, vdot, vsub, distance2; cbn [fst snd]; ring).
  generalize (distance2 p q). intros d. unfold max_tolerance, Tolerance1D.
  destruct (qle_spec d (qmax (qabs (qmax (MinTolerance g) (cfgTolerance1D g))) (MinTolerance g) * qmax (qabs (qmax (MinTolerance g) (cfgTolerance1D g))) (MinTolerance g))) as [L|L].
  - split; [done|]. intros [H1 H2]. exfalso. revert L. generalize dependent (MinTolerance g). generalize dependent (cfgTolerance1D g). intros c P2 H2 t P H1.
    qcases; intros; qlra.
  - split; [|done]. intros _. revert L. generalize dependent (MinTolerance g). generalize dependent (cfgTolerance1D g). intros c P2 t P.
    qcases; intros L; split; qnra.
Qed.

Section mesh.
Context (A : arith) (m : mesh) (RM : reachable m).

Lemma placed_some v : v < num D0 m -> exists p, placed A m v p.
Proof.
  intros L. destruct (reachable_rep m RM) as [a H]. unfold placed. rewrite (g_coord _ _ H).
  rewrite (g_num _ _ H) in L. unfold look, anum in *. destruct (lookup_lt_is_Some_2 _ _ L) as [x X]. rewrite X.
  destruct (geo_triple x) as [[a1 a2] a3]. eexists _, a1, a2, a3. done.
Qed.
Lemma placed_lt v p : placed A m v p -> v < num D0 m.
Proof. intros (x & y & z & C & _). revert C. unfold Cell0DCoordinates. destruct (v <? num D0 m) eqn:L; [intros _; lia|done]. Qed.
Lemma placed_fun v p q : placed A m v p -> placed A m v q -> p = q.
Proof. rewrite <- !point_iff. congruence. Qed.

Lemma flat_iff : (ps ← Points A m; b ← PointsAre2D (geo A) ps; require b) = Ok tt <->
  0 < num D0 m /\ forall v p, placed A m v p -> (qabs p.2 <= cfgTolerance1D (geo A))%Qc.
Proof.
  assert (exists ps, Points A m = Ok ps /\ length ps = num D0 m /\ forall v p, ps !! v = Some p <-> placed A m v p) as (ps & E & L & H).
  { assert (forall n, n <= num D0 m -> exists ps, Forall2 (fun v p => Point A v m = Ok p) (seq 0 n) ps) as K.
    { intros n. induction n as [|n IH]; intros LN; [exists []; constructor|]. destruct IH as [ps F]; [lia|]. rewrite seq_S.
      destruct (placed_some n) as [p P]; [lia|]. exists (ps ++ [p]). apply Forall2_app; [done|]. constructor; [|done]. by apply point_iff. }
    destruct (K (num D0 m)) as [ps F]; [done|]. exists ps. split; [by apply omapM_ok|].
    pose proof (Forall2_length _ _ _ F) as LL. rewrite seq_length in LL. split; [done|]. intros v p. split.
    - intros P. destruct (Forall2_lookup_r _ _ _ _ _ F P) as (w & W & Q). apply lookup_seq in W as [-> _]. by apply point_iff.
    - intros P. pose proof (placed_lt v p P) as LV. destruct (lookup_lt_is_Some_2 ps v) as [q Q]; [lia|].
      destruct (Forall2_lookup_r _ _ _ _ _ F Q) as (w & W & Z). apply lookup_seq in W as [-> _]. apply point_iff in Z. cbn in Z.
      by rewrite (placed_fun v p q P Z). }
  rewrite E. cbn [mbind outcome_bind]. unfold PointsAre2D. rewrite L.
  destruct (Nat.eqb_spec (num D0 m) 0) as [Z|NZ]; cbn [negb require mbind outcome_bind]; [split; [done|lia]|].
  rewrite req, forallb_forall. split.
  - intros F. split; [lia|]. intros v p P. apply H in P. specialize (F p). destruct (qle_spec (qabs p.2) (cfgTolerance1D (geo A))) as [|N]; [done|].
    discriminate F. apply elem_of_list_In. by eapply elem_of_list_lookup_2.
  - intros [_ F] p P. apply elem_of_list_In, elem_of_list_lookup in P as [v V]. apply H in V.
    destruct (qle_spec (qabs p.2) (cfgTolerance1D (geo A))) as [|N]; [done|]. exfalso. apply N. by apply (F v).
Qed.

Context (T0 : (0 <= MinTolerance (geo A))%Qc) (T1 : (0 <= cfgTolerance1D (geo A))%Qc).
Lemma apart_sym p q : apart (geo A) p q -> apart (geo A) q p.
Proof. unfold apart. assert (distance2 q p = distance2 p q) as -> by (unfold distance2; ring). done. Qed.
Lemma points_iff : check_points A m = Ok tt <->
  forall v w p q, v <> w -> placed A m v p -> placed A m w q -> apart (geo A) p q.
Proof.
  unfold check_points. rewrite each_ok. setoid_rewrite each_ok. split.
  - intros H. assert (forall v w p q, v < w -> placed A m v p -> placed A m w q -> apart (geo A) p q) as K.
    { intros v w p q L P Q. specialize (H v). rewrite elem_of_seq in H. pose proof (placed_lt v p P). pose proof (placed_lt w q Q).
      specialize (H ltac:(lia) w). rewrite elem_above in H. specialize (H ltac:(lia)).
      apply point_iff in P. apply point_iff in Q. rewrite P in H. cbn [mbind outcome_bind] in H. rewrite Q in H. cbn [mbind outcome_bind] in H.
      by rewrite req, apart_iff in H. }
    intros v w p q N P Q. destruct (decide (v < w)) as [L|GE]; [by apply (K v w)|]. apply apart_sym, (K w v); [lia|done|done].
  - intros H v VL w WL. apply elem_of_seq in VL. apply elem_above in WL. destruct (placed_some v) as [p P]; [lia|].
    destruct (placed_some w) as [q Q]; [lia|]. pose proof (H v w p q ltac:(lia) P Q) as K. apply point_iff in P. apply point_iff in Q.
    rewrite P. cbn [mbind outcome_bind]. rewrite Q. cbn [mbind outcome_bind]. by rewrite req, apart_iff.
Qed.
Lemma lengths_iff : (forall e, e < num D1 m -> good_edge m e) ->
  each (fun e => check_length A e m) (seq 0 (num D1 m)) = Ok tt <->
  forall e o t p q, ends m e o t -> placed A m (N.to_nat o) p -> placed A m (N.to_nat t) q -> apart (geo A) p q.
Proof.
  intros G. rewrite each_ok. split.
  - intros H e o t p q E P Q. pose proof (ends_lt m e o t E) as L. specialize (H e). rewrite elem_of_seq in H. specialize (H ltac:(lia)).
    destruct E as [O T]. apply point_iff in P. apply point_iff in Q. unfold check_length in H. rewrite O in H. cbn [mbind outcome_bind] in H.
    rewrite P in H. cbn [mbind outcome_bind] in H. rewrite T in H. cbn [mbind outcome_bind] in H. rewrite Q in H. cbn [mbind outcome_bind] in H.
    by rewrite req, apart_iff in H.
  - intros H e EL. apply elem_of_seq in EL. destruct (G e) as (o & t & E & EO & ET & _ & _); [lia|]. unfold exists_in in EO, ET.
    destruct (placed_some (N.to_nat o)) as [p P]; [lia|]. destruct (placed_some (N.to_nat t)) as [q Q]; [lia|].
    pose proof (H e o t p q E P Q) as K. destruct E as [O T]. apply point_iff in P. apply point_iff in Q. unfold check_length.
    rewrite O. cbn [mbind outcome_bind]. rewrite P. cbn [mbind outcome_bind]. rewrite T. cbn [mbind outcome_bind]. rewrite Q. cbn [mbind outcome_bind].
    by rewrite req, apart_iff.
Qed.
Lemma cell_points_iff c ps : CellPoints A c m = Ok ps <-> outline A m c ps.
Proof.
  unfold CellPoints, outline. split.
  - intros H. apply bind_ok in H as (n & N & H).
    assert (c < num D2 m) as L by (revert N; unfold RelNumber; cbn [src]; destruct (c <? num D2 m) eqn:Z; [intros _; lia|done]).
    destruct (row_some m RM V2 c L) as [vs R]. exists vs. split; [done|]. rewrite (number_row m RM _ _ _ R) in N. injection N as <-.
    rewrite Nat2N.id in H. apply omapM_ok in H. apply Forall2_same_length_lookup. pose proof (Forall2_length _ _ _ H) as LL. rewrite seq_length in LL.
    split; [done|]. intros i v p V P. destruct (Forall2_lookup_r _ _ _ _ _ H P) as (k & K & Q). apply lookup_seq in K as [-> _]. cbn in Q.
    rewrite (get_row m RM _ _ _ _ R), V in Q. cbn [mbind outcome_bind] in Q. by apply point_iff.
  - intros (vs & R & F). rewrite (number_row m RM _ _ _ R). cbn [mbind outcome_bind]. rewrite Nat2N.id. apply omapM_ok.
    pose proof (Forall2_length _ _ _ F) as LL. apply Forall2_same_length_lookup. split; [by rewrite seq_length|].
    intros i k p K P. apply lookup_seq in K as [-> _]. cbn. destruct (Forall2_lookup_r _ _ _ _ _ F P) as (v & V & Q).
    rewrite (get_row m RM _ _ _ _ R), V. cbn [mbind outcome_bind]. by apply point_iff.
Qed.
Lemma area_value ps a : PolygonArea (geo A) ps = Ok a <-> accepted (geo A) ps /\ a = signed_area ps.
Proof.
  split.
  - intros H. assert (accepted (geo A) ps) as AC.
    { unfold PolygonArea in H. apply bind_ok in H as ([] & H & _). unfold require_polygon_2D in H. apply bind_ok in H as (b & B & H). rewrite req in H.
      unfold PointsAre2D in B. apply bind_ok in B as ([] & _ & B). injection B as <-. apply andb_true_iff in H as [H1 H2]. split; [by apply Nat.ltb_lt|].
      apply Forall_forall. intros p P. rewrite forallb_forall in H1. specialize (H1 p ltac:(by apply elem_of_list_In)).
      by destruct (qle_spec (qabs p.2) (cfgTolerance1D (geo A))). }
    split; [done|]. rewrite (area_fan (geo A) ps (0, 0, 0)%Qc AC) in H. by injection H.
  - intros [AC ->]. by apply area_fan.
Qed.
Lemma areas_iff c : check_area A c m = Ok tt <-> exists ps, outline A m c ps /\ accepted (geo A) ps /\
  (MinTolerance (geo A) < signed_area ps /\ qabs (Tolerance2D A) < signed_area ps)%Qc.
Proof.
  unfold check_area. rewrite bind_ok. setoid_rewrite cell_points_iff. setoid_rewrite bind_ok. setoid_rewrite area_value. setoid_rewrite req.
  assert (forall a, IsValuePositive (geo A) a (Tolerance2D A) = true <-> (MinTolerance (geo A) < a /\ qabs (Tolerance2D A) < a)%Qc) as K.
  { intros a. rewrite positive_iff. unfold max_tolerance. clear. generalize (qabs (Tolerance2D A)). intros t. qcases; (split; [intros; split|intros []]); qlra. }
  split.
  - intros (ps & O & a & [AC ->] & P). exists ps. apply K in P. done.
  - intros (ps & O & AC & P). exists ps. split; [done|]. exists (signed_area ps). split; [done|]. by apply K.
Qed.

Lemma check_iff k : balanced m -> Cell1D_CheckDuplications k = true -> Cell2D_CheckConvexity k = false ->
  CheckMesh2D A k m = Ok tt <-> plane_mesh A k m.
Proof.
  intros B F1 F2. unfold CheckMesh2D. rewrite !seq_bind_ok, !when_ok, req, F1, F2. rewrite flat_iff, points_iff, (edges_iff m RM), (cells_iff m RM).
  rewrite !each_ok. split.
  - intros (D & H1 & H2 & H3 & H4 & H5 & H6 & H7 & _ & H9). specialize (H3 eq_refl). constructor.
    + by apply Nat.eqb_eq.
    + done.
    + done.
    + done.
    + intros FL e L. apply (neighbours_iff m RM); [done|done|done|]. apply H4; [done|]. apply elem_of_seq. lia.
    + intros FL. apply lengths_iff; [done|]. apply each_ok. by apply H5.
    + intros FL c L. apply (sides_iff m RM); [done|done|done|]. apply H6; [done|]. apply elem_of_seq. lia.
    + done.
    + intros FL c L. apply areas_iff. apply H9; [done|]. apply elem_of_seq. lia.
  - intros [D H1 H2 H3 H4 H5 H6 H7 H9]. split_and!.
    + by apply Nat.eqb_eq.
    + done.
    + done.
    + done.
    + intros FL e L. apply elem_of_seq in L. apply (neighbours_iff m RM); [done|done|lia|]. apply H4; [done|]. lia.
    + intros FL. apply each_ok. apply lengths_iff; [done|]. by apply H5.
    + intros FL c L. apply elem_of_seq in L. apply (sides_iff m RM); [done|done|lia|]. apply H6; [done|]. lia.
    + done.
    + done.
    + intros FL c L. apply elem_of_seq in L. apply areas_iff. apply H9; [done|]. lia.
Qed.
End mesh.
