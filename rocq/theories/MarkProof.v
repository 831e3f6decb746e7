(** * Markers along a line, and first ancestors: proofs. *)
From Coq Require Import QArith Qcanon.
From Coq Require Import ZifyBool ZifyNat ZifyN.
From Verif Require Import Base BaseProof QcTac FillModel GeoModel MapModel PointModel PointSpec PointProof IntersectModel IntersectSpec IntersectProof PolyModel HullModel CsrModel
  MeshModel MeshSpec MeshRep MeshHist MeshProof MeshProof8 MeshProof9 MeshProofB MeshProg UtilModel UtilProofD RefineModel MarkModel MarkSpec.
Local Open Scope nat_scope.

(** ** Marking what a test finds *)
Section marks.
Context (A : arith) (on : vec3 -> outcome bool) (f : vec3 -> bool) (Hf : forall p, on p = Ok (f p)) (k : N) (a : amesh).

Definition found (i : nat) : bool :=
  match am_cells a D0 !! i with Some x => f (point_of A (geo_triple x)) | None => false end.
Definition bits (j : nat) : list bool := (fun i => (i <? j) && found i) <$> seq 0 (anum D0 a).
Definition vs (j : nat) : dim -> nat -> acell -> acell := fun d i x =>
  if decide (d = D0 /\ i < j /\ found i = true) then with_mark k x else x.
Definition joined (x : acell) : bool := found (N.to_nat (geo_pair x).1) && found (N.to_nat (geo_pair x).2).
Definition vse (j : nat) : dim -> nat -> acell -> acell := fun d i x =>
  if decide (d = D1 /\ i < j /\ joined x = true) then with_mark k x else vs (anum D0 a) d i x.

Lemma bits_lookup j i : i < anum D0 a -> bits j !! i = Some ((i <? j) && found i).
Proof. intros L. unfold bits. rewrite list_lookup_fmap, lookup_seq_lt by done. done. Qed.
Lemma bits_length j : length (bits j) = anum D0 a.
Proof. unfold bits. by rewrite fmap_length, seq_length. Qed.
Lemma bits_none : replicate (anum D0 a) false = bits 0.
Proof.
  unfold bits. apply list_eq. intros i. rewrite list_lookup_fmap. destruct (decide (i < anum D0 a)) as [L|L].
  - rewrite lookup_replicate_2 by done. rewrite lookup_seq_lt by done. done.
  - rewrite (lookup_ge_None_2 (replicate _ _)) by (rewrite replicate_length; lia). rewrite lookup_seq_ge by lia. done.
Qed.
Lemma bits_next j : j < anum D0 a -> bits (S j) = if found j then <[j := true]> (bits j) else bits j.
Proof.
  intros L. apply list_eq. intros i. destruct (decide (i < anum D0 a)) as [I|I].
  - rewrite bits_lookup by done. destruct (decide (i = j)) as [-> | D].
    + destruct (found j) eqn:F.
      * rewrite list_lookup_insert by (rewrite bits_length; done). f_equal. lia.
      * rewrite bits_lookup by done. rewrite F. by rewrite !andb_false_r.
    + assert (bits j !! i = Some ((i <? S j) && found i)) as E. { rewrite bits_lookup by done. do 2 f_equal. lia. }
      destruct (found j); [rewrite list_lookup_insert_ne by done|]; by rewrite E.
  - rewrite !lookup_ge_None_2; [done| |rewrite bits_length; lia]. destruct (found j); rewrite ?insert_length, bits_length; lia.
Qed.

Lemma vs_geo j d i x : ac_geo (vs j d i x) = ac_geo x.
Proof. unfold vs. by destruct (decide _). Qed.
Lemma vse_geo j d i x : ac_geo (vse j d i x) = ac_geo x.
Proof. unfold vse. destruct (decide _); [done|apply vs_geo]. Qed.

Lemma found_at F j m : (forall d i x, ac_geo (F d i x) = ac_geo x) -> rr m (amap F a) -> j < anum D0 a ->
  exists p, Point A j m = Ok p /\ f p = found j.
Proof.
  intros G [_ R] L. unfold Point. rewrite (g_coord _ _ R). unfold look. rewrite amap_lookup. unfold found.
  destruct (lookup_lt_is_Some_2 (am_cells a D0) j L) as [x X]. rewrite X. cbn [fmap option_fmap option_map mbind outcome_bind].
  eexists. split; [reflexivity|]. unfold geo_triple. by rewrite G.
Qed.

Lemma mark_vertices_loop n j m : rr m (amap (vs j) a) -> j + n = anum D0 a ->
  exists m', ofold (fun s v =>
    p ← Point A v (fst s);
    b ← on p;
    if b : bool then
      bits ← vset (snd s) v true;
      m' ← SetMarker D0 v k (fst s);
      Ok (m', bits)
    else Ok s) (seq j n) (m, bits j) = Ok (m', bits (anum D0 a)) /\ rr m' (amap (vs (anum D0 a)) a).
Proof.
  revert j m. induction n as [|n IH]; intros j m H L.
  { cbn [seq ofold]. exists m. replace (anum D0 a) with j by lia. done. }
  cbn [seq ofold fst snd]. destruct (found_at (vs j) j m (vs_geo j) H ltac:(lia)) as (p & -> & F). cbn [mbind outcome_bind].
  rewrite Hf, F. cbn [mbind outcome_bind]. pose proof (bits_next j ltac:(lia)) as B. destruct (found j) eqn:E.
  - rewrite vset_Ok by (rewrite bits_length; lia). cbn [mbind outcome_bind].
    destruct (does_Marker (vs j) a D0 j k ltac:(lia) m H) as (m1 & -> & H1). cbn [mbind outcome_bind]. rewrite <- B.
    apply IH; [|lia]. eapply rr_aeq; [exact H1|]. apply amap_ext. intros d i x X. unfold also, vs.
    destruct (decide (d = D0 /\ i = j)) as [[-> ->]|D].
    + rewrite (decide_False (P := D0 = D0 /\ j < j /\ _)) by lia. rewrite decide_True by (split_and!; [done|lia|done]). apply ceq_refl.
    + destruct (decide (d = D0 /\ i < j /\ found i = true)) as [(? & ? & ?)|N].
      * rewrite decide_True by (split_and!; [done|lia|done]). apply ceq_refl.
      * rewrite decide_False; [apply ceq_refl|]. intros (-> & Y & Z). apply N. split_and!; [done| |done].
        assert (i <> j) by (intros ->; by apply D). lia.
  - rewrite <- B. apply IH; [|lia]. eapply rr_aeq; [exact H|]. apply amap_ext. intros d i x X. unfold vs.
    destruct (decide (d = D0 /\ i < j /\ found i = true)) as [(? & ? & ?)|N].
    + rewrite decide_True by (split_and!; [done|lia|done]). apply ceq_refl.
    + rewrite decide_False; [apply ceq_refl|]. intros (-> & Y & Z). apply N. split_and!; [done| |done].
      assert (i <> j) by congruence. lia.
Qed.

Lemma mark_vertices_ok m : rr m a ->
  exists m', mark_vertices A on k m = Ok (m', bits (anum D0 a)) /\ rr m' (amap (vs (anum D0 a)) a).
Proof.
  intros H. unfold mark_vertices. rewrite (g_num _ _ (proj2 H)), bits_none. apply mark_vertices_loop; [|lia].
  eapply rr_aeq; [eapply rr_aeq; [exact H|apply amap_keep]|]. apply amap_ext. intros d i x _. unfold keep, vs.
  rewrite decide_False by lia. apply ceq_refl.
Qed.

Lemma mark_edges_ok :
  (forall e x, am_cells a D1 !! e = Some x -> N.to_nat (geo_pair x).1 < anum D0 a /\ N.to_nat (geo_pair x).2 < anum D0 a) ->
  does (fun m => ofold (fun m s =>
    o ← Cell1DOrigin s m;
    t ← Cell1DEnd s m;
    b ← vget (bits (anum D0 a)) (N.to_nat o);
    if b : bool then
      c ← vget (bits (anum D0 a)) (N.to_nat t);
      if c : bool then SetMarker D1 s k m else Ok m
    else Ok m) (seq 0 (anum D1 a)) m) (amap (vs (anum D0 a)) a) (amap (vse (anum D1 a)) a).
Proof.
  intros W m Hm. assert (rr m (amap (vse 0) a)) as Hm'.
  { eapply rr_aeq; [exact Hm|]. apply amap_ext. intros d i x _. unfold vse. rewrite decide_False by lia. apply ceq_refl. }
  clear Hm. revert m Hm'. apply (does_seq _ (anum D1 a) (fun j => amap (vse j) a)). intros j J m Hm.
  pose proof (proj2 Hm) as R. destruct (lookup_lt_is_Some_2 (am_cells a D1) j J) as [x X].
  destruct (W j x X) as [L1 L2].
  assert (geo_pair (vse j D1 j x) = geo_pair x) as G by (unfold geo_pair; by rewrite vse_geo).
  rewrite (g_origin _ _ R), (g_end _ _ R). unfold look. rewrite amap_lookup, X. cbn [fmap option_fmap option_map mbind outcome_bind].
  rewrite G. rewrite (vget_Ok _ _ _ (bits_lookup _ _ L1)). cbn [mbind outcome_bind].
  replace (N.to_nat (geo_pair x).1 <? anum D0 a) with true by lia. rewrite andb_true_l.
  assert (joined x = false -> rr m (amap (vse (S j)) a)) as SAME.
  { intros Q. eapply rr_aeq; [exact Hm|]. apply amap_ext. intros d i y Y. unfold vse.
    destruct (decide (d = D1 /\ i < j /\ joined y = true)) as [(? & ? & ?)|N].
    - rewrite decide_True by (split_and!; [done|lia|done]). apply ceq_refl.
    - rewrite decide_False; [apply ceq_refl|]. intros (-> & Z & Z'). apply N. split_and!; [done| |done].
      assert (i <> j) by (intros ->; congruence). lia. }
  destruct (found (N.to_nat (geo_pair x).1)) eqn:F1.
  - rewrite (vget_Ok _ _ _ (bits_lookup _ _ L2)). cbn [mbind outcome_bind].
    replace (N.to_nat (geo_pair x).2 <? anum D0 a) with true by lia. rewrite andb_true_l.
    destruct (found (N.to_nat (geo_pair x).2)) eqn:F2.
    + destruct (does_Marker (vse j) a D1 j k J m Hm) as (m1 & E1 & H1). exists m1. split; [exact E1|].
      assert (joined x = true) as JX by (unfold joined; by rewrite F1, F2).
      eapply rr_aeq; [exact H1|]. apply amap_ext. intros d i y Y. unfold also.
      destruct (decide (d = D1 /\ i = j)) as [[-> ->]|D].
      * rewrite X in Y. injection Y as <-. unfold vse. rewrite (decide_False (P := D1 = D1 /\ j < j /\ _)) by lia.
        rewrite decide_True by (split_and!; [done|lia|done]). unfold vs. rewrite decide_False by (intros [? _]; done). apply ceq_refl.
      * unfold vse. destruct (decide (d = D1 /\ i < j /\ joined y = true)) as [(? & ? & ?)|N].
        -- rewrite decide_True by (split_and!; [done|lia|done]). apply ceq_refl.
        -- rewrite decide_False; [apply ceq_refl|]. intros (-> & Z & Z'). apply N. split_and!; [done| |done].
           assert (i <> j) by (intros ->; by apply D). lia.
    + exists m. split; [done|]. apply SAME. unfold joined. by rewrite F1, F2.
  - exists m. split; [done|]. apply SAME. unfold joined. by rewrite F1.
Qed.

Lemma vse_upd j d i x : ac_upd (vse j d i x) = ac_upd x.
Proof. unfold vse, vs. repeat destruct (decide _); done. Qed.
Lemma vse_act j d i x : ac_act (vse j d i x) = ac_act x.
Proof. unfold vse, vs. repeat destruct (decide _); done. Qed.
Lemma vse_orig j d i x : ac_orig (vse j d i x) = ac_orig x.
Proof. unfold vse, vs. repeat destruct (decide _); done. Qed.
Lemma vse_rel j d i x : ac_rel (vse j d i x) = ac_rel x.
Proof. unfold vse, vs. repeat destruct (decide _); done. Qed.

Lemma look_same {B} (g : acell -> B) d i : (forall x, g (vse (anum D1 a) d i x) = g x) -> look (amap (vse (anum D1 a)) a) d i g = look a d i g.
Proof. intros E. unfold look. rewrite amap_lookup. destruct (am_cells a d !! i) as [x|]; cbn; [by rewrite E|done]. Qed.

Lemma marks_read (P : vec3 -> Prop) m m' : (forall p, f p = true <-> P p) -> rr m a -> rr m' (amap (vse (anum D1 a)) a) -> marked_at A P k m m'.
Proof.
  intros HP [_ R] [_ R'].
  assert (forall v p, Point A v m = Ok p -> exists x, am_cells a D0 !! v = Some x /\ p = point_of A (geo_triple x) /\ found v = f p) as PT.
  { intros v p E. unfold Point in E. rewrite (g_coord _ _ R) in E. unfold look in E. unfold found.
    destruct (am_cells a D0 !! v) as [x|] eqn:X; [|done]. injection E as <-. by exists x. }
  assert (forall e o t, Cell1DOrigin e m = Ok o -> Cell1DEnd e m = Ok t -> exists x, am_cells a D1 !! e = Some x /\ o = (geo_pair x).1 /\ t = (geo_pair x).2) as ED.
  { intros e o t E1 E2. rewrite (g_origin _ _ R) in E1. rewrite (g_end _ _ R) in E2. unfold look in *.
    destruct (am_cells a D1 !! e) as [x|]; [|done]. injection E1 as <-. injection E2 as <-. by exists x. }
  split.
  - rewrite (r_dim _ _ R), (r_dim _ _ R'). done.
  - intros d. by rewrite (g_num _ _ R), (g_num _ _ R'), amap_num.
  - intros v p E O. destruct (PT v p E) as (x & X & -> & F). apply HP in O. rewrite O in F.
    rewrite (g_marker _ _ R'). unfold look. rewrite amap_lookup, X. cbn. unfold vse. rewrite decide_False by (intros [? _]; done).
    unfold vs. rewrite decide_True; [done|]. split_and!; [done|by eapply lookup_lt_Some|done].
  - intros v p E O. destruct (PT v p E) as (x & X & -> & F).
    rewrite (g_marker _ _ R'), (g_marker _ _ R). unfold look. rewrite amap_lookup, X. cbn. unfold vse. rewrite decide_False by (intros [? _]; done).
    unfold vs. rewrite decide_False; [done|]. intros (_ & _ & Y). apply O, HP. congruence.
  - intros e o t p q EO ET EP EQ OP OQ. destruct (ED _ _ _ EO ET) as (x & X & -> & ->).
    destruct (PT _ _ EP) as (_ & _ & _ & F1). destruct (PT _ _ EQ) as (_ & _ & _ & F2). apply HP in OP, OQ.
    rewrite (g_marker _ _ R'). unfold look. rewrite amap_lookup, X. cbn. unfold vse. rewrite decide_True; [done|].
    split_and!; [done|by eapply lookup_lt_Some|]. unfold joined. by rewrite F1, F2, OP, OQ.
  - intros e o t p q EO ET EP EQ O. destruct (ED _ _ _ EO ET) as (x & X & -> & ->).
    destruct (PT _ _ EP) as (_ & _ & _ & F1). destruct (PT _ _ EQ) as (_ & _ & _ & F2).
    rewrite (g_marker _ _ R'), (g_marker _ _ R). unfold look. rewrite amap_lookup, X. cbn. unfold vse. rewrite decide_False.
    + unfold vs. by rewrite decide_False by (intros [? _]; done).
    + intros (_ & _ & Y). unfold joined in Y. rewrite F1, F2 in Y. apply andb_true_iff in Y. by rewrite !HP in Y.
  - intros d i N0 N1. rewrite (g_marker _ _ R'), (g_marker _ _ R). apply look_same. intros x. unfold vse, vs.
    rewrite !decide_False; [done|intros [? _]; done..].
  - intros d i. rewrite (g_active _ _ R'), (g_active _ _ R). apply look_same. intros x. apply vse_act.
  - intros v. rewrite (g_coord _ _ R'), (g_coord _ _ R). apply look_same. intros x. unfold geo_triple. by rewrite vse_geo.
  - intros e. rewrite (g_origin _ _ R'), (g_origin _ _ R), (g_end _ _ R'), (g_end _ _ R). split; apply look_same; intros x; unfold geo_pair; by rewrite vse_geo.
  - intros r i. rewrite (g_row _ _ R'), (g_row _ _ R). apply look_same. intros x. unfold row_of. by rewrite vse_rel.
  - intros d i D. rewrite (g_original _ _ R'), (g_original _ _ R) by done. apply look_same. intros x. apply vse_orig.
  - intros d i j. rewrite (replaced_by_abs _ _ _ _ _ R'), (replaced_by_abs _ _ _ _ _ R). rewrite amap_num, amap_lookup.
    destruct (am_cells a d !! i) as [x|]; cbn.
    + split; (intros (L & y & s & [= <-] & U & I); split; [done|]; eexists _, s; split; [done|]; split; [|done]).
      * by rewrite vse_upd in U.
      * by rewrite vse_upd.
    + done.
Qed.
End marks.

Lemma marks_ok A on f (P : vec3 -> Prop) k m : (forall p, on p = Ok (f p)) -> (forall p, f p = true <-> P p) -> reachable m -> edges_have_ends m ->
  exists m', (r ← mark_vertices A on k m; mark_edges (snd r) k (fst r)) = Ok m' /\ reachable m' /\ marked_at A P k m m'.
Proof.
  intros Hf HP RM W. destruct (rr_of m RM) as [a Hm]. pose proof (proj2 Hm) as R.
  destruct (mark_vertices_ok A on f Hf k a m Hm) as (m1 & -> & H1). cbn [mbind outcome_bind fst snd].
  unfold mark_edges. rewrite (g_num _ _ (proj2 H1)), amap_num.
  destruct (mark_edges_ok A f k a) with (m := m1) as (m2 & -> & H2); [|done|].
  { intros e x X. specialize (W e (geo_pair x).1 (geo_pair x).2). rewrite (g_origin _ _ R), (g_end _ _ R), (g_num _ _ R) in W. unfold look in W.
    rewrite X in W. by apply W. }
  exists m2. split; [done|]. split; [apply H2|]. by eapply marks_read.
Qed.

(** ** The tests of points *)
Lemma zero_squared g v : exact g -> (0 <= v)%Qc -> IsValueZero g v (Tolerance1DSquared g) = true <-> v = 0%Qc.
Proof.
  intros X V. destruct (exact_tolerance g X) as (_ & S & M). rewrite S, zero_iff, M. split; [intros B; qcases; qlra|]. intros ->. qcases; qlra.
Qed.
Lemma quotient_nonneg x l : (0 <= x)%Qc -> (0 < l)%Qc -> (0 <= x / l)%Qc.
Proof.
  intros P L. apply Qcnot_lt_le. intros D. assert (x = (x / l) * l)%Qc as E by (field; qlra).
  remember (x / l)%Qc as y eqn:Y. clear Y. subst x. qnra.
Qed.

Lemma cross_zero p o t : t <> (0, 0, 0)%Qc -> vcross (vsub p o) t = (0, 0, 0)%Qc <-> of_the_line o t p.
Proof.
  intros N. split.
  - intros E. assert (vcross t (vsub p o) = (0, 0, 0)%Qc) as C.
    { clear N. vec. apply pair3 in E as (E1 & E2 & E3). apply pair3. split_and!; qlra. }
    apply cross_parallel in C; [|done]. eexists. unfold moved. rewrite <- C. clear. vec. apply pair3. split_and!; ring.
  - intros [c ->]. clear. unfold moved. vec. apply pair3. split_and!; ring.
Qed.

Lemma on_line_exact g p o t l : exact g -> t <> (0, 0, 0)%Qc -> (0 < l)%Qc -> IsPointOnLine g p o t l = true <-> of_the_line o t p.
Proof.
  intros X N L. unfold IsPointOnLine. rewrite orb_true_iff. pose proof (norm2_nonneg (vsub p o)) as P1. pose proof (norm2_nonneg (vcross (vsub p o) t)) as P2.
  assert (0 <= norm2 (vcross (vsub p o) t) / l)%Qc as P3.
  { by apply quotient_nonneg. }
  rewrite !zero_squared by done. rewrite <- cross_zero by done. split.
  - intros [E|E].
    + apply norm2_zero in E. rewrite E. clear. vec. apply pair3. split_and!; ring.
    + apply norm2_zero. apply (quotient_zero _ l); [qlra|done].
  - intros E. right. rewrite E. unfold norm2, vdot. cbn. field. qlra.
Qed.

Lemma curvilinear o t c : t <> (0, 0, 0)%Qc -> PointCurvilinearCoordinate (moved o t c) o (vadd o t) = c.
Proof.
  intros N. pose proof (norm2_pos t N) as P. unfold PointCurvilinearCoordinate, moved.
  assert (vsub (vadd o t) o = t) as -> by (clear; vec; apply pair3; split_and!; ring).
  assert (vsub (vadd o (vscale c t)) o = vscale c t) as -> by (clear; vec; apply pair3; split_and!; ring).
  assert (vdot (vscale c t) t = c * norm2 t)%Qc as -> by (clear; vec; ring). field. qlra.
Qed.

Lemma moved_inj o t c c' : t <> (0, 0, 0)%Qc -> moved o t c = moved o t c' -> c = c'.
Proof. intros N E. rewrite <- (curvilinear o t c N), E. by apply curvilinear. Qed.

Lemma on_segment_exact g p o t l : exact g -> t <> (0, 0, 0)%Qc -> (0 < l)%Qc ->
  exists b, on_segment g o t l p = Ok b /\ (b = true <-> of_the_segment o t p).
Proof.
  intros X N L. unfold on_segment. pose proof (on_line_exact g p o t l X N L) as ON.
  destruct (IsPointOnLine g p o t l).
  2: { exists false. split; [done|]. split; [done|]. intros (c & _ & E). apply ON. by exists c. }
  destruct (proj1 ON eq_refl) as [c ->]. clear ON.
  assert (PointSegmentPosition g (moved o t c) o (vadd o t) = CoordinatePosition g c) as ->.
  { rewrite <- (curvilinear o t c N) at 2. unfold PointSegmentPosition.
    assert (vsub (vadd o t) o = t) as TT by (clear; vec; apply pair3; split_and!; ring).
    assert (IsValueZero g (sine2 (vsub (moved o t c) o) (vsub (vadd o t) o)) (Tolerance1DSquared g) = true) as ->.
    { rewrite TT. unfold sine2. assert (vcross (vsub (moved o t c) o) t = (0, 0, 0)%Qc) as -> by (apply cross_zero; [done|by exists c]).
      assert (norm2 (0, 0, 0) / (norm2 (vsub (moved o t c) o) * norm2 t) = 0)%Qc as ->.
      { unfold norm2 at 1, vdot. cbn. unfold Qcdiv. ring. }
      apply zero_squared; [done|qlra|done]. }
    rewrite orb_true_r. done. }
  destruct (coordinate_exact g c X) as (r & -> & Q). cbn [mbind outcome_bind]. eexists. split; [reflexivity|].
  assert (of_the_segment o t (moved o t c) <-> (0 <= c /\ c <= 1)%Qc) as ->.
  { split; [|intros; by exists c]. intros (c' & B & E). by rewrite (moved_inj o t c c' N E). }
  destruct r; cbn in Q; try done; (split; [intros H; try discriminate H|intros [H1 H2]; try done]).
  - exfalso. qlra.
  - subst c. split; qlra.
  - destruct Q. split; qlra.
  - subst c. split; qlra.
  - exfalso. qlra.
Qed.

Lemma line_ok A o t l k m : exact (geo A) -> t <> (0, 0, 0)%Qc -> (0 < l)%Qc -> reachable m -> edges_have_ends m ->
  exists m', SetMeshMarkersOnLine A o t l k m = Ok m' /\ reachable m' /\ marked_at A (of_the_line o t) k m m'.
Proof.
  intros X N L RM W. unfold SetMeshMarkersOnLine. apply (marks_ok A _ (fun p => IsPointOnLine (geo A) p o t l)); [done| |done|done].
  intros p. by apply on_line_exact.
Qed.

Lemma segment_ok A o t l k m : exact (geo A) -> t <> (0, 0, 0)%Qc -> (0 < l)%Qc -> reachable m -> edges_have_ends m ->
  exists m', SetMeshMarkersOnSegment A o t l k m = Ok m' /\ reachable m' /\ marked_at A (of_the_segment o t) k m m'.
Proof.
  intros X N L RM W. unfold SetMeshMarkersOnSegment.
  apply (marks_ok A _ (fun p => match on_segment (geo A) o t l p with Ok b => b | _ => false end)); [| |done|done].
  - intros p. destruct (on_segment_exact (geo A) p o t l X N L) as (b & -> & _). done.
  - intros p. destruct (on_segment_exact (geo A) p o t l X N L) as (b & -> & E). done.
Qed.
