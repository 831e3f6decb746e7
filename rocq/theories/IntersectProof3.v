(** Intersections of segments: segments on one line, and the main result. *)
From Coq Require Import QArith Qcanon.
From Verif Require Import Base BaseProof QcTac FillModel GeoModel MapModel PointModel PointSpec PointProof IntersectModel IntersectSpec IntersectProof IntersectProof2.
Local Open Scope Qc_scope.

Lemma along_along o u c k y : along (along o u c) (vscale k u) y = along o u (c + k * y).
Proof. vec. apply pair3. split_and!; ring. Qed.

Lemma end_along o e : e = along o (vsub e o) 1.
Proof. by rewrite along_1. Qed.

Lemma vsub_zero_norm (p q : vec3) : norm2 (vsub p q) = 0 -> p = q.
Proof.
  intros E. destruct (decide (q = p)) as [->|N]; [done|]. exfalso. apply vsub_nonzero in N. pose proof (norm2_pos _ N). qlra.
Qed.

Lemma norm2_self (p : vec3) : norm2 (vsub p p) = 0.
Proof. vec. ring. Qed.

Section one_line.
  Context (g : geo_config) (o1 e1 o2 e2 : vec3) (c k : Qc).
  Hypotheses (X : exact g) (N1 : o1 <> e1) (N2 : o2 <> e2) (K : k <> 0).
  Hypotheses (E2 : o2 = along o1 (vsub e1 o1) c) (V : vsub e2 o2 = vscale k (vsub e1 o1)).

  Lemma second_line y p : on_line o2 e2 y p <-> p = along o1 (vsub e1 o1) (c + k * y).
  Proof using E2 V. rewrite on_line_along, V, E2, along_along. done. Qed.
  Lemma both_lines x p : on_line o1 e1 x p -> exists y, x = c + k * y /\ on_line o2 e2 y p.
  Proof using E2 K V.
    intros P. exists ((x - c) / k). assert (Q : x = c + k * ((x - c) / k)) by (field; done). split; [done|]. apply second_line. rewrite <- Q.
    by apply on_line_along.
  Qed.
  Lemma in_both p : of_segment o1 e1 p /\ of_segment o2 e2 p <->
    exists y, p = along o1 (vsub e1 o1) (c + k * y) /\ (0 <= c + k * y /\ c + k * y <= 1) /\ 0 <= y /\ y <= 1.
  Proof using E2 V N1.
    split.
    - intros [(x & X0 & X1 & P) (y & Y0 & Y1 & Q)]. exists y. apply second_line in Q. change (p = along o1 (vsub e1 o1) x) in P. rewrite P in Q.
      apply along_inj in Q; [|by apply vsub_nonzero]. rewrite <- Q. done.
    - intros (y & -> & [X0 X1] & Y0 & Y1). split; [exists (c + k * y); exact (conj X0 (conj X1 eq_refl))|].
      exists y. split; [exact Y0|]. split; [exact Y1|]. by apply second_line.
  Qed.

  Lemma on_one_line_exact : ~ (1 + qabs k < qabs (Q2Qc 2 * c + k - 1)) ->
    exists r, on_one_line g o1 e1 o2 e2 = Ok r /\ LinesType r = CoPlanarParallel /\ SegmentsType r = MultipleIntersections /\
              exists s0 s1 q0 q1, overlap o1 e1 o2 e2 r s0 s1 q0 q1.
  Proof using All.
    intros O. set (a := - c / k). set (b := (1 - c) / k).
    assert (A : c + k * a = 0) by (unfold a; field; done). assert (B : c + k * b = 1) by (unfold b; field; done). clearbody a b.
    destruct (common_intervals c k a b K A B O) as ([F1 F2] & [S1 S2] & M).
    pose proof (exact_tolerance g X) as (T1 & _ & _).
    assert (P2 : PointCurvilinearCoordinate o2 o1 e1 = c) by (rewrite E2; by apply coordinate_along).
    assert (P2' : PointCurvilinearCoordinate e2 o1 e1 = c + k).
    { rewrite (end_along o2 e2), V, E2, along_along. rewrite coordinate_along by done. ring. }
    assert (P1 : PointCurvilinearCoordinate o1 o2 e2 = a).
    { assert (H : o1 = along o2 (vsub e2 o2) a) by (rewrite V, E2, along_along, A, along_0; done). rewrite H at 1. by apply coordinate_along. }
    assert (P1' : PointCurvilinearCoordinate e1 o2 e2 = b).
    { assert (H : e1 = along o2 (vsub e2 o2) b) by (rewrite V, E2, along_along, B, along_1; done). rewrite H at 1. by apply coordinate_along. }
    unfold on_one_line. rewrite P1, P1', P2, P2'. rewrite (surjective_pairing (sorted_pair c (c + k))), (surjective_pairing (sorted_pair a b)).
    destruct (clip_first_exact g _ _ X F1 F2) as (p0 & p1 & -> & C0 & C1).
    destruct (clip_second_exact g _ _ X S1 S2) as (q0 & q1 & -> & D0 & D1). cbn [mbind outcome_bind].
    set (s0 := qmax 0 (sorted_pair c (c + k)).1) in *. set (s1 := qmin 1 (sorted_pair c (c + k)).2) in *.
    set (r0 := qmax 0 (sorted_pair a b).1) in *. set (r1 := qmin 1 (sorted_pair a b).2) in *. clearbody s0 s1 r0 r1.
    change (vget [(p0, s0); (p1, s1)] 0) with (Ok (p0, s0)). change (vget [(q0, r0); (q1, r1)] 0) with (Ok (q0, r0)).
    cbn [mbind outcome_bind snd]. rewrite V. replace (cfgTolerance1D g) with 0 by (symmetry; apply X).
    set (far := qlt _ _). eexists. split; [reflexivity|]. split; [done|]. split; [done|]. exists s0, s1, r0, r1.
    assert (Far : far = false <-> s0 = c + k * r0).
    { unfold far. rewrite E2, along_along. replace (0 * 0 * _) with 0 by ring. split.
      - intros H. apply (along_inj o1 (vsub e1 o1)); [by apply vsub_nonzero|]. apply vsub_zero_norm.
        destruct (qlt_spec 0 (norm2 (vsub (along o1 (vsub e1 o1) s0) (along o1 (vsub e1 o1) (c + k * r0))))) as [?|L]; [done|].
        pose proof (norm2_nonneg (vsub (along o1 (vsub e1 o1) s0) (along o1 (vsub e1 o1) (c + k * r0)))). qlra.
      - intros <-. rewrite norm2_self. vm_compute. reflexivity. }
    destruct M as [M1 M2 M3 M4]. constructor.
    - by exists p0, p1.
    - by exists q0, q1.
    - done.
    - intros p. rewrite in_both. split.
      + intros (y & -> & I). exists (c + k * y). apply M2 in I as [I1 I2]. exact (conj I1 (conj I2 eq_refl)).
      + intros (x & X0 & X1 & P). destruct (both_lines x p P) as (y & -> & Q). exists y. split; [exact P|]. apply M2. exact (conj X0 X1).
    - intros p. rewrite in_both. split.
      + intros (y & -> & I). exists y. apply M3 in I as [I1 I2]. split; [exact I1|]. split; [exact I2|]. by apply second_line.
      + intros (y & Y0 & Y1 & P). exists y. apply second_line in P. split; [exact P|]. apply M3. exact (conj Y0 Y1).
    - cbn [Relation]. destruct M4 as [[H0 H1]|(H & H0 & H1)].
      + left. apply Far in H0 as F. rewrite F. split; [done|]. split; [exists (along o1 (vsub e1 o1) s0)|exists (along o1 (vsub e1 o1) s1)]; (split; [reflexivity|]).
        * rewrite H0. by apply second_line.
        * rewrite H1. by apply second_line.
      + right. destruct far; [|destruct H; by apply Far]. split; [done|]. split; [exists (along o1 (vsub e1 o1) s0)|exists (along o1 (vsub e1 o1) s1)]; (split; [reflexivity|]).
        * rewrite H0. by apply second_line.
        * rewrite H1. by apply second_line.
  Qed.

  Lemma apart_none : 1 + qabs k < qabs (Q2Qc 2 * c + k - 1) -> ~ exists p, of_segment o1 e1 p /\ of_segment o2 e2 p.
  Proof using E2 V N1.
    intros A (p & H). apply in_both in H as (y & _ & [X0 X1] & Y0 & Y1). clear - A X0 X1 Y0 Y1.
    assert (0 <= k -> 0 <= k * y /\ k * y <= k) by (intros H; split; qnra).
    assert (k <= 0 -> k <= k * y /\ k * y <= 0) by (intros H0; split; qnra).
    destruct (qabs_cases k) as [[L E]|[L E]]; rewrite E in A; clear E; destruct (qabs_cases (Q2Qc 2 * c + k - 1)) as [[L' E]|[L' E]]; rewrite E in A; clear E;
      [destruct H as [? ?]; [qlra|]|destruct H as [? ?]; [qlra|]|destruct H0 as [? ?]; [qlra|]|destruct H0 as [? ?]; [qlra|]]; qlra.
  Qed.
  Lemma not_apart_some : ~ (1 + qabs k < qabs (Q2Qc 2 * c + k - 1)) -> exists p, of_segment o1 e1 p /\ of_segment o2 e2 p.
  Proof using All.
    intros O. destruct (on_one_line_exact O) as (r & _ & _ & _ & s0 & s1 & q0 & q1 & [_ _ [L _] H _ _]).
    exists (along o1 (vsub e1 o1) s0). apply H. exists s0. split; [apply Qcle_refl|]. split; [exact L|]. reflexivity.
  Qed.
End one_line.

(** ** The main result *)

Lemma parallel_sym_cross (u v : vec3) : vcross u v = (0, 0, 0) -> vcross v u = (0, 0, 0).
Proof. intros E. assert (F : vcross v u = vscale (- (1)) (vcross u v)) by (clear; vec; apply pair3; split_and!; ring). rewrite F, E. clear. vec. apply pair3. split_and!; ring. Qed.

Lemma of_segment_line o e p : of_segment o e p -> of_line o e p.
Proof. intros (c & _ & _ & H). by exists c. Qed.

(** With crossing lines, the common point of the lines is the only candidate. *)
Section crossing.
  Context (g : geo_config) (o1 e1 o2 e2 : vec3) (s q : Qc).
  Hypotheses (C : vcross (vsub e1 o1) (vsub e2 o2) <> (0, 0, 0)) (E : along o1 (vsub e1 o1) s = along o2 (vsub e2 o2) q).

  Lemma crossing_lines p : of_line o1 e1 p -> of_line o2 e2 p -> p = along o1 (vsub e1 o1) s.
  Proof using C E.
    intros [x P] [y Q]. change (p = along o1 (vsub e1 o1) x) in P. change (p = along o2 (vsub e2 o2) y) in Q.
    rewrite P in Q. destruct (crossing_unique _ _ _ _ _ _ _ _ C E Q) as [-> _]. exact P.
  Qed.
  Lemma crossing_segments : (exists p, of_segment o1 e1 p /\ of_segment o2 e2 p) <-> (0 <= s /\ s <= 1) /\ 0 <= q /\ q <= 1.
  Proof using C E.
    split.
    - intros (p & (x & X0 & X1 & P) & (y & Y0 & Y1 & Q)). change (p = along o1 (vsub e1 o1) x) in P. change (p = along o2 (vsub e2 o2) y) in Q.
      rewrite P in Q. destruct (crossing_unique _ _ _ _ _ _ _ _ C E Q) as [-> ->]. done.
    - intros [[S0 S1] [Q0 Q1]]. exists (along o1 (vsub e1 o1) s). split; [exists s; exact (conj S0 (conj S1 eq_refl))|].
      exists q. split; [exact Q0|]. split; [exact Q1|]. exact E.
  Qed.
End crossing.

Lemma in_segment_spec c p : coordinate_spec c p -> in_segment p = true <-> 0 <= c /\ c <= 1.
Proof.
  intros S. destruct p; cbn in S |- *; try (match type of S with _ /\ _ => destruct S as [S1 S2] end); try done; split; intros H; try done;
    try (split; qlra); exfalso; destruct H as [H1 H2]; qlra.
Qed.

Theorem segments_exact g o1 e1 o2 e2 : exact g -> o1 <> e1 -> o2 <> e2 ->
  exists r, IntersectionSegmentSegment g o1 e1 o2 e2 = Ok r /\ segments_spec o1 e1 o2 e2 r.
Proof.
  intros X N1 N2. pose proof (exact_tolerance g X) as (T1 & T2 & M).
  pose proof (vsub_nonzero _ _ N1) as U. pose proof (vsub_nonzero _ _ N2) as V.
  pose proof (parallel_cross o1 e1 o2 e2 N1) as Par.
  unfold IntersectionSegmentSegment. rewrite T2.
  assert (P1 : IsValuePositive g (norm2 (vsub e1 o1)) 0 = true) by (apply positive_exact; [done|by apply norm2_pos]).
  assert (P2 : IsValuePositive g (norm2 (vsub e2 o2)) 0 = true) by (apply positive_exact; [done|by apply norm2_pos]).
  rewrite P1, P2. unfold require. cbn [mbind outcome_bind].
  pose proof (coplanar_exact g o1 (vsub e1 o1) o2 (vsub e2 o2) X U) as Cop.
  destruct (AreLineCoplanar g o1 (vsub e1 o1) o2 (vsub e2 o2)); cbn [negb]; [destruct Cop as [Cop _]; specialize (Cop eq_refl)|].
  2: { (* on different planes *)
    assert (D : det3 (vsub o2 o1) (vsub e1 o1) (vsub e2 o2) <> 0) by (intros H; apply Cop in H; discriminate H). clear Cop.
    assert (NP : ~ parallel o1 e1 o2 e2).
    { intros H%Par. apply D. change (vdot (vsub o2 o1) (vcross (vsub e1 o1) (vsub e2 o2)) = 0). rewrite H. clear. vec. ring. }
    assert (NI : ~ exists p, of_line o1 e1 p /\ of_line o2 e2 p).
    { intros (p & [x P] & [y Q]). apply D. apply (common_coplanar _ _ _ _ x y). rewrite on_line_along in P, Q. congruence. }
    assert (NS : ~ exists p, of_segment o1 e1 p /\ of_segment o2 e2 p).
    { intros (p & A%of_segment_line & B%of_segment_line). apply NI. by exists p. }
    eexists. split; [reflexivity|]. constructor; cbn [LinesType SegmentsType]; try done; split; try done; tauto. }
  pose proof (parallel_exact g _ _ X U V) as NP. destruct (not_parallel g _).
  { (* crossing lines *)
    destruct NP as [NP _]. specialize (NP eq_refl).
    pose proof (crossing_point o1 _ o2 _ NP Cop) as E. cbv zeta in E.
    set (s := _ / _) in E |- *. set (q := - (_ / _)) in E |- *.
    destruct (coordinate_spec_exact g s X) as (ps & -> & Ss). destruct (coordinate_spec_exact g q X) as (pq & -> & Sq).
    cbn [mbind outcome_bind]. clearbody s q.
    pose proof (crossing_segments o1 e1 o2 e2 s q NP E) as Seg. pose proof (crossing_lines o1 e1 o2 e2 s q NP E) as Lin.
    pose proof (in_segment_spec s ps Ss) as Is. pose proof (in_segment_spec q pq Sq) as Iq.
    assert (NPar : ~ parallel o1 e1 o2 e2) by (intros H%Par; done).
    assert (IL : exists p, of_line o1 e1 p /\ of_line o2 e2 p).
    { exists (along o1 (vsub e1 o1) s). split; [exists s; reflexivity|exists q; exact E]. }
    assert (Both : in_segment ps && in_segment pq = true <-> exists p, of_segment o1 e1 p /\ of_segment o2 e2 p).
    { rewrite Seg, <- Is, <- Iq. rewrite andb_true_iff. done. }
    eexists. split; [reflexivity|]. clear Seg. destruct (in_segment ps && in_segment pq); constructor; cbn [LinesType SegmentsType FirstIntersections SecondIntersections Relation];
      try (split; try done; tauto).
    - intros _. exists s, q, ps, pq, (along o1 (vsub e1 o1) s). split_and!; try done.
    - done.
    - split; [|done]. intros _ H. apply Both in H. done.
    - split; [done|]. intros [_ H]. apply Both in H. done.
    - intros _. exists s, q, ps, pq, (along o1 (vsub e1 o1) s). split_and!; try done.
    - done. }
  assert (Z : vcross (vsub e1 o1) (vsub e2 o2) = (0, 0, 0)).
  { destruct (decide (vcross (vsub e1 o1) (vsub e2 o2) = (0, 0, 0))) as [|H]; [done|]. apply NP in H. discriminate H. }
  clear NP. assert (PP : parallel o1 e1 o2 e2) by (by apply Par). clear Par.
  assert (None : forall r, r = SegmentsResult CoPlanarParallel NoIntersection [] [] [] -> ~ (exists p, of_segment o1 e1 p /\ of_segment o2 e2 p) -> segments_spec o1 e1 o2 e2 r).
  { intros r -> H. constructor; cbn [LinesType SegmentsType]; try done; split; try done; tauto. }
  pose proof (aligned_exact g o1 e1 o2 X N1) as A1. pose proof (aligned_exact g o1 e1 e2 X N1) as A2.
  assert (Al : vcross (vsub e1 o1) (vsub e2 o1) = vcross (vsub e1 o1) (vsub o2 o1)).
  { assert (H : vcross (vsub e1 o1) (vsub e2 o1) = vadd (vcross (vsub e1 o1) (vsub e2 o2)) (vcross (vsub e1 o1) (vsub o2 o1)))
      by (clear; vec; apply pair3; split_and!; ring). rewrite H, Z. clear. vec. apply pair3. split_and!; ring. }
  rewrite Al in A2.
  assert (AA : PointIsAligned g o1 e1 o2 = PointIsAligned g o1 e1 e2).
  { destruct (PointIsAligned g o1 e1 o2), (PointIsAligned g o1 e1 e2); try done; [symmetry; apply A2, A1; done|apply A1, A2; done]. }
  rewrite <- AA. clear AA A2 Al. destruct (PointIsAligned g o1 e1 o2); cbn [negb andb].
  2: { eexists. split; [reflexivity|]. apply None; [done|]. intros (p & [x (_ & _ & P)] & [y (_ & _ & Q)]).
    assert (H : vcross (vsub e1 o1) (vsub o2 o1) = (0, 0, 0)); [|apply A1 in H; discriminate H].
    change (p = along o1 (vsub e1 o1) x) in P. change (p = along o2 (vsub e2 o2) y) in Q. rewrite P in Q.
    assert (F : vsub o2 o1 = vsub (vscale x (vsub e1 o1)) (vscale y (vsub e2 o2))).
    { clear - Q. vec. apply pair3 in Q as (? & ? & ?). apply pair3. split_and!; qlra. }
    rewrite F. assert (G : vcross (vsub e1 o1) (vsub (vscale x (vsub e1 o1)) (vscale y (vsub e2 o2))) = vscale (- y) (vcross (vsub e1 o1) (vsub e2 o2)))
      by (clear; vec; apply pair3; split_and!; ring). rewrite G, Z. clear. vec. apply pair3. split_and!; ring. }
  destruct A1 as [A1 _]. specialize (A1 eq_refl).
  destruct (one_line o1 _ o2 _ U V Z A1) as (c & k & K & E2 & EV). rewrite T1.
  pose proof (apart_exact g (norm2 (vsub e1 o1)) c k X (norm2_pos _ U)) as Ap.
  assert (Ek : norm2 (vsub e2 o2) = k * k * norm2 (vsub e1 o1)) by (rewrite EV; clear; vec; ring).
  assert (Em : norm2 (vsub (vscale (Q2Qc (1 # 2)) (vadd e2 o2)) (vscale (Q2Qc (1 # 2)) (vadd e1 o1))) =
               (c + Q2Qc (1 # 2) * k - Q2Qc (1 # 2)) * (c + Q2Qc (1 # 2) * k - Q2Qc (1 # 2)) * norm2 (vsub e1 o1)).
  { assert (H : vsub (vscale (Q2Qc (1 # 2)) (vadd e2 o2)) (vscale (Q2Qc (1 # 2)) (vadd e1 o1)) = vscale (c + Q2Qc (1 # 2) * k - Q2Qc (1 # 2)) (vsub e1 o1)).
    { assert (He : e2 = along o1 (vsub e1 o1) (c + k * 1)) by (rewrite (end_along o2 e2), EV, E2; apply along_along).
      rewrite He, E2. clear. vec. apply pair3. split_and!; qlra. }
    rewrite H. clear. vec. ring. }
  rewrite Em, Ek. destruct (spheres_apart g _ _ _ 0).
  - eexists. split; [reflexivity|]. apply None; [done|]. apply (apart_none o1 e1 o2 e2 c k); try done. by apply Ap.
  - assert (NA : ~ 1 + qabs k < qabs (Q2Qc 2 * c + k - 1)) by (intros H; apply Ap in H; discriminate H).
    destruct (on_one_line_exact g o1 e1 o2 e2 c k X N1 N2 K E2 EV NA) as (r & E & L & S & O).
    pose proof (not_apart_some g o1 e1 o2 e2 c k X N1 N2 K E2 EV NA) as Some.
    exists r. split; [exact E|]. constructor; rewrite ?L, ?S; try done; split; try done; tauto.
Qed.
