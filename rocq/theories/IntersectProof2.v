(** Intersections of segments: the main results. *)
From Coq Require Import QArith Qcanon.
From Verif Require Import Base BaseProof QcTac FillModel GeoModel MapModel PointModel PointSpec PointProof IntersectModel IntersectSpec IntersectProof.
Local Open Scope Qc_scope.

Lemma qmin_cases x y : (y < x /\ qmin x y = y) \/ (x <= y /\ qmin x y = x).
Proof. unfold qmin. destruct (qlt_spec y x) as [L|L]; [by left|right]. split; [qlra|done]. Qed.

Lemma qmin_l x y : x <= y -> qmin x y = x.
Proof. intros L. unfold qmin. destruct (qlt_spec y x) as [M|M]; [exfalso; qlra|done]. Qed.
Lemma qmin_r x y : y <= x -> qmin x y = y.
Proof. intros L. unfold qmin. destruct (qlt_spec y x) as [M|M]; [done|qlra]. Qed.
Lemma qmax_l x y : y <= x -> qmax x y = x.
Proof. intros L. destruct (qmax_cases x y) as [[M ->]|[M ->]]; [qlra|done]. Qed.
Lemma qmax_r x y : x <= y -> qmax x y = y.
Proof. intros L. destruct (qmax_cases x y) as [[M ->]|[M ->]]; [done|qlra]. Qed.

Lemma coordinate_spec_exact g c : exact g -> exists r, CoordinatePosition g c = Ok r /\ coordinate_spec c r.
Proof. intros X. destruct (coordinate_exact g c X) as (r & E & S). exists r. split; [done|]. by destruct r. Qed.

Lemma clip_first_exact g c0 c1 : exact g -> c0 <= 1 -> 0 <= c1 -> exists p0 p1,
  clip_first g (c0, c1) = Ok [(p0, qmax 0 c0); (p1, qmin 1 c1)] /\ coordinate_spec (qmax 0 c0) p0 /\ coordinate_spec (qmin 1 c1) p1.
Proof.
  intros X L0 L1. unfold clip_first. cbn [fst snd].
  destruct (coordinate_spec_exact g c0 X) as (p0 & -> & S0). destruct (coordinate_spec_exact g c1 X) as (p1 & -> & S1).
  cbn [mbind outcome_bind].
  assert (A0 : exists p, match p0 with OnSegmentLineBeforeOrigin | OnSegmentLineAfterEnd => (OnSegmentOrigin, 0) | _ => (p0, c0) end = (p, qmax 0 c0)
                         /\ coordinate_spec (qmax 0 c0) p).
  { destruct p0; cbn in S0; try done.
    - rewrite qmax_l by qlra. by exists OnSegmentOrigin.
    - rewrite qmax_r by qlra. by exists OnSegmentOrigin.
    - rewrite qmax_r by (destruct S0; qlra). by exists InsideSegment.
    - rewrite qmax_r by qlra. by exists OnSegmentEnd.
    - exfalso. qlra. }
  assert (A1 : exists p, match p1 with OnSegmentLineAfterEnd => (OnSegmentEnd, 1) | _ => (p1, c1) end = (p, qmin 1 c1)
                         /\ coordinate_spec (qmin 1 c1) p).
  { destruct p1; cbn in S1; try done.
    - exfalso. qlra.
    - rewrite qmin_r by qlra. by exists OnSegmentOrigin.
    - rewrite qmin_r by (destruct S1; qlra). by exists InsideSegment.
    - rewrite qmin_r by qlra. by exists OnSegmentEnd.
    - rewrite qmin_l by qlra. by exists OnSegmentEnd. }
  destruct A0 as (q0 & -> & B0), A1 as (q1 & -> & B1). exists q0, q1. done.
Qed.
Lemma clip_second_exact g c0 c1 : exact g -> c0 <= 1 -> 0 <= c1 -> exists p0 p1,
  clip_second g (c0, c1) = Ok [(p0, qmax 0 c0); (p1, qmin 1 c1)] /\ coordinate_spec (qmax 0 c0) p0 /\ coordinate_spec (qmin 1 c1) p1.
Proof.
  intros X L0 L1. destruct (clip_first_exact g c0 c1 X L0 L1) as (p0 & p1 & E & S). exists p0, p1. split; [|done]. rewrite <- E.
  unfold clip_first, clip_second. cbn [fst snd]. destruct (coordinate_spec_exact g c0 X) as (q0 & -> & S0).
  destruct (coordinate_spec_exact g c1 X) as (q1 & -> & S1). cbn [mbind outcome_bind]. destruct q0; try done. cbn in S0. exfalso. qlra.
Qed.

Lemma scale_sign k z : 0 < k -> (0 <= k * z <-> 0 <= z) /\ (0 < k * z <-> 0 < z).
Proof.
  intros K. split; split; intros H.
  - destruct (Qclt_le_dec z 0) as [L|]; [|done]. exfalso. qnra.
  - qnra.
  - destruct (Qclt_le_dec 0 z) as [|L]; [done|]. exfalso. qnra.
  - qnra.
Qed.

(** The common part of the intervals from 0 to 1 and from [c] to [c + k], in the two scales. *)
Record common (c k s0 s1 q0 q1 : Qc) : Prop := {
  cm_order : s0 <= s1 /\ q0 <= q1;
  cm_first : forall y, ((0 <= c + k * y /\ c + k * y <= 1) /\ 0 <= y /\ y <= 1 <-> s0 <= c + k * y /\ c + k * y <= s1);
  cm_second : forall y, ((0 <= c + k * y /\ c + k * y <= 1) /\ 0 <= y /\ y <= 1 <-> q0 <= y /\ y <= q1);
  cm_relation : (s0 = c + k * q0 /\ s1 = c + k * q1) \/ (s0 <> c + k * q0 /\ s0 = c + k * q1 /\ s1 = c + k * q0)
}.

Lemma common_intervals c k a b : k <> 0 -> c + k * a = 0 -> c + k * b = 1 -> ~ (1 + qabs k < qabs (Q2Qc 2 * c + k - 1)) ->
  let x := sorted_pair c (c + k) in let y := sorted_pair a b in
  (x.1 <= 1 /\ 0 <= x.2) /\ (y.1 <= 1 /\ 0 <= y.2) /\
  common c k (qmax 0 x.1) (qmin 1 x.2) (qmax 0 y.1) (qmin 1 y.2).
Proof.
  intros K A B O. unfold sorted_pair.
  assert (Y : forall y, c + k * y = k * (y - a) /\ c + k * y - 1 = k * (y - b)).
  { intros y. split; [replace (k * (y - a)) with (k * y - k * a) by ring|replace (k * (y - b)) with (k * y - k * b) by ring]; qlra. }
  assert (Y0 : c = k * (- a) /\ c - 1 = k * (- b)) by (destruct (Y 0) as [Y1 Y2]; split; qlra).
  assert (Y1 : c + k = k * (1 - a) /\ c + k - 1 = k * (1 - b)) by (destruct (Y 1) as [Y1 Y2]; split; qlra). destruct Y0 as [Ya Yb], Y1 as [Yc Yd].
  destruct (Qc_dec k 0) as [[N|P]|]; [| |done].
  - assert (Hk : 0 < - k) by qlra.
    assert (S : forall z, (0 <= k * z <-> z <= 0) /\ (k * z <= 0 <-> 0 <= z)).
    { intros z. destruct (scale_sign (- k) z Hk) as [S1 _]. destruct (scale_sign (- k) (- z) Hk) as [S2 _].
      replace (- k * - z) with (k * z) in S2 by ring. replace (- k * z) with (- (k * z)) in S1 by ring. split; [rewrite S2|]; split; intros H; [qlra..| |].
      - apply S1. qlra.
      - apply S1 in H. qlra. }
    assert (AB : b < a). { destruct (Qclt_le_dec b a) as [|L]; [done|]. exfalso. assert (k * (b - a) = 1) by qlra. clear - L N H. qnra. }
    destruct (qlt_spec (c + k) c) as [_|G]; [|destruct G; qlra]. destruct (qlt_spec b a) as [_|G]; [|done]. cbn [fst snd].
    assert (O' : c + k <= 1 /\ 0 <= c).
    { destruct (qabs_cases k) as [[? E]|[? E]]; rewrite E in O; clear E; destruct (qabs_cases (Q2Qc 2 * c + k - 1)) as [[? E]|[? E]]; rewrite E in O; clear E; split; qlra. } destruct O' as [O1 O2].
    assert (Sb : b <= 1) by (destruct (S (1 - b)) as [_ S1]; assert (0 <= 1 - b) by (apply S1; qlra); qlra).
    assert (Sa : 0 <= a) by (destruct (S (- a)) as [S1 _]; assert (- a <= 0) by (apply S1; qlra); qlra).
    split; [done|]. split; [done|].
    assert (E1 : qmin 1 c = c + k * qmax 0 b).
    { destruct (Qclt_le_dec b 0) as [L|L].
      - rewrite (qmax_l 0 b) by qlra. rewrite qmin_r; [qlra|]. destruct (S (- b)) as [_ S1]. assert (c - 1 <= 0); [|qlra]. rewrite Yb. apply S1. qlra.
      - rewrite (qmax_r 0 b) by qlra. rewrite qmin_l; [qlra|]. destruct (S (- b)) as [S1 _]. assert (0 <= c - 1); [|qlra]. rewrite Yb. apply S1. qlra. }
    assert (E0 : qmax 0 (c + k) = c + k * qmin 1 a).
    { destruct (Qclt_le_dec a 1) as [L|L].
      - rewrite (qmin_r 1 a) by qlra. rewrite qmax_l; [qlra|]. destruct (S (1 - a)) as [_ S1]. rewrite Yc. apply S1. qlra.
      - rewrite (qmin_l 1 a) by qlra. rewrite qmax_r; [qlra|]. destruct (S (1 - a)) as [S1 _]. rewrite Yc. apply S1. qlra. }
    assert (Sy : forall y z, c + k * y <= c + k * z <-> z <= y).
    { intros y z. destruct (S (y - z)) as [_ S1]. replace (k * (y - z)) with (k * y - k * z) in S1 by ring. split; intros H; [assert (0 <= y - z) by (apply S1; qlra); qlra|].
      assert (k * y - k * z <= 0) by (apply S1; qlra). qlra. }
    assert (In : forall y, (0 <= c + k * y /\ c + k * y <= 1) /\ 0 <= y /\ y <= 1 <-> qmax 0 b <= y /\ y <= qmin 1 a).
    { intros y. pose proof (Sy a y) as Sya. pose proof (Sy y b) as Syb. rewrite A in Sya. rewrite B in Syb. rewrite Sya, Syb. clear.
      destruct (qmin_cases 1 a) as [[? ->]|[? ->]]; destruct (qmax_cases 0 b) as [[? ->]|[? ->]]; split; intros HH; decompose [and] HH; repeat split; qlra. }
    constructor.
    + split; [rewrite E0, E1; apply Sy|]; (destruct (qmin_cases 1 a) as [[? ->]|[? ->]]; destruct (qmax_cases 0 b) as [[? ->]|[? ->]]; qlra).
    + intros y. rewrite E0, E1, In, !Sy. tauto.
    + exact In.
    + destruct (Qc_eq_dec (qmax 0 (c + k)) (c + k * qmax 0 b)) as [E|E]; [left|right; done]. split; [done|]. rewrite E1.
      assert (qmin 1 a = qmax 0 b) as ->; [|done]. rewrite E0 in E. clear - E K. assert (k * (qmin 1 a - qmax 0 b) = 0) as H by (replace (k * (qmin 1 a - qmax 0 b)) with (k * qmin 1 a - k * qmax 0 b) by ring; qlra).
      apply Qcmult_integral in H as [H|H]; [done|qlra].
  - assert (S : forall z, (0 <= k * z <-> 0 <= z) /\ (k * z <= 0 <-> z <= 0)).
    { intros z. destruct (scale_sign k z P) as [S1 _]. destruct (scale_sign k (- z) P) as [S2 _].
      replace (k * - z) with (- (k * z)) in S2 by ring. split; [exact S1|]. split; intros H.
      - assert (0 <= - z) by (apply S2; qlra). qlra.
      - assert (0 <= - (k * z)) by (apply S2; qlra). qlra. }
    assert (AB : a < b). { destruct (Qclt_le_dec a b) as [|L]; [done|]. exfalso. assert (k * (b - a) = 1) by qlra. clear - L P H. qnra. }
    destruct (qlt_spec (c + k) c) as [G|_]; [exfalso; qlra|]. destruct (qlt_spec b a) as [G|_]; [exfalso; qlra|]. cbn [fst snd].
    assert (O' : c <= 1 /\ 0 <= c + k).
    { destruct (qabs_cases k) as [[? E]|[? E]]; rewrite E in O; clear E; destruct (qabs_cases (Q2Qc 2 * c + k - 1)) as [[? E]|[? E]]; rewrite E in O; clear E; split; qlra. } destruct O' as [O1 O2].
    assert (Sa : a <= 1) by (destruct (S (1 - a)) as [S1 _]; assert (0 <= 1 - a) by (apply S1; qlra); qlra).
    assert (Sb : 0 <= b) by (destruct (S (- b)) as [_ S1]; assert (- b <= 0) by (apply S1; qlra); qlra).
    split; [done|]. split; [done|].
    assert (E0 : qmax 0 c = c + k * qmax 0 a).
    { destruct (Qclt_le_dec a 0) as [L|L].
      - rewrite (qmax_l 0 a) by qlra. rewrite qmax_r; [qlra|]. destruct (S (- a)) as [S1 _]. rewrite Ya. apply S1. qlra.
      - rewrite (qmax_r 0 a) by qlra. rewrite qmax_l; [qlra|]. destruct (S (- a)) as [_ S1]. rewrite Ya. apply S1. qlra. }
    assert (E1 : qmin 1 (c + k) = c + k * qmin 1 b).
    { destruct (Qclt_le_dec b 1) as [L|L].
      - rewrite (qmin_r 1 b) by qlra. rewrite qmin_l; [qlra|]. destruct (S (1 - b)) as [S1 _]. assert (0 <= c + k - 1); [|qlra]. rewrite Yd. apply S1. qlra.
      - rewrite (qmin_l 1 b) by qlra. rewrite qmin_r; [qlra|]. destruct (S (1 - b)) as [_ S1]. assert (c + k - 1 <= 0); [|qlra]. rewrite Yd. apply S1. qlra. }
    assert (Sy : forall y z, c + k * y <= c + k * z <-> y <= z).
    { intros y z. destruct (S (y - z)) as [_ S1]. replace (k * (y - z)) with (k * y - k * z) in S1 by ring. split; intros H; [assert (y - z <= 0) by (apply S1; qlra); qlra|].
      assert (k * y - k * z <= 0) by (apply S1; qlra). qlra. }
    assert (In : forall y, (0 <= c + k * y /\ c + k * y <= 1) /\ 0 <= y /\ y <= 1 <-> qmax 0 a <= y /\ y <= qmin 1 b).
    { intros y. pose proof (Sy a y) as Sya. pose proof (Sy y b) as Syb. rewrite A in Sya. rewrite B in Syb. rewrite Sya, Syb. clear.
      destruct (qmin_cases 1 b) as [[? ->]|[? ->]]; destruct (qmax_cases 0 a) as [[? ->]|[? ->]]; split; intros HH; decompose [and] HH; repeat split; qlra. }
    constructor.
    + split; [rewrite E0, E1; apply Sy|]; (destruct (qmin_cases 1 b) as [[? ->]|[? ->]]; destruct (qmax_cases 0 a) as [[? ->]|[? ->]]; qlra).
    + intros y. rewrite E0, E1, In, !Sy. tauto.
    + exact In.
    + by left.
Qed.
