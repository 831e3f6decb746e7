(** * Property C90: the position of a point with respect to any polygon. *)
From Coq Require Import QArith Qcanon.
From Verif Require Import Base QcTac FillModel GeoModel MapModel PointModel PointSpec PointProof PointProps PolyModel PolySpec PolyProof PolyProps
  RayModel RaySpec RayProof RayConvex.
Local Open Scope Qc_scope.

(** Polygons cut along diagonals into triangles: inside is inside of an odd number of the triangles. *)
Theorem C90_cuts : forall g p vs ts, exact g -> flat p -> proper vs -> cuts vs ts -> Forall (off_triangle p) ts ->
  exists r, PointPolygonPosition_RayCasting g p vs = Ok r /\ ray_position_spec p vs (Nat.Odd (length (filter (in_triangle p) ts))) r.
Proof. intros g p vs ts X P V C. exact (ray_triangles g p vs ts X P V (closed_sum_cuts _ _ _ (wind_antisymmetric p) C)). Qed.
Print Assumptions C90_cuts.

(** The same for the triangles from any point to the sides of the polygon. *)
Theorem C90_fan : forall g p vs q, exact g -> flat p -> proper vs -> Forall (off_triangle p) (fan_closed q vs) ->
  exists r, PointPolygonPosition_RayCasting g p vs = Ok r /\
    ray_position_spec p vs (Nat.Odd (length (filter (in_triangle p) (fan_closed q vs)))) r.
Proof. intros g p vs q X P V. exact (ray_triangles g p vs _ X P V (closed_sum_fan _ q _ (wind_antisymmetric p))). Qed.
Print Assumptions C90_fan.

(** Points on the border of any polygon are recognized, and no others. *)
Theorem C90_border : forall g p vs, exact g -> flat p -> proper vs ->
  exists r, PointPolygonPosition_RayCasting g p vs = Ok r /\ (on_border p vs <-> r <> Inside /\ r <> Outside) /\
    (on_border p vs -> polygon_position_spec p vs r).
Proof.
  intros g p vs X P V. destruct (ray_cases g p vs X P V) as (r & E & [B|(N & z & _ & ->)]); eexists; (split; [exact E|]).
  - pose proof (border_on p vs r B). destruct r; try done.
  - destruct (Z.odd z); (split; [split; [done|intros []; done]|done]).
Qed.
Print Assumptions C90_border.

(** Strictly convex polygons: inside is on the left of all sides. *)
Theorem C90_convex : forall g p vs, exact g -> flat p -> (2 < length vs)%nat -> Forall flat vs -> strictly_convex vs ->
  exists r, PointPolygonPosition_RayCasting g p vs = Ok r /\
    ray_position_spec p vs (forall i, 0 < orient (corner vs i) (corner vs (S i)) p) r.
Proof. exact ray_convex. Qed.
Print Assumptions C90_convex.

(** They get the same answer as from the function for convex polygons. *)
Theorem C90_agrees : forall g p vs, exact g -> flat p -> (2 < length vs)%nat -> Forall flat vs -> strictly_convex vs ->
  PointPolygonPosition_RayCasting g p vs = PointPolygonPosition g p vs.
Proof. exact ray_agrees. Qed.
Print Assumptions C90_agrees.

(** A polygon with a notch. *)
Definition notched_triangles : list triangle := [(q2 4 0, q2 4 4, q2 2 2); (q2 2 2, q2 0 4, q2 0 0); (q2 0 0, q2 4 0, q2 2 2)].
Example C90_nonvacuous :
  proper notched /\ cuts notched notched_triangles /\ Forall (off_triangle (q2 3 2)) notched_triangles /\
  PointPolygonPosition_RayCasting zero_tolerances (q2 3 2) notched = Ok Inside /\
  PointPolygonPosition_RayCasting zero_tolerances (q2 2 3) notched = Ok Outside /\
  PointPolygonPosition_RayCasting zero_tolerances (q2 3 3) notched = Ok (BorderEdge 2) /\
  PointPolygonPosition_RayCasting zero_tolerances (q2 2 2) notched = Ok (BorderVertex 3).
Proof.
  split; [|split; [apply C66_nonvacuous|split; [|split_and!; vm_compute; reflexivity]]].
  - split; [cbn; lia|]. split; [by repeat constructor|]. intros i. rewrite <- (corner_mod notched i), <- (next_corner notched) by (cbn; lia).
    pose proof (Nat.mod_upper_bound i (length notched)) as U. change (length notched) with 5%nat in *. specialize (U ltac:(done)).
    generalize dependent (i mod 5)%nat. intros [|[|[|[|[|k]]]]] K; [..|lia]; intros E; vm_compute in E; congruence.
  - assert (forall a b, orient a b (q2 3 2) <> 0 -> ~ on_side (q2 3 2) a b) as K.
    { intros a b N (c & _ & _ & X & Y). apply N. unfold orient. rewrite X, Y. ring. }
    repeat constructor; apply K; cbn [fst snd]; intros E; vm_compute in E; congruence.
Qed.
(** A strictly convex quadrilateral. *)
Definition quad : list vec3 := [q2 0 0; q2 4 1; q2 5 5; q2 1 4].
Example C90_convex_nonvacuous : Forall flat quad /\ strictly_convex quad /\
  PointPolygonPosition_RayCasting zero_tolerances (q2 2 2) quad = Ok Inside /\ PointPolygonPosition_RayCasting zero_tolerances (q2 5 4) quad = Ok Outside.
Proof.
  split; [by repeat constructor|]. split; [|split; vm_compute; reflexivity].
  intros i j I J A B. change (length quad) with 4%nat in *.
  destruct i as [|[|[|[|i]]]]; [..|lia]; destruct j as [|[|[|[|j]]]]; try lia; try (exfalso; apply A; reflexivity); try (exfalso; apply B; reflexivity); vm_compute; reflexivity.
Qed.

(** With tolerances the result is wrong far from the border: the tolerance is compared with the coordinate along the edge, so it
    grows with the length of the edge, and the crossing is counted for the edge before and again for the edge after.  Here the
    rectangle is 20 wide, the point has the distance 1 from the nearest side, and the tolerance is 1e-6. *)
Definition tall : list vec3 := [q2 10 (-2000000); q2 10 (-1); q2 10 1; q2 (-10) 1; q2 (-10) (-2000000)].
Theorem C90_tolerance_refuted : exists g p vs, MinTolerance g = Q2Qc (1 # 100000000000000) /\ cfgTolerance1D g = Q2Qc (1 # 1000000) /\ flat p /\
  proper vs /\ left_turning vs /\ convex vs /\ (forall i, 0 < orient (corner vs i) (corner vs (S i)) p) /\
  (forall i q, on_side q (corner vs i) (corner vs (S i)) -> 1 <= norm2 (vsub q p)) /\
  PointPolygonPosition g p vs = Ok Inside /\ PointPolygonPosition_RayCasting g p vs = Ok Outside.
Proof.
  exists (GeoConfig (Q2Qc (1 # 100000000000000)) (Q2Qc (1 # 1000000))), (q2 0 0), tall.
  assert (forall P : vec3 -> vec3 -> vec3 -> Prop, P (corner tall 0) (corner tall 1) (corner tall 2) -> P (corner tall 1) (corner tall 2) (corner tall 3) ->
    P (corner tall 2) (corner tall 3) (corner tall 4) -> P (corner tall 3) (corner tall 4) (corner tall 0) -> P (corner tall 4) (corner tall 0) (corner tall 1) ->
    forall i, P (corner tall i) (corner tall (S i)) (corner tall (S (S i)))) as K.
  { intros P P0 P1 P2 P3 P4 i. rewrite <- (next_corner tall ltac:(cbn; lia) (S i)), <- (corner_mod tall i), <- (corner_mod tall (S i)).
    rewrite <- succ_mod by done.
    pose proof (Nat.mod_upper_bound i (length tall)) as U. change (length tall) with 5%nat in *. specialize (U ltac:(done)).
    generalize dependent (i mod 5)%nat. intros [|[|[|[|[|k]]]]] Q; [done..|lia]. }
  assert (forall i, corner tall i <> corner tall (S i)) as D.
  { apply (K (fun a b _ => a <> b)); intros E; vm_compute in E; congruence. }
  split; [done|]. split; [done|]. split; [done|]. split; [split; [cbn; lia|split; [by repeat constructor|done]]|].
  split; [split; [by repeat constructor|split; [done|]]|].
  { apply (K (fun a b c => 0 < orient a b c \/ exists k, 1 < k /\ on_line a b k c)).
    - right. exists (Q2Qc (2000001 # 1999999)). split; [vm_compute; reflexivity|]. apply (f_equal2 pair); [apply (f_equal2 pair)|]; apply Qc_is_canon; vm_compute; reflexivity.
    - left. vm_compute. reflexivity.
    - left. vm_compute. reflexivity.
    - left. vm_compute. reflexivity.
    - left. vm_compute. reflexivity. }
  split.
  { intros i j. revert i. apply (K (fun a b _ => 0 <= orient a b (corner tall j))); revert j;
      (apply (K (fun u _ _ => 0 <= orient _ _ u)); intros E; vm_compute in E; congruence). }
  split.
  { apply (K (fun a b _ => 0 < orient a b (q2 0 0))); vm_compute; reflexivity. }
  split; [|split; vm_compute; reflexivity].
  assert (forall q : vec3, 1 <= q.1.1 * q.1.1 \/ 1 <= q.1.2 * q.1.2 -> 1 <= norm2 (vsub q (q2 0 0))) as N.
  { intros q H. unfold norm2, vdot, vsub, q2. cbn [fst snd]. pose proof (square_nonneg (q.2 - 0)) as S2.
    pose proof (square_nonneg q.1.1) as S0. pose proof (square_nonneg q.1.2) as S1. change (Q2Qc (inject_Z 0)) with 0.
    replace (q.1.1 - 0) with q.1.1 by ring. replace (q.1.2 - 0) with q.1.2 by ring. destruct H as [H|H]; clear - H S0 S1 S2; qlra. }
  apply (K (fun a b _ => forall q, on_side q a b -> 1 <= norm2 (vsub q (q2 0 0))));
    intros q (c & C0 & C1 & X & Y); apply N; clear N D K; change (corner tall 0) with (q2 10 (-2000000)) in *; change (corner tall 1) with (q2 10 (-1)) in *;
    change (corner tall 2) with (q2 10 1) in *; change (corner tall 3) with (q2 (-10) 1) in *; change (corner tall 4) with (q2 (-10) (-2000000)) in *;
    unfold q2 in X, Y; cbn [fst snd] in X, Y.
  - left. assert (q.1.1 = Q2Qc (inject_Z 10)) as -> by (clear - X; rewrite X; ring). vm_compute. intros E. congruence.
  - left. assert (q.1.1 = Q2Qc (inject_Z 10)) as -> by (clear - X; rewrite X; ring). vm_compute. intros E. congruence.
  - right. assert (q.1.2 = Q2Qc (inject_Z 1)) as -> by (clear - Y; rewrite Y; ring). vm_compute. intros E. congruence.
  - left. assert (q.1.1 = Q2Qc (inject_Z (-10))) as -> by (clear - X; rewrite X; ring). vm_compute. intros E. congruence.
  - right. assert (q.1.2 = Q2Qc (inject_Z (-2000000))) as -> by (clear - Y; rewrite Y; ring). vm_compute. intros E. congruence.
Qed.
Print Assumptions C90_tolerance_refuted.

(** ** C62 again: the tolerance of the position with respect to a segment.  When both tolerances of the configuration are equal, as by
    default, the squared sine is compared with the tolerance itself and not with its square, because no comparison uses less than
    the smallest tolerance: a point whose distance from the segment is a quarter of the square root of the tolerance is on it. *)
Theorem C62_tolerance_refuted s : 0 < s -> s <= Q2Qc (1 # 2) ->
  let g := GeoConfig (s * s) (s * s) in let p := (Q2Qc (1 # 2), s * Q2Qc (1 # 4), 0) in
  PointSegmentPosition g p (q2 0 0) (q2 1 0) = Ok InsideSegment /\ orient (q2 0 0) (q2 1 0) p = s * Q2Qc (1 # 4).
Proof.
  intros P H g p. split; [|unfold orient, p, q2; cbn [fst snd]; change (Q2Qc (inject_Z 0)) with 0; change (Q2Qc (inject_Z 1)) with 1; ring].
  assert (0 <= s * s) as S0 by (clear - P; qnra). assert (s * s <= Q2Qc (1 # 4)) as S1 by (clear - P H; qnra).
  assert (max_tolerance g (Tolerance1DSquared g) = s * s) as M2.
  { unfold max_tolerance, Tolerance1DSquared. change (MinTolerance g) with (s * s). change (cfgTolerance1D g) with (s * s).
    assert (s * s * (s * s) <= s * s) as Q by (clear - S0 S1; qnra).
    assert (0 <= s * s * (s * s)) as Q0 by (clear - S0; qnra).
    clear - S0 S1 Q Q0. generalize dependent (s * s * (s * s)). intros q Q Q0. generalize dependent (s * s). intros t S0 S1 Q. qcases; qlra. }
  assert (max_tolerance g (Tolerance1D g) = s * s) as M1.
  { unfold max_tolerance, Tolerance1D. change (MinTolerance g) with (s * s). change (cfgTolerance1D g) with (s * s).
    clear - S0 S1. generalize dependent (s * s). intros t S0 S1. qcases; qlra. }
  unfold PointSegmentPosition.
  assert (PointCurvilinearCoordinate p (q2 0 0) (q2 1 0) = Q2Qc (1 # 2)) as ->.
  { unfold PointCurvilinearCoordinate, vdot, norm2, vdot, vsub, p, q2. cbn [fst snd]. change (Q2Qc (inject_Z 0)) with 0. change (Q2Qc (inject_Z 1)) with 1. field. done. }
  assert (IsValueZero g (sine2 (vsub p (q2 0 0)) (vsub (q2 1 0) (q2 0 0))) (Tolerance1DSquared g) = true) as ->.
  { apply zero_iff. rewrite M2.
    assert (sine2 (vsub p (q2 0 0)) (vsub (q2 1 0) (q2 0 0)) = s * s / (Q2Qc 4 + s * s)) as ->.
    { unfold sine2, norm2, vcross, vdot, vsub, p, q2. cbn [fst snd]. change (Q2Qc (inject_Z 0)) with 0. change (Q2Qc (inject_Z 1)) with 1.
      transitivity ((s * Q2Qc (1 # 4)) * (s * Q2Qc (1 # 4)) / (Q2Qc (1 # 2) * Q2Qc (1 # 2) + (s * Q2Qc (1 # 4)) * (s * Q2Qc (1 # 4)))).
      - f_equal; [ring|]. f_equal. ring.
      - replace ((s * Q2Qc (1 # 4)) * (s * Q2Qc (1 # 4))) with (s * s * Q2Qc (1 # 16)) by (apply this_eq; rewrite !this_mult, !this_Q2Qc; ring).
        replace (Q2Qc (1 # 2) * Q2Qc (1 # 2) + s * s * Q2Qc (1 # 16)) with ((Q2Qc 4 + s * s) * Q2Qc (1 # 16)) by (clear; qlra).
        field. split; [intros E; clear - E S0; qlra|]. done. }
    set (d := Q2Qc 4 + s * s). assert (0 < d) as D by (unfold d; clear - S0; qlra). assert (1 <= d) as D1 by (unfold d; clear - S0; qlra). clearbody d. clear - S0 S1 D D1.
    generalize dependent (s * s). intros t S0 S1.
    assert (d <> 0) as DZ by (intros E; rewrite E in D; clear - D; qlra).
    set (q := t / d). assert (t = q * d) as E by (unfold q; by field). clearbody q. subst t.
    assert (0 <= q) as Q by (clear - S0 D; qnra). unfold qabs. destruct (qle_spec 0 q) as [_|N]; [|done]. clear - D1 Q. qnra. }
  rewrite orb_true_r. unfold CoordinatePosition.
  assert (IsValueZero g (Q2Qc (1 # 2)) (Tolerance1D g) = false) as ->.
  { apply not_true_iff_false. rewrite zero_iff, M1. intros Z. assert (qabs (Q2Qc (1 # 2)) = Q2Qc (1 # 2)) as E by (vm_compute; reflexivity).
    rewrite E in Z. clear - Z S1. qlra. }
  assert (IsValuePositive g (Q2Qc (1 # 2)) (Tolerance1D g) = true) as ->.
  { apply positive_iff. rewrite M1. clear - S1. qlra. }
  assert (CompareValues g 1 (Q2Qc (1 # 2)) (Tolerance1D g) = SecondBeforeFirst) as ->; [|done].
  unfold CompareValues. fold (max_tolerance g (Tolerance1D g)). rewrite M1. clear - S0 S1. generalize dependent (s * s). intros t S0 S1.
  assert (qabs 1 = 1) as -> by (vm_compute; reflexivity).
  assert (qabs (Q2Qc (1 # 2)) = Q2Qc (1 # 2)) as -> by (vm_compute; reflexivity).
  assert (qle 1 t = false) as ->. { destruct (qle_spec 1 t); [exfalso; clear - q S1; qlra|done]. }
  assert (qle (Q2Qc (1 # 2)) t = false) as ->. { destruct (qle_spec (Q2Qc (1 # 2)) t); [exfalso; clear - q S1; qlra|done]. }
  cbn [orb].
  assert (Q2Qc (1 # 2) - 1 = Q2Qc (-1 # 2)) as -> by (apply Qc_is_canon; vm_compute; reflexivity).
  assert (qabs (Q2Qc (-1 # 2)) = Q2Qc (1 # 2)) as -> by (apply Qc_is_canon; vm_compute; reflexivity).
  destruct (qle_spec (Q2Qc (1 # 2)) (t * 1)) as [q|_]; [exfalso; clear - q S1; qlra|].
  destruct (qlt_spec (Q2Qc (-1 # 2)) (- t * 1)) as [|N]; [done|]. exfalso. clear - N S1. qlra.
Qed.
Print Assumptions C62_tolerance_refuted.
