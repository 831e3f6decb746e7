From Coq Require Import QArith Qcanon Lqa.
From Verif Require Import Base QcTac FillModel GeoModel MapModel PointModel PointSpec.
Local Open Scope Qc_scope.

(** ** Tolerances *)

Lemma max_tolerance_nonneg g t : 0 <= max_tolerance g t.
Proof. unfold max_tolerance. qcases; qlra. Qed.
Lemma compare_zero g v t :
  CompareValues g 0 v t =
  if qle (qabs v) (max_tolerance g t) then Coincident
  else if qlt v 0 then SecondBeforeFirst else FirstBeforeSecond.
Proof.
  unfold CompareValues. fold (max_tolerance g t). pose proof (max_tolerance_nonneg g t) as P.
  generalize dependent (max_tolerance g t). intros m P.
  assert (qabs 0 = 0) as -> by (apply Qc_is_canon; vm_compute; reflexivity).
  assert (qle 0 m = true) as -> by (destruct (qle_spec 0 m); done).
  cbn [orb]. replace (v - 0) with v by ring. replace (m * 1) with m by ring.
  destruct (qle_spec (qabs v) m) as [|A]; [done|].
  destruct (qlt_spec v (- m * 1)), (qlt_spec v 0); try done; exfalso; qcases; qlra.
Qed.
Lemma zero_iff g v t : IsValueZero g v t = true <-> qabs v <= max_tolerance g t.
Proof.
  unfold IsValueZero. rewrite bool_decide_eq_true, compare_zero.
  destruct (qle_spec (qabs v) (max_tolerance g t)); [done|]. destruct (qlt v 0); done.
Qed.
Lemma positive_iff g v t : IsValuePositive g v t = true <-> max_tolerance g t < v.
Proof.
  unfold IsValuePositive. rewrite bool_decide_eq_true, compare_zero. pose proof (max_tolerance_nonneg g t) as P.
  destruct (qle_spec (qabs v) (max_tolerance g t)).
  - split; [done|]. intros. exfalso. qcases; qlra.
  - destruct (qlt_spec v 0); (split; [done || (intros; qcases; qlra)|]); try done. intros. exfalso. qcases; qlra.
Qed.
Lemma negative_iff g v t : IsValueNegative g v t = true <-> v < - max_tolerance g t.
Proof.
  unfold IsValueNegative. rewrite bool_decide_eq_true, compare_zero. pose proof (max_tolerance_nonneg g t) as P.
  destruct (qle_spec (qabs v) (max_tolerance g t)).
  - split; [done|]. intros. exfalso. qcases; qlra.
  - destruct (qlt_spec v 0); (split; [done || (intros; qcases; qlra)|]); try done. intros. exfalso. qcases; qlra.
Qed.

Lemma exact_tolerance g : exact g -> Tolerance1D g = 0 /\ Tolerance1DSquared g = 0 /\ max_tolerance g 0 = 0.
Proof.
  intros [A B]. unfold Tolerance1D, Tolerance1DSquared, max_tolerance. rewrite A, B.
  split_and!; apply Qc_is_canon; vm_compute; reflexivity.
Qed.
Lemma compare_exact g a b :
  exact g -> CompareValues g a b 0 = if qeq b a then Coincident else if qlt b a then SecondBeforeFirst else FirstBeforeSecond.
Proof.
  intros E. destruct (exact_tolerance g E) as (_ & _ & M). unfold CompareValues. fold (max_tolerance g 0). rewrite M.
  generalize (if qle (qabs a) 0 || qle (qabs b) 0 then 1 else qabs a). intros r.
  replace (0 * r) with 0 by ring. replace (- 0 * r) with 0 by ring.
  destruct (qle_spec (qabs (b - a)) 0) as [A|A].
  - destruct (qeq_spec b a) as [|N]; [done|]. destruct N. qcases; qlra.
  - destruct (qeq_spec b a) as [->|N]; [destruct A; qcases; qlra|].
    destruct (qlt_spec (b - a) 0), (qlt_spec b a); try done; exfalso; qlra.
Qed.

(** ** Positions with respect to a segment *)

Lemma square_nonneg (x : Qc) : 0 <= x * x.
Proof. qnra. Qed.
Lemma square_zero (x : Qc) : x * x = 0 -> x = 0.
Proof. intros H. apply Qcmult_integral in H. tauto. Qed.
Lemma norm2_nonneg u : 0 <= norm2 u.
Proof.
  unfold norm2, vdot. pose proof (square_nonneg u.1.1). pose proof (square_nonneg u.1.2). pose proof (square_nonneg u.2). qlra.
Qed.
Lemma norm2_zero u : norm2 u = 0 -> u = (0, 0, 0).
Proof.
  unfold norm2, vdot. destruct u as [[x y] z]. cbn. intros H.
  pose proof (square_nonneg x). pose proof (square_nonneg y). pose proof (square_nonneg z).
  rewrite (square_zero x), (square_zero y), (square_zero z); [done|qlra..].
Qed.
Lemma norm2_pos u : u <> (0, 0, 0) -> 0 < norm2 u.
Proof.
  intros H. destruct (Qc_dec (norm2 u) 0) as [[L|G]|E].
  - pose proof (norm2_nonneg u). qlra.
  - done.
  - by apply norm2_zero in E.
Qed.
Lemma vec_eq (a b : vec3) : a.1.1 = b.1.1 -> a.1.2 = b.1.2 -> a.2 = b.2 -> a = b.
Proof. destruct a as [[x y] z], b as [[x' y'] z']. cbn. by intros -> -> ->. Qed.
Lemma vsub_zero a b : vsub a b = (0, 0, 0) -> a = b.
Proof.
  intros H. pose proof (f_equal (fun u => u.1.1) H) as A. pose proof (f_equal (fun u => u.1.2) H) as B.
  pose proof (f_equal (fun u => u.2) H) as C. cbn in A, B, C. apply vec_eq; qlra.
Qed.
Lemma quotient_zero (a b : Qc) : b <> 0 -> a / b = 0 -> a = 0.
Proof. intros B E. replace a with (a / b * b) by (field; done). rewrite E. ring. Qed.
Lemma quotient_pos (a b : Qc) : 0 < b -> 0 < a -> 0 < a / b.
Proof.
  intros B A. assert (b <> 0) by (intros ->; qlra).
  destruct (Qclt_le_dec 0 (a / b)) as [|L]; [done|]. exfalso.
  assert (a = a / b * b) as E by (field; done).
  revert E L. generalize (a / b). intros q E L. rewrite E in A. clear E. qnra.
Qed.

Lemma orient_cross p o e : flat p -> flat o -> flat e ->
  norm2 (vcross (vsub p o) (vsub e o)) = orient o e p * orient o e p.
Proof.
  unfold flat, norm2, vdot, vcross, vsub, orient. destruct p as [[px py] pz], o as [[ox oy] oz], e as [[ex ey] ez]. cbn.
  intros -> -> ->. ring.
Qed.
Lemma aligned_on_line p o e : flat p -> flat o -> flat e -> o <> e -> orient o e p = 0 ->
  on_line o e (PointCurvilinearCoordinate p o e) p.
Proof.
  intros P O E N Z. assert (vsub e o <> (0, 0, 0)) as T by (intros X; apply vsub_zero in X; congruence).
  pose proof (norm2_pos _ T) as M. assert (norm2 (vsub e o) <> 0) as M' by (intros X; rewrite X in M; qlra).
  unfold on_line, PointCurvilinearCoordinate.
  revert P O E Z M'. unfold flat, norm2, vdot, vsub, orient. clear.
  destruct p as [[px py] pz], o as [[ox oy] oz], e as [[ex ey] ez]. cbn. intros -> -> -> Z M.
  set (n := (ex - ox) * (ex - ox) + (ey - oy) * (ey - oy) + (0 - 0) * (0 - 0)) in *.
  assert (forall a b : Qc, a * n = b * n -> a = b) as C.
  { intros a b X. replace a with (a * n / n) by (field; done). rewrite X. field. done. }
  f_equal; [f_equal|].
  - apply C. replace ((ox + ((px - ox) * (ex - ox) + (py - oy) * (ey - oy) + (0 - 0) * (0 - 0)) / n * (ex - ox)) * n)
      with (ox * n + ((px - ox) * (ex - ox) + (py - oy) * (ey - oy)) * (ex - ox)) by (field; done).
    unfold n. transitivity (px * ((ex - ox) * (ex - ox) + (ey - oy) * (ey - oy) + (0 - 0) * (0 - 0)) +
      (ey - oy) * ((ex - ox) * (py - oy) - (ey - oy) * (px - ox))); [rewrite Z; ring|ring].
  - apply C. replace ((oy + ((px - ox) * (ex - ox) + (py - oy) * (ey - oy) + (0 - 0) * (0 - 0)) / n * (ey - oy)) * n)
      with (oy * n + ((px - ox) * (ex - ox) + (py - oy) * (ey - oy)) * (ey - oy)) by (field; done).
    unfold n. transitivity (py * ((ex - ox) * (ex - ox) + (ey - oy) * (ey - oy) + (0 - 0) * (0 - 0)) -
      (ex - ox) * ((ex - ox) * (py - oy) - (ey - oy) * (px - ox))); [rewrite Z; ring|ring].
  - ring.
Qed.
Lemma on_line_0 o e p : on_line o e 0 p -> p = o.
Proof. unfold on_line. destruct o as [[ox oy] oz]. cbn. intros ->. f_equal; [f_equal|]; ring. Qed.
Lemma on_line_1 o e p : on_line o e 1 p -> p = e.
Proof. unfold on_line. destruct e as [[ox oy] oz]. cbn. intros ->. f_equal; [f_equal|]; ring. Qed.

Lemma coordinate_exact g c : exact g -> exists r, CoordinatePosition g c = Ok r /\
  match r with
  | OnSegmentLineBeforeOrigin => c < 0 | OnSegmentOrigin => c = 0 | InsideSegment => 0 < c /\ c < 1
  | OnSegmentEnd => c = 1 | OnSegmentLineAfterEnd => 1 < c | _ => False
  end.
Proof.
  intros E. destruct (exact_tolerance g E) as (T & _ & _). unfold CoordinatePosition. rewrite T.
  unfold IsValueZero, IsValuePositive, IsValueNegative. rewrite !compare_exact by done.
  destruct (qeq_spec c 0) as [Z|Z]; [rewrite bool_decide_true by done; eauto|].
  destruct (qlt_spec c 0) as [L|L].
  - rewrite (bool_decide_false (SecondBeforeFirst = Coincident)) by done.
    destruct (qeq_spec c 1) as [->|O]; [qlra|].
    destruct (qlt_spec c 1) as [U|U]; [|qlra]. cbn. eauto.
  - rewrite (bool_decide_false (FirstBeforeSecond = Coincident)) by done.
    assert (0 < c) as P. { destruct (Qc_dec 0 c) as [[|]|]; [done|qlra|congruence]. }
    destruct (qeq_spec c 1) as [O|O]; [cbn; eauto|].
    destruct (qlt_spec c 1) as [U|U]; cbn; eexists; (split; [reflexivity|]); [done|].
    destruct (Qc_dec 1 c) as [[|]|]; [done|qlra|congruence].
Qed.

Lemma segment_exact g p o e : exact g -> flat p -> flat o -> flat e -> o <> e ->
  exists r, PointSegmentPosition g p o e = Ok r /\ segment_position_spec p o e r.
Proof.
  intros X P O E N. destruct (exact_tolerance g X) as (T & S & M).
  assert (vsub e o <> (0, 0, 0)) as V by (intros Y; apply vsub_zero in Y; congruence).
  pose proof (norm2_pos _ V) as VP. assert (norm2 (vsub e o) <> 0) as VN by (intros Y; rewrite Y in VP; qlra).
  unfold PointSegmentPosition. rewrite T, S.
  destruct (_ || _) eqn:B.
  - assert (orient o e p = 0) as Z.
    { apply square_zero. rewrite <- orient_cross by done.
      apply orb_true_iff in B. rewrite !zero_iff, M in B. destruct B as [B|B].
      - assert (vsub p o = (0, 0, 0)) as D.
        { apply norm2_zero. pose proof (norm2_nonneg (vsub p o)). qcases; qlra. }
        rewrite D. unfold vcross, norm2, vdot. cbn. ring.
      - destruct (decide (norm2 (vsub p o) = 0)) as [D|D].
        + apply norm2_zero in D. rewrite D. unfold vcross, norm2, vdot. cbn. ring.
        + apply (quotient_zero _ (norm2 (vsub p o) * norm2 (vsub e o))).
          * intros Y. apply Qcmult_integral in Y. tauto.
          * unfold sine2 in B. qcases; qlra. }
    pose proof (aligned_on_line p o e P O E N Z) as L.
    destruct (coordinate_exact g (PointCurvilinearCoordinate p o e) X) as (r & -> & Q).
    exists r. split; [done|]. destruct r; cbn; try done.
    + eauto.
    + rewrite Q in L. by apply on_line_0 in L.
    + destruct Q. eauto.
    + rewrite Q in L. by apply on_line_1 in L.
    + eauto.
  - apply orb_false_iff in B. destruct B as [B1 B2].
    assert (vsub p o <> (0, 0, 0)) as D.
    { intros D. rewrite D in B1. apply not_true_iff_false in B1. apply B1. apply zero_iff. rewrite M.
      unfold norm2, vdot. cbn. replace (0 * 0 + 0 * 0 + 0 * 0) with 0 by ring. qcases; qlra. }
    pose proof (norm2_pos _ D) as DP. assert (norm2 (vsub p o) <> 0) as DN by (intros Y; rewrite Y in DP; qlra).
    assert (orient o e p <> 0) as Z.
    { intros Z. apply not_true_iff_false in B2. apply B2. apply zero_iff. rewrite M. unfold sine2.
      rewrite orient_cross by done. rewrite Z. replace (0 * 0 / (norm2 (vsub p o) * norm2 (vsub e o))) with 0.
      - qcases; qlra.
      - field. done. }
    assert (forall u : vec3, u.2 = 0 -> norm_zero g (u.2 * u.2 / norm2 u) 0 = true) as W.
    { intros u U. unfold norm_zero. rewrite M, U. unfold Qcdiv. replace (0 * 0 * / norm2 u) with (0 * 0) by ring.
      destruct (qle_spec (0 * 0) (0 * 0)); [done|]. qlra. }
    rewrite !W by (unfold vsub; cbn; rewrite ?P, ?O, ?E; ring). cbn.
    unfold quotient_positive. rewrite M.
    assert (0 < norm2 (vsub p o) * norm2 (vsub e o)) as DEN.
    { revert DP VP. generalize (norm2 (vsub p o)), (norm2 (vsub e o)). intros. qnra. }
    set (num := (p.1.1 - o.1.1) * (e.1.2 - o.1.2) - (p.1.2 - o.1.2) * (e.1.1 - o.1.1)).
    assert (num = - orient o e p) as NUM by (unfold num, orient; ring).
    assert (num <> 0) as NZ. { rewrite NUM. intros Y. apply Z. qlra. }
    destruct (qlt_spec 0 num) as [G|G].
    + destruct (qlt_spec (0 * 0) (num * num / (norm2 (vsub p o) * norm2 (vsub e o)))) as [G'|G'].
      * cbn. eexists. split; [done|]. cbn. qlra.
      * destruct G'. replace (0 * 0) with 0 by ring. apply quotient_pos; [done|]. clear -G. qnra.
    + cbn. eexists. split; [done|]. cbn. destruct (Qc_dec 0 num) as [[|]|]; [done|qlra|congruence].
Qed.

(** The positions exclude each other. *)
Lemma on_line_orient o e c p : on_line o e c p -> orient o e p = 0.
Proof. unfold on_line, orient. intros ->. cbn. ring. Qed.
Lemma on_line_unique o e c c' p : o <> e -> on_line o e c p -> on_line o e c' p -> c = c'.
Proof.
  intros N A B. destruct (decide (c = c')) as [|D]; [done|]. destruct N.
  assert (c - c' <> 0) as D' by (intros Y; apply D; qlra).
  assert (forall u v : Qc, u + c * (v - u) = u + c' * (v - u) -> u = v) as K.
  { intros u v Y. assert ((c - c') * (v - u) = 0) as W by qlra. apply Qcmult_integral in W. destruct W; [done|qlra]. }
  rewrite A in B. unfold on_line in B.
  pose proof (f_equal (fun u : vec3 => u.1.1) B) as X1. pose proof (f_equal (fun u : vec3 => u.1.2) B) as X2.
  pose proof (f_equal (fun u : vec3 => u.2) B) as X3. cbn in X1, X2, X3. apply vec_eq; apply K; done.
Qed.
Lemma on_line_origin o e : on_line o e 0 o.
Proof. unfold on_line. apply vec_eq; cbn; ring. Qed.
Lemma on_line_end o e : on_line o e 1 e.
Proof. unfold on_line. apply vec_eq; cbn; ring. Qed.

Lemma segment_spec_unique p o e r r' : o <> e -> segment_position_spec p o e r -> segment_position_spec p o e r' -> r = r'.
Proof.
  intros N A B.
  assert (forall s, segment_position_spec p o e s ->
    match s with
    | RightTheSegment => orient o e p < 0 | LeftTheSegment => 0 < orient o e p
    | _ => orient o e p = 0 /\ exists c, on_line o e c p /\
        match s with
        | OnSegmentLineBeforeOrigin => c < 0 | OnSegmentOrigin => c = 0 | InsideSegment => 0 < c /\ c < 1
        | OnSegmentEnd => c = 1 | _ => 1 < c
        end
    end) as K.
  { intros s S. pose proof (on_line_origin o e). pose proof (on_line_end o e).
    destruct s; cbn in S; try done.
    - destruct S as (c & ? & L). split; [by apply on_line_orient in L|eauto].
    - subst p. split; [by apply (on_line_orient o e 0)|eauto].
    - destruct S as (c & ? & ? & L). split; [by apply on_line_orient in L|eauto].
    - subst p. split; [by apply (on_line_orient o e 1)|eauto].
    - destruct S as (c & ? & L). split; [by apply on_line_orient in L|eauto]. }
  apply K in A, B. clear K.
  destruct r, r'; try done; exfalso;
    repeat match goal with
    | H : _ /\ (exists c, _) |- _ => destruct H as [? (? & ? & ?)]
    end;
    repeat match goal with
    | H : on_line o e ?c p, H' : on_line o e ?c' p |- _ =>
        pose proof (on_line_unique o e c c' p N H H'); clear H'
    end; try subst; qlra || (destruct_and?; qlra).
Qed.

(** ** Any tolerance *)

Lemma coordinate_total g c : exists r, CoordinatePosition g c = Ok r /\ r <> LeftTheSegment /\ r <> RightTheSegment.
Proof.
  unfold CoordinatePosition. set (t := Tolerance1D g).
  destruct (IsValueZero g c t) eqn:Z; [eauto|].
  destruct (CompareValues g 1 c t) eqn:K.
  - rewrite (bool_decide_false (FirstBeforeSecond = Coincident)), (bool_decide_false (FirstBeforeSecond = SecondBeforeFirst)) by done.
    rewrite andb_false_r. destruct (IsValueNegative g c t); eauto.
  - rewrite bool_decide_true by done. eauto.
  - rewrite (bool_decide_false (SecondBeforeFirst = Coincident)), (bool_decide_true (SecondBeforeFirst = SecondBeforeFirst)) by done.
    rewrite andb_true_r. destruct (IsValuePositive g c t) eqn:P; [eauto|].
    destruct (IsValueNegative g c t) eqn:N; [eauto|]. exfalso.
    apply not_true_iff_false in Z, P, N. rewrite zero_iff in Z. rewrite positive_iff in P. rewrite negative_iff in N.
    pose proof (max_tolerance_nonneg g t). qcases; qlra.
Qed.

Lemma sane_squared g : sane g -> max_tolerance g (Tolerance1DSquared g) <= 1.
Proof.
  intros (A & B & C & D). unfold max_tolerance, Tolerance1DSquared.
  assert (MinTolerance g * MinTolerance g <= 1) by qnra.
  assert (cfgTolerance1D g * cfgTolerance1D g <= 1) by qnra.
  assert (0 <= MinTolerance g * MinTolerance g) by qnra.
  assert (0 <= cfgTolerance1D g * cfgTolerance1D g) by qnra.
  generalize dependent (MinTolerance g * MinTolerance g). generalize dependent (cfgTolerance1D g * cfgTolerance1D g). intros.
  qcases; qlra.
Qed.

(** What the answers mean for any tolerance. *)
Lemma segment_tolerant g p o e : sane g -> flat p -> flat o -> flat e ->
  exists r, PointSegmentPosition g p o e = Ok r /\
  match r with
  | LeftTheSegment => 0 < orient o e p
  | RightTheSegment => orient o e p < 0
  | _ => let m := max_tolerance g (Tolerance1DSquared g) in
         let n := norm2 (vsub p o) in
         n <= m \/ orient o e p * orient o e p <= m * (n * norm2 (vsub e o))
  end.
Proof.
  intros X P O E. unfold PointSegmentPosition. set (s := Tolerance1DSquared g).
  pose proof (sane_squared g X) as ML. fold s in ML. pose proof (max_tolerance_nonneg g s) as MN.
  pose proof (norm2_nonneg (vsub p o)) as DN. pose proof (norm2_nonneg (vsub e o)) as TN.
  pose proof (orient_cross p o e P O E) as OC.
  set (den := norm2 (vsub p o) * norm2 (vsub e o)) in *.
  assert (0 <= den) as DEN by (unfold den; revert DN TN; generalize (norm2 (vsub p o)), (norm2 (vsub e o)); intros; qnra).
  set (w := orient o e p) in *.
  assert (sine2 (vsub p o) (vsub e o) = w * w / den) as SI by (unfold sine2; by rewrite OC).
  assert (0 <= w * w / den /\ (den = 0 -> w * w / den = 0)) as [SN SZ].
  { split.
    - destruct (decide (den = 0)) as [->|NZ].
      + unfold Qcdiv. assert (/ 0 = 0) as -> by (apply Qc_is_canon; vm_compute; reflexivity). qlra.
      + destruct (decide (w = 0)) as [->|WZ]; [replace (0 * 0 / den) with 0 by (field; done); qlra|].
        apply Qclt_le_weak. apply quotient_pos.
        * destruct (Qc_dec den 0) as [[|]|]; [qlra|done|congruence].
        * destruct (Qc_dec w 0) as [[|]|]; [qnra|qnra|congruence].
    - intros ->. unfold Qcdiv. assert (/ 0 = 0) as -> by (apply Qc_is_canon; vm_compute; reflexivity). ring. }
  destruct (_ || _) eqn:B.
  - destruct (coordinate_total g (PointCurvilinearCoordinate p o e)) as (r & -> & L & R). exists r. split; [done|].
    assert (norm2 (vsub p o) <= max_tolerance g s \/ w * w <= max_tolerance g s * den) as K.
    { apply orb_true_iff in B. rewrite !zero_iff in B. destruct B as [B|B].
      - left. qcases; qlra.
      - rewrite SI in B. destruct (decide (den = 0)) as [Z|Z].
        + right. unfold den in Z. apply Qcmult_integral in Z.
          assert (w * w = 0) as ->.
          { rewrite <- OC. unfold vcross. destruct Z as [Z|Z]; apply norm2_zero in Z; rewrite Z; unfold norm2, vdot; cbn; ring. }
          qnra.
        + right. assert (w * w = w * w / den * den) as -> by (field; done).
          assert (w * w / den <= max_tolerance g s) as Y by (qcases; qlra).
          clear -Y DEN. revert Y. generalize (w * w / den). intros. qnra. }
    destruct r; done.
  - apply orb_false_iff in B. destruct B as [B1 B2].
    assert (forall u : vec3, u.2 = 0 -> norm_zero g (u.2 * u.2 / norm2 u) (Tolerance1D g) = true) as W.
    { intros u U. unfold norm_zero. rewrite U. unfold Qcdiv. replace (0 * 0 * / norm2 u) with 0 by ring.
      destruct (qle_spec 0 (max_tolerance g (Tolerance1D g) * max_tolerance g (Tolerance1D g))) as [|Y]; [done|].
      destruct Y. apply square_nonneg. }
    rewrite !W by (unfold vsub; cbn; rewrite ?P, ?O, ?E; ring). cbn [andb require mbind outcome_bind].
    unfold quotient_positive.
    set (num := (vsub p o).1.1 * (vsub e o).1.2 - (vsub p o).1.2 * (vsub e o).1.1).
    assert (num = - w) as NUM by (unfold num, w, orient, vsub; cbn; ring).
    fold den. assert (num * num = w * w) as -> by (rewrite NUM; ring).
    apply not_true_iff_false in B2. rewrite zero_iff, SI in B2.
    assert (max_tolerance g s < w * w / den) as Y by (revert B2 SN; generalize (w * w / den); intros; qcases; qlra).
    assert (w <> 0) as WZ.
    { intros WZ. rewrite WZ in Y. replace (0 * 0 / den) with 0 in Y by (unfold Qcdiv; ring). qlra. }
    destruct (qlt_spec 0 num) as [G|G].
    + destruct (qlt_spec (max_tolerance g s * max_tolerance g s) (w * w / den)) as [G'|G'].
      * eexists. split; [reflexivity|]. cbn. qlra.
      * exfalso. apply G'. revert Y ML MN. generalize (w * w / den), (max_tolerance g s). intros. qnra.
    + eexists. split; [reflexivity|]. cbn. destruct (Qc_dec w 0) as [[?|?]|?]; [|done|done]. destruct G. qlra.
Qed.

(** ** Positions with respect to a polygon *)

Lemma corner_periodic vs i : corner vs (i + length vs) = corner vs i.
Proof.
  unfold corner. destruct (decide (length vs = 0)%nat) as [Z|Z]; [destruct vs; [|done]; rewrite !nth_overflow by (cbn; lia); done|].
  f_equal. replace (i + length vs)%nat with (i + 1 * length vs)%nat by lia. by rewrite Nat.mod_add.
Qed.
Lemma corner_vnth vs i : (i < length vs)%nat -> vnth vs i = corner vs i.
Proof. intros L. unfold corner, vnth. by rewrite Nat.mod_small. Qed.
Lemma corner_next vs i : vnth vs ((i + 1) mod length vs) = corner vs (S i).
Proof. unfold corner, vnth. by rewrite Nat.add_1_r. Qed.
Lemma corner_flat vs i : Forall flat vs -> flat (corner vs i).
Proof.
  intros F. unfold corner. destruct (nth_in_or_default (i mod length vs) vs (0, 0, 0)) as [H| ->]; [|done].
  rewrite Forall_forall in F. apply F. by apply elem_of_list_In.
Qed.
Lemma corner_mod vs i : corner vs (i mod length vs) = corner vs i.
Proof.
  unfold corner. destruct (decide (length vs = 0)%nat) as [Z|Z]; [destruct vs; [|done]; rewrite !nth_overflow by (cbn; lia); done|]. by rewrite Nat.mod_mod.
Qed.

(** A closed polygon cannot go straight on at all its corners. *)
Lemma not_all_straight vs i : (forall j, corner vs j <> corner vs (S j)) -> length vs <> 0%nat ->
  (forall j, (i <= j)%nat -> (j < i + length vs)%nat ->
    exists k, 1 < k /\ on_line (corner vs j) (corner vs (S j)) k (corner vs (S (S j)))) -> False.
Proof.
  intros D NZ S.
  remember (vsub (corner vs (Datatypes.S i)) (corner vs i)) as t eqn:Et.
  assert (0 < norm2 t) as TP. { apply norm2_pos. intros Z. rewrite Et in Z. apply vsub_zero in Z. by apply (D i). }
  assert (forall j, (i + j <= i + length vs)%nat ->
    exists l, 0 < l /\ vsub (corner vs (Datatypes.S (i + j))) (corner vs (i + j)) = vscale l t) as K.
  { induction j as [|j IH]; intros L.
    - exists 1. rewrite Nat.add_0_r. split; [qlra|]. unfold vscale. rewrite Et. apply vec_eq; cbn; ring.
    - destruct IH as (l & LP & IH); [lia|]. destruct (S (i + j)%nat) as (k & KP & O); [lia..|].
      exists ((k - 1) * l). split; [qnra|].
      replace (i + Datatypes.S j)%nat with (Datatypes.S (i + j)) by lia. rewrite O.
      revert IH. generalize (corner vs (Datatypes.S (i + j))), (corner vs (i + j)). intros b a IH.
      pose proof (f_equal (fun u : vec3 => u.1.1) IH) as X1. pose proof (f_equal (fun u : vec3 => u.1.2) IH) as X2.
      pose proof (f_equal (fun u : vec3 => u.2) IH) as X3. cbn in X1, X2, X3.
      apply vec_eq; cbn.
      + replace ((k - 1) * l * t.1.1) with ((k - 1) * (l * t.1.1)) by ring. rewrite <- X1. ring.
      + replace ((k - 1) * l * t.1.2) with ((k - 1) * (l * t.1.2)) by ring. rewrite <- X2. ring.
      + replace ((k - 1) * l * t.2) with ((k - 1) * (l * t.2)) by ring. rewrite <- X3. ring. }
  assert (forall j, (j < length vs)%nat -> vdot (corner vs (i + j)) t < vdot (corner vs (Datatypes.S (i + j))) t) as I.
  { intros j L. destruct (K j) as (l & LP & E); [lia|].
    assert (vdot (corner vs (Datatypes.S (i + j))) t - vdot (corner vs (i + j)) t = l * norm2 t) as E'.
    { transitivity (vdot (vsub (corner vs (Datatypes.S (i + j))) (corner vs (i + j))) t).
      - unfold vdot, vsub. cbn. ring.
      - rewrite E. unfold norm2, vdot, vscale. cbn. ring. }
    assert (0 < l * norm2 t) by (revert TP LP; generalize (norm2 t); intros; qnra). qlra. }
  assert (forall j, (j < length vs)%nat -> vdot (corner vs i) t < vdot (corner vs (Datatypes.S (i + j))) t) as M.
  { induction j as [|j IH]; intros L.
    - specialize (I 0%nat L). by rewrite Nat.add_0_r in *.
    - specialize (I (Datatypes.S j) L). specialize (IH ltac:(lia)).
      replace (i + Datatypes.S j)%nat with (Datatypes.S (i + j)) in I |- * by lia. qlra. }
  specialize (M (length vs - 1)%nat ltac:(lia)).
  replace (Datatypes.S (i + (length vs - 1))) with (i + length vs)%nat in M by lia.
  rewrite corner_periodic in M. qlra.
Qed.

Lemma after_turn a b c p x : 1 < x -> on_line a b x p -> 0 < orient a b c -> orient b c p < 0.
Proof.
  intros X P O. rewrite P. assert (orient b c (a.1.1 + x * (b.1.1 - a.1.1), a.1.2 + x * (b.1.2 - a.1.2), a.2 + x * (b.2 - a.2)) =
    - ((x - 1) * orient a b c)) as -> by (unfold orient; cbn; ring).
  revert O. generalize (orient a b c). intros. qnra.
Qed.
Lemma after_straight a b c p x k : 1 < x -> 1 < k -> on_line a b x p -> on_line a b k c ->
  on_line b c ((x - 1) / (k - 1)) p /\ 0 < (x - 1) / (k - 1).
Proof.
  intros X K P C. assert (k - 1 <> 0) by (intros E; qlra). split; [|apply quotient_pos; qlra].
  rewrite P, C. unfold on_line. apply vec_eq; cbn; field; done.
Qed.
Lemma before_turn a b c p x : x < 0 -> on_line b c x p -> 0 < orient a b c -> orient a b p < 0.
Proof.
  intros X P O. rewrite P. assert (orient a b (b.1.1 + x * (c.1.1 - b.1.1), b.1.2 + x * (c.1.2 - b.1.2), b.2 + x * (c.2 - b.2)) =
    x * orient a b c) as -> by (unfold orient; cbn; ring).
  revert O. generalize (orient a b c). intros. qnra.
Qed.
Lemma before_straight a b c p x k : x < 0 -> 1 < k -> on_line b c x p -> on_line a b k c ->
  on_line a b (1 + x * (k - 1)) p /\ 1 + x * (k - 1) < 1.
Proof.
  intros X K P C. split; [|assert (x * (k - 1) < 0) by qnra; qlra].
  rewrite P, C. unfold on_line. apply vec_eq; cbn; ring.
Qed.

Definition off_edge (p : vec3) (vs : list vec3) (i : nat) : Prop :=
  exists r, (r = LeftTheSegment \/ r = OnSegmentLineBeforeOrigin \/ r = OnSegmentLineAfterEnd) /\
            segment_position_spec p (corner vs i) (corner vs (S i)) r.

Lemma off_edges_left vs p : (2 < length vs)%nat -> left_turning vs -> (forall i, off_edge p vs i) ->
  forall i, 0 < orient (corner vs i) (corner vs (S i)) p.
Proof.
  intros L (F & D & T) O.
  assert (forall i r, segment_position_spec p (corner vs i) (corner vs (S i)) r ->
    r = LeftTheSegment \/ r = OnSegmentLineBeforeOrigin \/ r = OnSegmentLineAfterEnd) as U.
  { intros i r R. destruct (O i) as (r' & K & R'). by rewrite (segment_spec_unique _ _ _ _ _ (D i) R R'). }
  assert (forall i x, 0 < x -> on_line (corner vs i) (corner vs (S i)) x p -> 1 < x) as A.
  { intros i x X P. destruct (Qc_dec x 1) as [[Y|Y]|Y]; [|done|].
    - destruct (U i InsideSegment) as [|[|]]; [|done..]. cbn. eauto.
    - subst x. apply on_line_1 in P. by destruct (U i OnSegmentEnd) as [|[|]]. }
  assert (forall i x, x < 1 -> on_line (corner vs i) (corner vs (S i)) x p -> x < 0) as B.
  { intros i x X P. destruct (Qc_dec x 0) as [[Y|Y]|Y]; [done| |].
    - destruct (U i InsideSegment) as [|[|]]; [|done..]. cbn. eauto.
    - subst x. apply on_line_0 in P. by destruct (U i OnSegmentOrigin) as [|[|]]. }
  assert (forall i, ~ orient (corner vs i) (corner vs (S i)) p < 0) as NR.
  { intros i R. by destruct (U i RightTheSegment R) as [|[|]]. }
  assert (forall i x, 1 < x -> on_line (corner vs i) (corner vs (S i)) x p ->
    (exists k, 1 < k /\ on_line (corner vs i) (corner vs (S i)) k (corner vs (S (S i)))) /\
    exists y, 1 < y /\ on_line (corner vs (S i)) (corner vs (S (S i))) y p) as SA.
  { intros i x X P. destruct (T i) as [Y|(k & K & Y)].
    - destruct (NR (S i)). by apply (after_turn (corner vs i) _ _ _ x).
    - split; [eauto|]. destruct (after_straight _ _ _ _ _ _ X K P Y) as [Q1 Q2]. eauto. }
  assert (forall i x, x < 0 -> on_line (corner vs (S i)) (corner vs (S (S i))) x p ->
    (exists k, 1 < k /\ on_line (corner vs i) (corner vs (S i)) k (corner vs (S (S i)))) /\
    exists y, y < 0 /\ on_line (corner vs i) (corner vs (S i)) y p) as SB.
  { intros i x X P. destruct (T i) as [Y|(k & K & Y)].
    - destruct (NR i). by apply (before_turn _ _ (corner vs (S (S i))) _ x).
    - split; [eauto|]. destruct (before_straight _ _ _ _ _ _ X K P Y) as [Q1 Q2]. eauto. }
  intros i. destruct (O i) as (r & [-> |[-> | ->]] & R); [done|exfalso..].
  - (* before the origin: go backwards from [i + length vs] *)
    cbn in R.
    assert (forall m, (m <= length vs)%nat ->
      exists y, y < 0 /\ on_line (corner vs (i + length vs - m)) (corner vs (S (i + length vs - m))) y p) as K.
    { induction m as [|m IH]; intros M.
      - rewrite Nat.sub_0_r. change (S (i + length vs)) with (S i + length vs)%nat. by rewrite !corner_periodic.
      - destruct IH as (y & Y & P); [lia|].
        replace (i + length vs - m)%nat with (S (i + length vs - S m)) in P by lia.
        by destruct (SB _ _ Y P) as [_ ?]. }
    apply (not_all_straight vs i D); [lia|]. intros j J1 J2.
    destruct (K (i + length vs - S j)%nat) as (y & Y & P); [lia|].
    replace (i + length vs - (i + length vs - S j))%nat with (S j) in P by lia.
    by destruct (SB _ _ Y P).
  - cbn in R.
    assert (forall m, exists y, 1 < y /\ on_line (corner vs (i + m)) (corner vs (S (i + m))) y p) as K.
    { induction m as [|m (y & Y & P)]; [by rewrite Nat.add_0_r|].
      rewrite Nat.add_succ_r. by destruct (SA _ _ Y P) as [_ ?]. }
    apply (not_all_straight vs i D); [lia|]. intros j J1 J2.
    destruct (K (j - i)%nat) as (y & Y & P). replace (i + (j - i))%nat with j in P by lia. by destruct (SA _ _ Y P).
Qed.

Lemma polygon_loop g p vs is : exact g -> flat p -> Forall flat vs -> (forall i, corner vs i <> corner vs (S i)) ->
  (forall i, i ∈ is -> (i < length vs)%nat) ->
  exists r, polygon_position_loop g p vs is = Ok r /\
    (r <> Inside -> polygon_position_spec p vs r) /\ (r = Inside -> forall i, i ∈ is -> off_edge p vs i).
Proof.
  intros X P F D. induction is as [|v is IH]; intros B.
  - exists Inside. split; [done|]. split; [done|]. intros _ i H. by apply elem_of_nil in H.
  - cbn [polygon_position_loop].
    assert (v < length vs)%nat as V by (apply B; constructor).
    rewrite corner_vnth, corner_next by done.
    destruct (segment_exact g p (corner vs v) (corner vs (S v))) as (r & E & R); [done..|by apply corner_flat|by apply corner_flat|done|].
    rewrite E. cbn [mbind outcome_bind].
    destruct IH as (r' & E' & N' & I'); [intros; apply B; by constructor|].
    assert (((v + 1) mod length vs < length vs)%nat) as V' by (apply Nat.mod_upper_bound; lia).
    assert (forall q, r = q -> (q = LeftTheSegment \/ q = OnSegmentLineBeforeOrigin \/ q = OnSegmentLineAfterEnd) ->
      exists r0, polygon_position_loop g p vs is = Ok r0 /\
      (r0 <> Inside -> polygon_position_spec p vs r0) /\ (r0 = Inside -> forall i, i ∈ v :: is -> off_edge p vs i)) as C.
    { intros q -> Q. exists r'. split; [done|]. split; [done|]. intros -> i H.
      apply elem_of_cons in H. destruct H as [-> |H]; [|by apply I']. exists q. done. }
    destruct r.
    + by apply (C OnSegmentLineBeforeOrigin); auto.
    + exists (BorderVertex v). done.
    + exists (BorderEdge v). done.
    + eexists. split; [done|]. split; [|done]. intros _. cbn. split; [done|].
      rewrite corner_mod, Nat.add_1_r. done.
    + by apply (C OnSegmentLineAfterEnd); auto.
    + exists Outside. split; [done|]. split; [|done]. intros _. cbn. by exists v.
    + by apply (C LeftTheSegment); auto.
Qed.

Lemma polygon_exact g p vs : exact g -> flat p -> (2 < length vs)%nat -> left_turning vs ->
  exists r, PointPolygonPosition g p vs = Ok r /\ polygon_position_spec p vs r.
Proof.
  intros X P L T. unfold PointPolygonPosition, PointsAre2D. cbn [length Nat.eqb negb require mbind outcome_bind forallb].
  assert (qle (qabs p.2) (cfgTolerance1D g) = true) as ->.
  { destruct X as [_ C]. rewrite C, P. done. }
  cbn [andb]. assert ((2 <? length vs)%nat = true) as -> by (apply Nat.ltb_lt; lia). cbn [andb require mbind outcome_bind].
  pose proof T as (F & D & _).
  destruct (polygon_loop g p vs (seq 0 (length vs)) X P F D) as (r & E & N & I).
  { intros i H. apply elem_of_seq in H. lia. }
  exists r. split; [done|]. destruct (decide (r = Inside)) as [-> |R]; [|auto]. cbn.
  apply off_edges_left; [done..|]. intros i.
  destruct (I eq_refl (i mod length vs)) as (q & Q & S).
  { apply elem_of_seq. pose proof (Nat.mod_upper_bound i (length vs)). lia. }
  exists q. split; [done|]. rewrite corner_mod in S.
  assert (corner vs (Datatypes.S (i mod length vs)) = corner vs (Datatypes.S i)) as K; [|by rewrite <- K].
  rewrite <- (corner_mod vs (Datatypes.S (i mod _))), <- (corner_mod vs (Datatypes.S i)). f_equal.
  rewrite <- (Nat.add_1_r (i mod length vs)), <- (Nat.add_1_r i). rewrite Nat.add_mod_idemp_l by lia. done.
Qed.

Lemma orient_combination a b u v c p : on_line u v c p -> orient a b p = (1 - c) * orient a b u + c * orient a b v.
Proof. intros ->. unfold orient. cbn. ring. Qed.
Lemma convex_border vs p r : convex vs -> polygon_position_spec p vs r -> r <> Outside -> r <> Inside ->
  (forall i, 0 <= orient (corner vs i) (corner vs (S i)) p) /\ exists i, orient (corner vs i) (corner vs (S i)) p = 0.
Proof.
  intros C S O I. destruct r; try done; cbn in S.
  - destruct S as (_ & c & A & B & L). split.
    + intros j. rewrite (orient_combination _ _ _ _ _ _ L). pose proof (C j i) as X. pose proof (C j (Datatypes.S i)) as Y.
      revert X Y. generalize (orient (corner vs j) (corner vs (Datatypes.S j)) (corner vs i)),
        (orient (corner vs j) (corner vs (Datatypes.S j)) (corner vs (Datatypes.S i))). intros. qnra.
    + exists i. by apply on_line_orient in L.
  - destruct S as [_ ->]. split; [intros; apply C|]. exists i. unfold orient. ring.
Qed.
Lemma polygon_convex g p vs : exact g -> flat p -> (2 < length vs)%nat -> left_turning vs -> convex vs ->
  exists r, PointPolygonPosition g p vs = Ok r /\ polygon_position_spec p vs r /\
    (r = Outside <-> exists i, orient (corner vs i) (corner vs (S i)) p < 0) /\
    (r = Inside <-> forall i, 0 < orient (corner vs i) (corner vs (S i)) p).
Proof.
  intros X P L T C. destruct (polygon_exact g p vs X P L T) as (r & E & S). exists r. split; [done|]. split; [done|].
  pose proof (convex_border vs p r C S) as B. split; split.
  - by intros ->.
  - intros (i & I). destruct (decide (r = Outside)) as [|N]; [done|]. exfalso.
    destruct (decide (r = Inside)) as [-> |N'].
    + specialize (S i). qlra.
    + destruct (B N N') as [Y _]. specialize (Y i). qlra.
  - by intros ->.
  - intros I. destruct (decide (r = Inside)) as [|N]; [done|]. exfalso.
    destruct (decide (r = Outside)) as [-> |N'].
    + destruct S as (i & S). specialize (I i). qlra.
    + destruct (B N' N) as [_ (i & Y)]. specialize (I i). qlra.
Qed.

(** ** Bounding boxes *)

Lemma foldl_qmin l x : foldl qmin x l <= x /\ (forall y, y ∈ l -> foldl qmin x l <= y) /\
  forall b, b <= x -> (forall y, y ∈ l -> b <= y) -> b <= foldl qmin x l.
Proof.
  revert x. induction l as [|a l IH]; intros x; cbn.
  - split; [qlra|]. split; [|done]. intros y H. by apply elem_of_nil in H.
  - destruct (IH (qmin x a)) as (A & B & C).
    assert (qmin x a <= x /\ qmin x a <= a /\ (qmin x a = x \/ qmin x a = a)) as (M1 & M2 & M3).
    { unfold qmin. destruct (qlt_spec a x); split_and!; auto; qlra. }
    split; [qlra|]. split.
    + intros y H. apply elem_of_cons in H. destruct H as [-> |H]; [qlra|auto].
    + intros b Hb H. apply C.
      * destruct M3 as [-> | ->]; [done|]. apply H. constructor.
      * intros y Y. apply H. by constructor.
Qed.
Lemma foldl_qmax l x : x <= foldl qmax x l /\ (forall y, y ∈ l -> y <= foldl qmax x l) /\
  forall b, x <= b -> (forall y, y ∈ l -> y <= b) -> foldl qmax x l <= b.
Proof.
  revert x. induction l as [|a l IH]; intros x; cbn.
  - split; [qlra|]. split; [|done]. intros y H. by apply elem_of_nil in H.
  - destruct (IH (qmax x a)) as (A & B & C).
    assert (x <= qmax x a /\ a <= qmax x a /\ (qmax x a = x \/ qmax x a = a)) as (M1 & M2 & M3).
    { unfold qmax. destruct (qlt_spec x a); split_and!; auto; qlra. }
    split; [qlra|]. split.
    + intros y H. apply elem_of_cons in H. destruct H as [-> |H]; [qlra|auto].
    + intros b Hb H. apply C.
      * destruct M3 as [-> | ->]; [done|]. apply H. constructor.
      * intros y Y. apply H. by constructor.
Qed.
Lemma min_coeff_spec l m : min_coeff l = Ok m -> (forall y, y ∈ l -> m <= y) /\ forall b, (forall y, y ∈ l -> b <= y) -> b <= m.
Proof.
  destruct l as [|x l]; [done|]. intros [= <-]. destruct (foldl_qmin l x) as (A & B & C). split.
  - intros y H. apply elem_of_cons in H. destruct H as [-> |]; auto.
  - intros b H. apply C; [apply H; constructor|]. intros. apply H. by constructor.
Qed.
Lemma max_coeff_spec l m : max_coeff l = Ok m -> (forall y, y ∈ l -> y <= m) /\ forall b, (forall y, y ∈ l -> y <= b) -> m <= b.
Proof.
  destruct l as [|x l]; [done|]. intros [= <-]. destruct (foldl_qmax l x) as (A & B & C). split.
  - intros y H. apply elem_of_cons in H. destruct H as [-> |]; auto.
  - intros b H. apply C; [apply H; constructor|]. intros. apply H. by constructor.
Qed.
Lemma bounding_box ps : ps <> [] -> exists lo hi, PointsBoundingBox ps = Ok (lo, hi) /\
  (forall p, p ∈ ps -> in_box lo hi p) /\
  forall lo' hi', (forall p, p ∈ ps -> in_box lo' hi' p) -> in_box lo' hi' lo /\ in_box lo' hi' hi.
Proof.
  intros N. unfold PointsBoundingBox.
  assert (forall f : vec3 -> Qc, exists m M, min_coeff (f <$> ps) = Ok m /\ max_coeff (f <$> ps) = Ok M /\
    (forall p, p ∈ ps -> m <= f p /\ f p <= M) /\
    (forall b B, (forall p, p ∈ ps -> b <= f p /\ f p <= B) -> (b <= m /\ m <= B) /\ (b <= M /\ M <= B))) as K.
  { intros f. destruct (min_coeff (f <$> ps)) as [m| | | |] eqn:E1; [|destruct ps; done..].
    destruct (max_coeff (f <$> ps)) as [M| | | |] eqn:E2; [|destruct ps; done..].
    apply min_coeff_spec in E1 as [A1 A2]. apply max_coeff_spec in E2 as [B1 B2].
    exists m, M. split; [done|]. split; [done|].
    assert (forall p, p ∈ ps -> m <= f p /\ f p <= M) as Q.
    { intros p H. split; [apply A1|apply B1]; by apply elem_of_list_fmap_1. }
    split; [done|]. intros b B H.
    assert (b <= m). { apply A2. intros y (p & -> & Y)%elem_of_list_fmap. by apply H. }
    assert (M <= B). { apply B2. intros y (p & -> & Y)%elem_of_list_fmap. by apply H. }
    assert (m <= M). { destruct ps as [|p ps]; [done|]. destruct (Q p); [constructor|]. qlra. }
    split; split; qlra. }
  destruct (K (fun p => p.1.1)) as (x0 & x1 & -> & -> & X1 & X2).
  destruct (K (fun p => p.1.2)) as (y0 & y1 & -> & -> & Y1 & Y2).
  destruct (K (fun p => p.2)) as (z0 & z1 & -> & -> & Z1 & Z2). cbn.
  exists (x0, y0, z0), (x1, y1, z1). split; [done|]. split.
  - intros p H. unfold in_box. cbn. auto.
  - intros lo hi H. destruct (X2 lo.1.1 hi.1.1) as [? ?]; [intros p Hp; by apply H|].
    destruct (Y2 lo.1.2 hi.1.2) as [? ?]; [intros p Hp; by apply H|].
    destruct (Z2 lo.2 hi.2) as [? ?]; [intros p Hp; by apply H|]. unfold in_box. cbn. done.
Qed.

Lemma greater_or_equal g a b t : b <= a -> IsValueGreaterOrEqual g a b t = true.
Proof.
  intros L. unfold IsValueGreaterOrEqual, CompareValues.
  set (m := qmax _ _). set (r := if _ || _ then _ else _).
  assert (0 <= m) by (unfold m; qcases; qlra). assert (0 <= r) by (unfold r; destruct (_ || _); [qlra|qcases; qlra]).
  clearbody m r. destruct (qle_spec (qabs (b - a)) (m * r)) as [|N]; [done|].
  destruct (qlt_spec (b - a) (- m * r)) as [|N']; [done|]. exfalso.
  replace (- m * r) with (- (m * r)) in N' by ring. revert N N'. generalize (m * r). intros. qcases; qlra.
Qed.
Lemma greater_or_equal_exact g a b : exact g -> IsValueGreaterOrEqual g a b 0 = true <-> b <= a.
Proof.
  intros X. split; [|apply greater_or_equal]. unfold IsValueGreaterOrEqual. rewrite compare_exact by done.
  destruct (qeq_spec b a) as [-> |]; [intros; qlra|]. destruct (qlt_spec b a); [intros; qlra|done].
Qed.
Lemma lower_or_equal g a b t : a <= b -> IsValueLowerOrEqual g a b t = true.
Proof.
  intros L. unfold IsValueLowerOrEqual, IsValueGreater, CompareValues.
  set (m := qmax _ _). set (r := if _ || _ then _ else _).
  assert (0 <= m) by (unfold m; qcases; qlra). assert (0 <= r) by (unfold r; destruct (_ || _); [qlra|qcases; qlra]).
  clearbody m r. destruct (qle_spec (qabs (b - a)) (m * r)) as [|N]; [done|].
  destruct (qlt_spec (b - a) (- m * r)) as [N'|]; [|done]. exfalso. assert (0 <= m * r) by qnra.
  replace (- m * r) with (- (m * r)) in N' by ring. qlra.
Qed.
Lemma lower_or_equal_exact g a b : exact g -> IsValueLowerOrEqual g a b 0 = true <-> a <= b.
Proof.
  intros X. split; [|apply lower_or_equal]. unfold IsValueLowerOrEqual, IsValueGreater. rewrite compare_exact by done.
  destruct (qeq_spec b a) as [-> |]; [intros; qlra|]. destruct (qlt_spec b a); [done|intros; qlra].
Qed.
Lemma in_bounding_box g p lo hi : in_box lo hi p -> IsPointInBoundingBox g p (lo, hi) = true.
Proof. intros ((? & ?) & (? & ?) & ? & ?). unfold IsPointInBoundingBox. cbn. by rewrite !greater_or_equal. Qed.
Lemma in_bounding_box_exact g p lo hi : exact g -> IsPointInBoundingBox g p (lo, hi) = true <-> in_box lo hi p.
Proof.
  intros X. unfold IsPointInBoundingBox. destruct (exact_tolerance g X) as (-> & _).
  rewrite !andb_true_iff, !greater_or_equal_exact by done. unfold in_box. cbn. tauto.
Qed.
Lemma boxes_intersect g lo1 hi1 lo2 hi2 p : in_box lo1 hi1 p -> in_box lo2 hi2 p ->
  BoundingBoxesIntersects g (lo1, hi1) (lo2, hi2) = true.
Proof.
  intros ((? & ?) & (? & ?) & ? & ?) ((? & ?) & (? & ?) & ? & ?). unfold BoundingBoxesIntersects. cbn.
  rewrite !lower_or_equal, !greater_or_equal by qlra. done.
Qed.
Lemma qmax_between a b c d : a <= b -> c <= d -> a <= d -> c <= b ->
  a <= qmax a c /\ qmax a c <= b /\ c <= qmax a c /\ qmax a c <= d.
Proof. intros. qcases; split_and!; qlra. Qed.
Lemma boxes_intersect_exact g lo1 hi1 lo2 hi2 : exact g ->
  (exists p, in_box lo1 hi1 p) -> (exists p, in_box lo2 hi2 p) ->
  BoundingBoxesIntersects g (lo1, hi1) (lo2, hi2) = true <-> exists p, in_box lo1 hi1 p /\ in_box lo2 hi2 p.
Proof.
  intros X (p1 & (? & ?) & (? & ?) & ? & ?) (p2 & (? & ?) & (? & ?) & ? & ?).
  split; [|intros (p & ? & ?); by apply (boxes_intersect g _ _ _ _ p)].
  unfold BoundingBoxesIntersects. destruct (exact_tolerance g X) as (-> & _). cbn.
  rewrite !andb_true_iff, !greater_or_equal_exact, !lower_or_equal_exact by done. intros.
  exists (qmax lo1.1.1 lo2.1.1, qmax lo1.1.2 lo2.1.2, qmax lo1.2 lo2.2). unfold in_box. cbn. destruct_and!.
  destruct (qmax_between lo1.1.1 hi1.1.1 lo2.1.1 hi2.1.1) as (? & ? & ? & ?); [qlra..|].
  destruct (qmax_between lo1.1.2 hi1.1.2 lo2.1.2 hi2.1.2) as (? & ? & ? & ?); [qlra..|].
  destruct (qmax_between lo1.2 hi1.2 lo2.2 hi2.2) as (? & ? & ? & ?); [qlra..|].
  done.
Qed.

(** ** Barycentric coordinates *)

Lemma barycentric_zero_tolerance g tol a b c : IsValueZero g (orient a b c) tol = false -> orient a b c <> 0.
Proof.
  intros Z E. apply not_true_iff_false in Z. rewrite zero_iff, E in Z. apply Z.
  pose proof (max_tolerance_nonneg g tol). assert (qabs 0 = 0) as -> by (apply Qc_is_canon; vm_compute; reflexivity). done.
Qed.
Lemma barycentric g tol a b c p : IsValueZero g (orient a b c) tol = false ->
  PointToBarycentricCoordinates2D g tol a b c p =
    (orient b c p / orient a b c, orient c a p / orient a b c, orient a b p / orient a b c).
Proof.
  intros Z. pose proof (barycentric_zero_tolerance _ _ _ _ _ Z) as N. unfold PointToBarycentricCoordinates2D.
  set (det := (a.1.1 - c.1.1) * (b.1.2 - c.1.2) - (b.1.1 - c.1.1) * (a.1.2 - c.1.2)).
  assert (det = orient a b c) as E by (unfold det, orient; ring). rewrite E, Z. clearbody det.
  unfold Qcdiv. f_equal; [f_equal|].
  - unfold orient in N |- *. field. done.
  - unfold orient in N |- *. field. done.
  - unfold orient in N |- *. field. done.
Qed.
Lemma barycentric_round_trip g tol a b c p : IsValueZero g (orient a b c) tol = false -> flat p ->
  BarycentricCoordinatesToPoint2D a b c (PointToBarycentricCoordinates2D g tol a b c p) = p.
Proof.
  intros Z F. pose proof (barycentric_zero_tolerance _ _ _ _ _ Z) as N. rewrite barycentric by done.
  unfold BarycentricCoordinatesToPoint2D. apply vec_eq; cbn; [| |by rewrite F].
  - unfold orient in N |- *. field. done.
  - unfold orient in N |- *. field. done.
Qed.
Lemma barycentric_inverse g tol a b c l : IsValueZero g (orient a b c) tol = false -> l.1.1 + l.1.2 + l.2 = 1 ->
  PointToBarycentricCoordinates2D g tol a b c (BarycentricCoordinatesToPoint2D a b c l) = l.
Proof.
  intros Z S. pose proof (barycentric_zero_tolerance _ _ _ _ _ Z) as N. rewrite barycentric by done.
  destruct l as [[l0 l1] l2]. cbn in S. assert (l2 = 1 - l0 - l1) as -> by qlra. unfold BarycentricCoordinatesToPoint2D.
  apply vec_eq; cbn; unfold orient in N |- *; cbn; field; done.
Qed.
