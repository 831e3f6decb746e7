(** Intersections of segments: proofs. *)
From Coq Require Import QArith Qcanon.
From Verif Require Import Base BaseProof QcTac FillModel GeoModel MapModel PointModel PointSpec PointProof IntersectModel IntersectSpec.
Local Open Scope Qc_scope.

Ltac coords := repeat match goal with v : vec3 |- _ => destruct v as [[? ?] ?] | v : (Qc * Qc * Qc)%type |- _ => destruct v as [[? ?] ?] end.
Ltac vec := coords; unfold along, norm2, det3, vsub, vadd, vscale, vcross, vdot in *; cbn [fst snd] in *.

Lemma pair3 (a b c a' b' c' : Qc) : (a, b, c) = (a', b', c') <-> a = a' /\ b = b' /\ c = c'.
Proof. split; [by intros [= -> -> ->]|by intros (-> & -> & ->)]. Qed.

(** ** Vectors *)

Lemma lagrange u v : norm2 (vcross u v) = norm2 u * norm2 v - vdot u v * vdot u v.
Proof. vec. ring. Qed.

Lemma decompose u v r :
  vscale (norm2 (vcross u v)) r =
  vadd (vscale (vdot r (vcross u v)) (vcross u v))
    (vadd (vscale (vdot r u * norm2 v - vdot r v * vdot u v) u) (vscale (vdot r v * norm2 u - vdot r u * vdot u v) v)).
Proof. vec. apply pair3. split_and!; ring. Qed.

Lemma cancel_l (n x y : Qc) : n <> 0 -> n * x = n * y -> x = y.
Proof. intros N E. replace x with (n * x / n) by (field; done). rewrite E. field. done. Qed.

Lemma vsub_nonzero a b : a <> b -> vsub b a <> (0, 0, 0).
Proof. intros N E. apply N. symmetry. by apply vsub_zero. Qed.

Lemma cross_parallel u v : u <> (0, 0, 0) -> vcross u v = (0, 0, 0) -> v = vscale (vdot u v / norm2 u) u.
Proof.
  intros N E. pose proof (norm2_pos u N) as P. assert (norm2 u <> 0) as Z by qlra.
  assert (vscale (norm2 u) v = vscale (vdot u v) u) as D.
  { assert (F : vscale (norm2 u) v = vadd (vscale (vdot u v) u) (vcross (vcross u v) u)) by (clear; vec; apply pair3; split_and!; ring).
    rewrite F, E. clear. vec. apply pair3. split_and!; ring. }
  clear E. revert D P Z. generalize (norm2 u) (vdot u v). intros n d D P Z.
  vec. apply pair3 in D as (D1 & D2 & D3). apply pair3. split_and!.
  - apply (cancel_l n); [done|]. rewrite D1. field. done.
  - apply (cancel_l n); [done|]. rewrite D2. field. done.
  - apply (cancel_l n); [done|]. rewrite D3. field. done.
Qed.

Lemma parallel_cross o1 e1 o2 e2 : o1 <> e1 -> parallel o1 e1 o2 e2 <-> vcross (vsub e1 o1) (vsub e2 o2) = (0, 0, 0).
Proof.
  intros N%vsub_nonzero. unfold parallel. generalize dependent (vsub e1 o1). generalize (vsub e2 o2). intros v u N. split.
  - intros [k ->]. clear. vec. apply pair3. split_and!; ring.
  - intros E. eexists. by apply cross_parallel.
Qed.

Lemma on_line_along o e c p : on_line o e c p <-> p = along o (vsub e o) c.
Proof. done. Qed.

(** ** The tests, with zero tolerances *)

Lemma positive_exact g x : exact g -> IsValuePositive g x 0 = true <-> 0 < x.
Proof. intros X. destruct (exact_tolerance g X) as (_ & _ & M). by rewrite positive_iff, M. Qed.

Lemma quotient_nonneg (a b : Qc) : 0 < b -> 0 <= a -> 0 <= a / b.
Proof.
  intros B A. destruct (Qc_dec a 0) as [[L|L]|E]; [qlra| |].
  - apply Qclt_le_weak. by apply quotient_pos.
  - rewrite E. replace (0 / b) with 0 by (field; qlra). qlra.
Qed.

Lemma square_pos (x : Qc) : x <> 0 -> 0 < x * x.
Proof. intros N. destruct (Qc_dec x 0) as [[L|L]|E]; [qnra..|done]. Qed.

Lemma coplanar_exact g o1 t1 o2 t2 : exact g -> t1 <> (0, 0, 0) ->
  AreLineCoplanar g o1 t1 o2 t2 = true <-> det3 (vsub o2 o1) t1 t2 = 0.
Proof.
  intros X N. destruct (exact_tolerance g X) as (T1 & T2 & M). unfold AreLineCoplanar. rewrite T2, T1.
  set (a := vsub o2 o1). set (c := vsub (vadd o2 t2) o1).
  assert (Ec : c = vadd a t2) by (unfold c, a; clear; vec; apply pair3; split_and!; ring).
  assert (Ed : det3 a t1 c = det3 a t1 t2) by (rewrite Ec; clear; vec; ring).
  rewrite negb_true_iff. rewrite Ed. clearbody a. clearbody c. subst c. unfold abs_quotient_positive. rewrite M.
  split.
  - intros H. destruct (Qc_eq_dec (det3 a t1 t2) 0) as [|D]; [done|exfalso].
    assert (Na : a <> (0, 0, 0)) by (intros ->; apply D; clear; vec; ring).
    assert (Nc : vadd a t2 <> (0, 0, 0)).
    { intros E. apply D. rewrite <- Ed, E. clear. vec. ring. }
    assert (Nt : vsub a t1 <> (0, 0, 0)).
    { intros E. apply vsub_zero in E as ->. apply D. clear. vec. ring. }
    assert (Nu : vsub (vadd a t2) t1 <> (0, 0, 0)).
    { intros E. apply vsub_zero in E. apply D. rewrite <- Ed, E. clear. vec. ring. }
    assert (P : forall x, x <> (0, 0, 0) -> IsValuePositive g (norm2 x) 0 = true).
    { intros x Nx. apply positive_exact; [done|]. by apply norm2_pos. }
    rewrite !P in H by done. cbn [andb] in H.
    destruct (qlt_spec (0 * 0) (det3 a t1 t2 * det3 a t1 t2 / (norm2 a * norm2 t1 * norm2 (vadd a t2)))) as [|L]; [done|].
    apply L. replace (0 * 0) with 0 by ring. apply quotient_pos; [|by apply square_pos].
    pose proof (norm2_pos _ Na). pose proof (norm2_pos _ N). pose proof (norm2_pos _ Nc).
    assert (0 < norm2 a * norm2 t1) by (clear - H0 H1; qnra). clear - H2 H3. qnra.
  - intros D. rewrite D. replace (0 * 0 / _) with 0.
    + destruct (qlt_spec (0 * 0) 0) as [L|L]; [qlra|]. by rewrite andb_false_r.
    + replace (0 * 0) with 0 by ring. unfold Qcdiv. ring.
Qed.

Lemma parallel_exact g u v : exact g -> u <> (0, 0, 0) -> v <> (0, 0, 0) ->
  not_parallel g (vdot u v * vdot u v / (norm2 u * norm2 v)) = true <-> vcross u v <> (0, 0, 0).
Proof.
  intros X Nu Nv. destruct (exact_tolerance g X) as (T1 & T2 & M). unfold not_parallel. rewrite T2, M.
  replace (0 * 0) with 0 by ring. replace ((1 - 0) * (1 - 0)) with 1 by ring.
  pose proof (norm2_pos u Nu) as Pu. pose proof (norm2_pos v Nv) as Pv.
  assert (P : 0 < norm2 u * norm2 v) by (clear - Pu Pv; qnra). pose proof (lagrange u v) as L.
  set (d := vdot u v * vdot u v) in *. set (n := norm2 u * norm2 v) in *.
  assert (E : 1 - d / n = norm2 (vcross u v) / n) by (rewrite L; field; qlra).
  rewrite !andb_true_iff, (positive_exact g _ X), E. split.
  - intros [_ H] Z. rewrite Z in H. replace (norm2 (0, 0, 0)) with 0 in H by (clear; vec; ring).
    replace (0 / n) with 0 in H by (field; qlra). qlra.
  - intros H. assert (Q : 0 < norm2 (vcross u v) / n) by (apply quotient_pos; [done|by apply norm2_pos]).
    split_and!; [|destruct (qlt_spec (d / n) 1) as [|G]; [done|qlra]|done].
    destruct (qlt_spec 0 1) as [|G]; [done|]. destruct G. reflexivity.
Qed.

Lemma aligned_exact g o e p : exact g -> o <> e -> PointIsAligned g o e p = true <-> vcross (vsub e o) (vsub p o) = (0, 0, 0).
Proof.
  intros X N%vsub_nonzero. destruct (exact_tolerance g X) as (T1 & _ & M). unfold PointIsAligned, norm_zero, sine2. rewrite T1, M.
  generalize dependent (vsub e o). generalize (vsub p o). intros v u N. replace (0 * 0) with 0 by ring.
  destruct (decide (v = (0, 0, 0))) as [->|Nv].
  - replace (vcross u (0, 0, 0)) with ((0, 0, 0) : vec3) by (clear; vec; apply pair3; split_and!; ring).
    replace (norm2 (0, 0, 0) / _) with 0 by (clear; vec; unfold Qcdiv; ring). split; [done|]. intros _. by destruct (qle_spec 0 0) as [|[]].
  - pose proof (norm2_pos u N) as Pu. pose proof (norm2_pos v Nv) as Pv.
    assert (P : 0 < norm2 u * norm2 v) by (clear - Pu Pv; qnra). split.
    + intros H. destruct (qle_spec (norm2 (vcross u v) / (norm2 u * norm2 v)) 0) as [L|]; [|done].
      apply norm2_zero. apply (quotient_zero _ (norm2 u * norm2 v)); [qlra|].
      pose proof (quotient_nonneg _ _ P (norm2_nonneg (vcross u v))). qlra.
    + intros ->. replace (norm2 (0, 0, 0) / _) with 0 by (clear; vec; unfold Qcdiv; ring). by destruct (qle_spec 0 0) as [|[]].
Qed.

(** ** Crossing lines *)

Lemma cross_scalar (det x y a b p q : Qc) : det <> 0 -> det * (y - x) = a * p + b * q -> x + a / det * p = y + - (b / det) * q.
Proof.
  intros Z E. apply (cancel_l det); [done|].
  replace (det * (x + a / det * p)) with (det * x + a * p) by (field; done).
  replace (det * (y + - (b / det) * q)) with (det * y - b * q) by (field; done).
  replace (det * y) with (det * x + det * (y - x)) by ring. rewrite E. ring.
Qed.

Lemma crossing_point o1 u o2 v : vcross u v <> (0, 0, 0) -> det3 (vsub o2 o1) u v = 0 ->
  let r := vsub o2 o1 in let c := vdot u v in let det := norm2 u * norm2 v - c * c in
  along o1 u ((vdot r u * norm2 v - vdot r v * c) / det) = along o2 v (- ((vdot r v * norm2 u - vdot r u * c) / det)).
Proof.
  intros N D r c det. pose proof (decompose u v r) as E. change (vdot r (vcross u v) = 0) in D. rewrite D in E.
  assert (Z : det <> 0). { pose proof (norm2_pos _ N) as P. rewrite (lagrange u v) in P. unfold det, c. qlra. }
  rewrite (lagrange u v) in E. fold c in E. fold det in E. clearbody det.
  set (a := vdot r u * norm2 v - vdot r v * c) in *. set (b := vdot r v * norm2 u - vdot r u * c) in *.
  assert (F : vscale det (vsub o2 o1) = vadd (vscale a u) (vscale b v)).
  { fold r. rewrite E. generalize (vcross u v) (vadd (vscale a u) (vscale b v)). clear. intros w z. vec. apply pair3. split_and!; ring. }
  clearbody a b. clear E D N c r. vec. apply pair3 in F as (F1 & F2 & F3). apply pair3.
  split_and!; by apply cross_scalar.
Qed.

Lemma crossing_unique o1 u o2 v s q s' q' : vcross u v <> (0, 0, 0) -> along o1 u s = along o2 v q -> along o1 u s' = along o2 v q' ->
  s' = s /\ q' = q.
Proof.
  intros N E E'.
  assert (D : vscale (s' - s) u = vscale (q' - q) v).
  { clear N. vec. apply pair3 in E as (? & ? & ?). apply pair3 in E' as (? & ? & ?). apply pair3. split_and!; qlra. }
  assert (Z : vscale (s' - s) (vcross u v) = (0, 0, 0) /\ vscale (q' - q) (vcross u v) = (0, 0, 0)).
  { split.
    - replace (vscale (s' - s) (vcross u v)) with (vcross (vscale (s' - s) u) v) by (clear; vec; apply pair3; split_and!; ring).
      rewrite D. clear. vec. apply pair3. split_and!; ring.
    - replace (vscale (q' - q) (vcross u v)) with (vcross u (vscale (q' - q) v)) by (clear; vec; apply pair3; split_and!; ring).
      rewrite <- D. clear. vec. apply pair3. split_and!; ring. }
  assert (G : forall k (w : vec3), w <> (0, 0, 0) -> vscale k w = (0, 0, 0) -> k = 0).
  { clear. intros k w N E. destruct (Qc_eq_dec k 0) as [|K]; [done|]. destruct N. vec. apply pair3 in E as (E1 & E2 & E3). apply pair3.
    split_and!; apply (cancel_l k); try done; [rewrite E1|rewrite E2|rewrite E3]; ring. }
  destruct Z as [Z1 Z2]. apply G in Z1; [|done]. apply G in Z2; [|done]. split; qlra.
Qed.

Lemma common_coplanar o1 u o2 v s q : along o1 u s = along o2 v q -> det3 (vsub o2 o1) u v = 0.
Proof.
  intros E. assert (F : vsub o2 o1 = vsub (vscale s u) (vscale q v)).
  { vec. apply pair3 in E as (? & ? & ?). apply pair3. split_and!; qlra. }
  rewrite F. clear. vec. ring.
Qed.

(** ** Segments of one line *)

Lemma along_0 o u : along o u 0 = o.
Proof. vec. apply pair3. split_and!; ring. Qed.
Lemma along_1 o e : along o (vsub e o) 1 = e.
Proof. vec. apply pair3. split_and!; ring. Qed.

Lemma one_line o1 u o2 v : u <> (0, 0, 0) -> v <> (0, 0, 0) -> vcross u v = (0, 0, 0) -> vcross u (vsub o2 o1) = (0, 0, 0) ->
  exists c k, k <> 0 /\ o2 = along o1 u c /\ v = vscale k u.
Proof.
  intros Nu Nv E F. exists (vdot u (vsub o2 o1) / norm2 u), (vdot u v / norm2 u). apply cross_parallel in E; [|done].
  apply cross_parallel in F; [|done]. split_and!; [|..|done].
  - intros K. rewrite K in E. apply Nv. rewrite E. clear. vec. apply pair3. split_and!; ring.
  - unfold along. rewrite <- F. clear. vec. apply pair3. split_and!; ring.
Qed.

Lemma coordinate_along o e c : o <> e -> PointCurvilinearCoordinate (along o (vsub e o) c) o e = c.
Proof.
  intros N%vsub_nonzero. unfold PointCurvilinearCoordinate. pose proof (norm2_pos _ N) as P.
  replace (vsub (along o (vsub e o) c) o) with (vscale c (vsub e o)) by (clear; vec; apply pair3; split_and!; ring).
  replace (vdot (vscale c (vsub e o)) (vsub e o)) with (c * norm2 (vsub e o)) by (clear; vec; ring). field. qlra.
Qed.

Lemma along_inj o u c c' : u <> (0, 0, 0) -> along o u c = along o u c' -> c = c'.
Proof.
  intros N E. destruct (Qc_eq_dec (c - c') 0) as [Z|Z]; [qlra|]. destruct N. vec. apply pair3 in E as (E1 & E2 & E3).
  apply pair3. split_and!; apply (cancel_l (c - c')); try done; qlra.
Qed.

Lemma square_lt (x y : Qc) : 0 <= x -> 0 <= y -> x * x < y * y -> x < y.
Proof. intros X Y L. destruct (Qclt_le_dec x y) as [|G]; [done|]. exfalso. qnra. Qed.
Lemma square_lt' (x y : Qc) : 0 <= x -> x < y -> x * x < y * y.
Proof. intros X L. qnra. Qed.

Lemma apart_exact g (n c k : Qc) : exact g -> 0 < n ->
  spheres_apart g ((c + Q2Qc (1 # 2) * k - Q2Qc (1 # 2)) * (c + Q2Qc (1 # 2) * k - Q2Qc (1 # 2)) * n) n (k * k * n) 0 = true <->
  1 + qabs k < qabs (Q2Qc 2 * c + k - 1).
Proof.
  intros X P. destruct (exact_tolerance g X) as (_ & _ & M). unfold spheres_apart. rewrite M.
  set (w := Q2Qc 2 * c + k - 1). set (h := Q2Qc (1 # 4) * n).
  assert (Ph : 0 < h) by (unfold h; qlra).
  replace ((c + Q2Qc (1 # 2) * k - Q2Qc (1 # 2)) * (c + Q2Qc (1 # 2) * k - Q2Qc (1 # 2)) * n) with (h * (w * w)) by (unfold h, w; qlra).
  assert (Ex : h * (w * w) + 0 * 0 - Q2Qc (1 # 4) * (n + k * k * n) = h * (w * w - 1 - k * k)) by (unfold h; qlra).
  rewrite !Ex. set (z := w * w - 1 - k * k).
  assert (Ey : h * z * (h * z) - Q2Qc 4 * (0 * 0) * (h * (w * w)) - Q2Qc (1 # 4) * (n * (k * k * n)) = h * h * (z * z - Q2Qc 4 * (k * k))) by (unfold h; qlra).
  rewrite !Ey.
  assert (Ez : Q2Qc 4 * (0 * 0) * (h * (w * w) * (n * (k * k * n))) = 0) by qlra. rewrite Ez.
  assert (K : qabs k * qabs k = k * k) by (destruct (qabs_cases k) as [[_ ->]|[_ ->]]; ring).
  assert (W : qabs w * qabs w = w * w) by (destruct (qabs_cases w) as [[_ ->]|[_ ->]]; ring).
  assert (K0 : 0 <= qabs k) by (destruct (qabs_cases k) as [[? ->]|[? ->]]; qlra).
  assert (W0 : 0 <= qabs w) by (destruct (qabs_cases w) as [[? ->]|[? ->]]; qlra).
  assert (Ph2 : 0 < h * h) by (clear - Ph; qnra).
  rewrite !andb_true_iff. split.
  - intros [[[_ H1] H2] _]. destruct (qlt_spec 0 (h * z)) as [L1|]; [|done]. destruct (qlt_spec 0 (h * h * (z * z - Q2Qc 4 * (k * k)))) as [L2|]; [|done].
    assert (Z1 : 0 < z) by (clear - L1 Ph; qnra).
    assert (Z2 : Q2Qc 4 * (k * k) < z * z). { destruct (Qclt_le_dec (Q2Qc 4 * (k * k)) (z * z)) as [|G]; [done|]. exfalso. clear - L2 Ph2 G. qnra. }
    assert (Z3 : Q2Qc 2 * qabs k < z). { apply square_lt; [qlra|qlra|]. replace (Q2Qc 2 * qabs k * (Q2Qc 2 * qabs k)) with (Q2Qc 4 * (qabs k * qabs k)) by qlra. by rewrite K. }
    apply square_lt; [qlra|done|]. rewrite W. unfold z in Z3. rewrite <- K in Z3. clear - Z3. qlra.
  - intros L. apply square_lt' in L; [|qlra]. rewrite W in L.
    assert (Z3 : Q2Qc 2 * qabs k < z) by (unfold z; rewrite <- K; clear - L; qlra).
    assert (Z1 : 0 < z) by (clear - Z3 K0; qlra).
    assert (Z2 : Q2Qc 4 * (k * k) < z * z).
    { apply square_lt' in Z3; [|clear - K0; qlra]. rewrite <- K. clear - Z3. qlra. }
    assert (W1 : 0 < w * w) by (clear - L K0; qnra).
    assert (Y : 0 < h * h * (z * z - Q2Qc 4 * (k * k))) by (clear - Ph2 Z2; qnra).
    repeat match goal with |- context [qlt ?a ?b] => destruct (qlt_spec a b) as [?|G]; [|exfalso; apply G; clear G] end; try done.
    + apply square_pos. clear - Y. qlra.
    + clear - Ph Z1. qnra.
    + clear - W1 Ph. qnra.
Qed.
