(** * Overlapping triangles: proofs. *)
From Coq Require Import QArith Qcanon.
From Verif Require Import Base BaseProof QcTac FillModel GeoModel MapModel PointModel PointSpec PointProof RayProof OverlapModel OverlapSpec Helly.
Local Open Scope Qc_scope.

Lemma mul_pp a b : 0 < a -> 0 < b -> 0 < a * b.
Proof. intros A B. rewrite <- (Qcmult_0_l b). by apply Qcmult_lt_compat_r. Qed.
Lemma mul_nn a b : 0 <= a -> 0 <= b -> 0 <= a * b.
Proof. intros A B. rewrite <- (Qcmult_0_l b). by apply Qcmult_le_compat_r. Qed.
Lemma mul_nz a b : 0 <= a -> b <= 0 -> a * b <= 0.
Proof. intros A B. assert (0 <= a * (- b)) by (apply mul_nn; [done|qlra]). assert (a * (- b) = - (a * b)) by ring. qlra. Qed.
Lemma mul_mp a b : a < 0 -> 0 < b -> a * b < 0.
Proof. intros A B. assert (0 < (- a) * b) by (apply mul_pp; [qlra|done]). assert ((- a) * b = - (a * b)) by ring. qlra. Qed.

Definition ok (admit : bool) (q : Qc) : Prop := if admit then 0 <= q else 0 < q.
(** The side of the edge from [p] to [q], as a function of the plane. *)
Definition side (p q : vec3) (x : pt) : Qc := det_2D p q (x, 0).
Definition half_plane (admit : bool) (p q : vec3) (x : pt) : Prop := ok admit (side p q x).
Definition edges_of (admit : bool) (t : tri) : list (pt -> Prop) :=
  [half_plane admit t.1.1 t.1.2; half_plane admit t.1.2 t.2; half_plane admit t.2 t.1.1].

Lemma apart_iff g admit p q r : exact g -> check_overlap g admit p q r = true <-> ~ ok admit (det_2D p q r).
Proof.
  intros X. unfold check_overlap, ok. destruct admit; rewrite negb_true_iff.
  - rewrite (proj1 (exact_tolerance g X)). rewrite <- not_true_iff_false, greater_or_equal_exact by done. done.
  - rewrite (greater_exact g) by done. destruct (qlt_spec 0 (det_2D p q r)); split; intros; done.
Qed.

Lemma side_mix p q t x y : side p q (mix t x y) = (1 - t) * side p q x + t * side p q y.
Proof. unfold side, det_2D, mix. cbn [fst snd]. ring. Qed.
Lemma ok_mix admit t a b : 0 <= t -> t <= 1 -> ok admit a -> ok admit b -> ok admit ((1 - t) * a + t * b).
Proof.
  destruct admit; cbn; intros T0 T1 A B.
  { assert (0 <= (1 - t) * a) by (apply mul_nn; [qlra|done]). assert (0 <= t * b) by (by apply mul_nn). qlra. }
  destruct (decide (t = 0)) as [-> | N]; [qlra|]. assert (0 < t) by (destruct (Qc_dec 0 t) as [[?|?]|?]; [done|qlra|congruence]).
  assert (0 < t * b) by (by apply mul_pp). assert (0 <= (1 - t) * a) by (apply mul_nn; qlra). qlra.
Qed.
Lemma half_convex admit p q : convex (half_plane admit p q).
Proof. intros x y t T0 T1 X Y. unfold half_plane in *. rewrite side_mix. by apply ok_mix. Qed.

(** Weights at the corners. *)
Lemma side_weighted p q t u v w : u + v + w = 1 ->
  side p q (weighted t u v w) = u * det_2D p q t.1.1 + v * det_2D p q t.1.2 + w * det_2D p q t.2.
Proof.
  intros E. assert (u = 1 - v - w) as -> by qlra. unfold side, weighted, det_2D. cbn [fst snd]. ring.
Qed.
Lemma det_ab t u v w : u + v + w = 1 -> side t.1.1 t.1.2 (weighted t u v w) = w * det_2D t.1.1 t.1.2 t.2.
Proof. intros E. rewrite side_weighted by done. unfold det_2D. ring. Qed.
Lemma det_bc t u v w : u + v + w = 1 -> side t.1.2 t.2 (weighted t u v w) = u * det_2D t.1.1 t.1.2 t.2.
Proof. intros E. rewrite side_weighted by done. unfold det_2D. ring. Qed.
Lemma det_ca t u v w : u + v + w = 1 -> side t.2 t.1.1 (weighted t u v w) = v * det_2D t.1.1 t.1.2 t.2.
Proof. intros E. rewrite side_weighted by done. unfold det_2D. ring. Qed.
Lemma ccw_det t : counterclockwise t <-> 0 < det_2D t.1.1 t.1.2 t.2.
Proof.
  unfold counterclockwise. match goal with |- 0 < ?a <-> 0 < ?b => replace a with b; [done|] end. unfold det_2D. ring.
Qed.

Definition has_point (admit : bool) (t : tri) (x : pt) : Prop := if admit then in_triangle t x else inside_triangle t x.
Lemma has_point_weights admit t x : has_point admit t x <-> exists u v w, ok admit u /\ ok admit v /\ ok admit w /\ u + v + w = 1 /\ x = weighted t u v w.
Proof. by destruct admit. Qed.

Lemma ok_scale admit k q : 0 < k -> ok admit (q * k) <-> ok admit q.
Proof.
  intros K. destruct admit; cbn.
  - split; intros H; [apply Qcnot_lt_le; intros L; pose proof (mul_mp q k L K); qlra|apply mul_nn; [done|qlra]].
  - split; intros H; [|by apply mul_pp]. destruct (Qc_dec 0 q) as [[?|L]|E]; [done|exfalso; pose proof (mul_mp q k L K); qlra|]. rewrite <- E in H. exfalso. qlra.
Qed.

Lemma point_sides admit t x : counterclockwise t -> has_point admit t x <-> Forall (fun C => C x) (edges_of admit t).
Proof.
  intros P0. pose proof (proj1 (ccw_det t) P0) as P. clear P0. rewrite has_point_weights. unfold edges_of, half_plane. rewrite !Forall_cons.
  set (k := det_2D t.1.1 t.1.2 t.2) in *. split.
  - intros (u & v & w & U & V & W & S & ->). rewrite det_ab, det_bc, det_ca by done. fold k.
    rewrite !ok_scale by done. split_and!; [done..|constructor].
  - intros (H1 & H2 & H3 & _).
    exists (side t.1.2 t.2 x / k), (side t.2 t.1.1 x / k), (side t.1.1 t.1.2 x / k).
    assert (k <> 0) as K by qlra.
    assert (side t.1.2 t.2 x + side t.2 t.1.1 x + side t.1.1 t.1.2 x = k) as S.
    { unfold side, k, det_2D. ring. }
    assert (forall q, ok admit q -> ok admit (q / k)) as D.
    { intros q Q. rewrite <- (ok_scale admit k) by done. replace (q / k * k) with q by (field; done). done. }
    split_and!; [by apply D..| |].
    + transitivity ((side t.1.2 t.2 x + side t.2 t.1.1 x + side t.1.1 t.1.2 x) / k); [field; done|]. rewrite S. field. done.
    + destruct x as [x y]. unfold weighted. f_equal.
      * transitivity (x * k / k); [field; done|]. transitivity ((side t.1.2 t.2 (x, y) * t.1.1.1.1 + side t.2 t.1.1 (x, y) * t.1.2.1.1 + side t.1.1 t.1.2 (x, y) * t.2.1.1) / k); [|field; done].
        f_equal. unfold side, k, det_2D. cbn [fst snd]. ring.
      * transitivity (y * k / k); [field; done|]. transitivity ((side t.1.2 t.2 (x, y) * t.1.1.1.2 + side t.2 t.1.1 (x, y) * t.1.2.1.2 + side t.1.1 t.1.2 (x, y) * t.2.1.2) / k); [|field; done].
        f_equal. unfold side, k, det_2D. cbn [fst snd]. ring.
Qed.

(** Weights near a corner. *)
Lemma near a b : 0 < a -> exists e, 0 < e /\ 0 < 1 - e - e /\ 0 < (1 - e - e) * a + e * b.
Proof.
  intros A. destruct (qlt_spec b 0) as [B|B].
  - exists (a / (Q2Qc 4 * a - Q2Qc 2 * b)). assert (0 < Q2Qc 4 * a - Q2Qc 2 * b) as D by qlra.
    set (d := Q2Qc 4 * a - Q2Qc 2 * b) in *. set (e := a / d). assert (a = e * d) as E by (unfold e; field; qlra). clearbody e.
    assert (0 < e) as E0. { destruct (Qc_dec 0 e) as [[?|L]|L]; [done|exfalso; pose proof (mul_mp e d L D); qlra|]. rewrite <- L in E. exfalso. qlra. }
    assert (0 < e * (- b)) as EB by (apply mul_pp; [done|qlra]).
    assert (a = Q2Qc 4 * (e * a) + Q2Qc 2 * (e * - b)) as E' by (rewrite E at 1; unfold d; ring).
    split_and!; [done| |].
    + destruct (qlt_spec 0 (1 - e - e)) as [?|L]; [done|]. exfalso. assert (0 <= (e + e - 1) * a) by (apply mul_nn; qlra). assert ((e + e - 1) * a = Q2Qc 2 * (e * a) - a) by qlra. qlra.
    + qlra.
  - exists (Q2Qc (1 # 4)). split_and!; [qlra|qlra|]. qlra.
Qed.
Lemma weights admit a b c : ok admit a \/ ok admit b \/ ok admit c ->
  exists u v w, ok admit u /\ ok admit v /\ ok admit w /\ u + v + w = 1 /\ ok admit (u * a + v * b + w * c).
Proof.
  destruct admit; cbn.
  - intros [H|[H|H]]; [exists 1, 0, 0|exists 0, 1, 0|exists 0, 0, 1]; split_and!; qlra.
  - intros [H|[H|H]].
    + destruct (near a (b + c) H) as (e & E0 & E1 & E2). exists (1 - e - e), e, e. split_and!; qlra.
    + destruct (near b (a + c) H) as (e & E0 & E1 & E2). exists e, (1 - e - e), e. split_and!; qlra.
    + destruct (near c (a + b) H) as (e & E0 & E1 & E2). exists e, e, (1 - e - e). split_and!; qlra.
Qed.

(** An edge which does not have the whole triangle outside has a point of it inside. *)
Lemma meets admit t p q : ok admit (det_2D p q t.1.1) \/ ok admit (det_2D p q t.1.2) \/ ok admit (det_2D p q t.2) ->
  exists x, has_point admit t x /\ half_plane admit p q x.
Proof.
  intros (u & v & w & U & V & W & S & H)%weights. exists (weighted t u v w). split.
  - apply has_point_weights. by exists u, v, w.
  - unfold half_plane. by rewrite side_weighted.
Qed.
Lemma misses admit t p q : ~ ok admit (det_2D p q t.1.1) -> ~ ok admit (det_2D p q t.1.2) -> ~ ok admit (det_2D p q t.2) ->
  forall x, has_point admit t x -> ~ half_plane admit p q x.
Proof.
  intros A B C x (u & v & w & U & V & W & S & ->)%has_point_weights. unfold half_plane. rewrite side_weighted by done.
  revert A B C. generalize (det_2D p q t.1.1) (det_2D p q t.1.2) (det_2D p q t.2). intros a b c. destruct admit; cbn in *; intros A B C H.
  - apply Qcnot_le_lt in A, B, C.
    assert (u * a <= 0) by (apply mul_nz; qlra). assert (v * b <= 0) by (apply mul_nz; qlra). assert (w * c <= 0) by (apply mul_nz; qlra).
    assert (u * a = 0 /\ v * b = 0 /\ w * c = 0) as (E1 & E2 & E3) by (split_and!; qlra).
    apply Qcmult_integral in E1, E2, E3. assert (u = 0 /\ v = 0 /\ w = 0) as (-> & -> & ->); [|qlra].
    split_and!; [destruct E1|destruct E2|destruct E3]; qlra.
  - apply Qcnot_lt_le in A, B, C.
    assert (u * a <= 0) by (apply mul_nz; qlra). assert (v * b <= 0) by (apply mul_nz; qlra). assert (w * c <= 0) by (apply mul_nz; qlra). qlra.
Qed.

Lemma some_edge_iff g admit t u : exact g -> some_edge_apart g admit t u = true <->
  exists p q, In (p, q) [(t.1.1, t.1.2); (t.1.2, t.2); (t.2, t.1.1)] /\
    ~ ok admit (det_2D p q u.1.1) /\ ~ ok admit (det_2D p q u.1.2) /\ ~ ok admit (det_2D p q u.2).
Proof.
  intros X. unfold some_edge_apart. rewrite existsb_exists. split.
  - intros (i & I & H). rewrite !andb_true_iff, !apart_iff in H by done. destruct H as [[H0 H1] H2].
    cbn in I. destruct I as [<- | [<- | [<- | []]]]; cbn in H0, H1, H2; eexists _, _; (split; [|split_and!; [exact H0|exact H1|exact H2]]); cbn; tauto.
  - intros (p & q & [[= <- <-]|[[= <- <-]|[[= <- <-]|[]]]] & H0 & H1 & H2); [exists 0%nat|exists 1%nat|exists 2%nat]; (split; [cbn; tauto|]);
      cbn; rewrite !andb_true_iff, !apart_iff by done; done.
Qed.

Lemma ok_dec admit q : ok admit q \/ ~ ok admit q.
Proof. destruct admit; cbn; [destruct (qle_spec 0 q)|destruct (qlt_spec 0 q)]; [left; done|right; qlra|left; done|right; qlra]. Qed.

Lemma edges_in admit t Z : In Z (edges_of admit t) -> exists p q, In (p, q) [(t.1.1, t.1.2); (t.1.2, t.2); (t.2, t.1.1)] /\ Z = half_plane admit p q.
Proof. unfold edges_of. intros [<- | [<- | [<- | []]]]; eexists _, _; (split; [|reflexivity]); cbn; tauto. Qed.

Lemma triangles_exact g t u admit : exact g -> counterclockwise t -> counterclockwise u ->
  CheckTrianglesIntersection g t u admit = true <-> exists x, has_point admit t x /\ has_point admit u x.
Proof.
  intros X T U. unfold CheckTrianglesIntersection.
  assert (forall t u, counterclockwise t -> counterclockwise u -> some_edge_apart g admit t u = true -> ~ exists x, has_point admit t x /\ has_point admit u x) as SEP.
  { clear - X. intros t u T U S (x & XT & XU). apply some_edge_iff in S as (p & q & I & A & B & C); [|done].
    apply (misses admit u p q A B C x XU). apply point_sides in XT; [|done]. unfold edges_of in XT. rewrite !Forall_cons in XT. destruct XT as (H1 & H2 & H3 & _).
    destruct I as [[= <- <-]|[[= <- <-]|[[= <- <-]|[]]]]; done. }
  assert (forall t u, counterclockwise u -> some_edge_apart g admit t u = false -> forall Z, In Z (edges_of admit t) -> exists x, has_point admit u x /\ Z x) as MEET.
  { clear - X. intros t u U S Z (p & q & I & ->)%edges_in. apply not_true_iff_false in S. rewrite some_edge_iff in S by done.
    apply meets. destruct (ok_dec admit (det_2D p q u.1.1)) as [?|A]; [by left|]. destruct (ok_dec admit (det_2D p q u.1.2)) as [?|B]; [by right; left|].
    destruct (ok_dec admit (det_2D p q u.2)) as [?|C]; [by right; right|]. destruct S. by exists p, q. }
  destruct (some_edge_apart g admit t u) eqn:S1.
  { split; [done|]. intros H. by destruct (SEP t u T U S1). }
  destruct (some_edge_apart g admit u t) eqn:S2.
  { split; [done|]. intros (x & XT & XU). destruct (SEP u t U T S2). by exists x. }
  split; [intros _|done].
  destruct (helly (edges_of admit t ++ edges_of admit u)) as (x & XX).
  - apply Forall_app. split; unfold edges_of; repeat constructor; apply half_convex.
  - assert (forall v A B Z, counterclockwise v -> In A (edges_of admit v) -> In B (edges_of admit v) -> (exists x, has_point admit v x /\ Z x) -> exists x, A x /\ B x /\ Z x) as TWO.
    { intros v A B Z V IA IB (x & XV & XZ). exists x. apply point_sides in XV; [|done]. rewrite List.Forall_forall in XV. split_and!; [by apply XV..|done]. }
    pose proof (MEET t u U S1) as M1. pose proof (MEET u t T S2) as M2.
    assert (exists x, has_point admit t x) as ET. { destruct (M2 (half_plane admit u.1.1 u.1.2)) as (x & ? & _); [by left|by exists x]. }
    assert (exists x, has_point admit u x) as EU. { destruct (M1 (half_plane admit t.1.1 t.1.2)) as (x & ? & _); [by left|by exists x]. }
    assert (forall v Z, counterclockwise v -> (exists x, has_point admit v x) -> In Z (edges_of admit v) -> exists x, has_point admit v x /\ Z x) as OWN.
    { intros v Z V (x & XV) IZ. exists x. split; [done|]. apply point_sides in XV; [|done]. rewrite List.Forall_forall in XV. by apply XV. }
    intros A B C IA IB IC. apply in_app_or in IA, IB, IC.
    destruct IA as [IA|IA], IB as [IB|IB], IC as [IC|IC].
    + by apply (TWO t A B C T IA IB), OWN.
    + by apply (TWO t A B C T IA IB), M2.
    + destruct (TWO t A C B T IA IC) as (x & ? & ? & ?); [by apply M2|by exists x].
    + destruct (TWO u B C A U IB IC) as (x & ? & ? & ?); [by apply M1|by exists x].
    + destruct (TWO t B C A T IB IC) as (x & ? & ? & ?); [by apply M2|by exists x].
    + destruct (TWO u A C B U IA IC) as (x & ? & ? & ?); [by apply M1|by exists x].
    + by apply (TWO u A B C U IA IB), M1.
    + by apply (TWO u A B C U IA IB), OWN.
  - apply Forall_app in XX as [X1 X2]. exists x. rewrite !point_sides by done. done.
Qed.
