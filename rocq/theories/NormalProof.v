(** * Normal, area in space and orientation of a polygon. *)
From Coq Require Import QArith Qcanon Sorted.
From Verif Require Import Base QcTac FillModel GeoModel MapModel PointModel PointSpec PointProof PolyModel PolySpec PolyProof
  TriProof EarProof ConvexProof.
Local Open Scope Qc_scope.

(** ** Normal *)

Lemma vfold (f : nat -> vec3) l a : foldl (fun s i => vadd s (f i)) a l =
  (a.1.1 + sum_of (fun i => (f i).1.1) l, a.1.2 + sum_of (fun i => (f i).1.2) l, a.2 + sum_of (fun i => (f i).2) l).
Proof.
  revert a. induction l as [|i l IH]; intros a; cbn [foldl].
  - apply vec_eq; cbn; ring.
  - rewrite IH. apply vec_eq; cbn [fst snd]; rewrite sum_of_cons; unfold vadd; cbn [fst snd]; ring.
Qed.
Lemma vnth_embed o u w vs i : (i < length vs)%nat -> vnth (embed o u w <$> vs) i = embed o u w (vnth vs i).
Proof.
  intros L. rewrite !corner_vnth by (rewrite ?fmap_length; done). pose proof (corner_lookup vs i L) as E.
  pose proof (corner_lookup (embed o u w <$> vs) i ltac:(by rewrite fmap_length)) as E'.
  rewrite list_lookup_fmap, E in E'. by injection E' as <-.
Qed.
Lemma embed_cross o u w a b c : vcross (vsub (embed o u w b) (embed o u w a)) (vsub (embed o u w c) (embed o u w a)) =
  vscale (orient a b c) (vcross u w).
Proof.
  destruct o as [[o1 o2] o3], u as [[u1 u2] u3], w as [[w1 w2] w3], a as [[a1 a2] a3], b as [[b1 b2] b3], c as [[c1 c2] c3].
  apply vec_eq; unfold vcross, vscale, vsub, vadd, embed, orient; cbn [fst snd vadd vscale]; ring.
Qed.
Lemma previous_index_lt i n : (0 < n)%nat -> (previous_index i n < n)%nat.
Proof. intros L. unfold previous_index. pose proof (N.mod_upper_bound ((N.of_nat i + 4294967295) mod 4294967296) (N.of_nat n) ltac:(lia)). lia. Qed.
Lemma previous_index_pos i n : (0 < i < n)%nat -> (N.of_nat n < 4294967296)%N -> previous_index i n = (i - 1)%nat.
Proof.
  intros L B. unfold previous_index.
  replace (N.of_nat i + 4294967295)%N with (N.of_nat (i - 1) + 1 * 4294967296)%N by lia.
  rewrite N.mod_add, N.mod_small by lia. rewrite N.mod_small by lia. lia.
Qed.
(** The factor of the normal. *)
Definition turns (vs : list vec3) : Qc :=
  sum_of (fun i => orient (vnth vs i) (vnth vs ((i + 1) mod length vs)) (vnth vs (previous_index i (length vs)))) (seq 0 (length vs)).
Lemma sum_of_scaled {A} (f h : A -> Qc) k l : (forall x, x ∈ l -> f x = h x * k) -> sum_of f l = sum_of h l * k.
Proof.
  induction l as [|x l IH]; intros H; [cbn; ring|]. rewrite !sum_of_cons, IH, (H x) by (set_solver). ring.
Qed.
Lemma normal_embed o u w vs : (2 < length vs)%nat -> PolygonNormal (embed o u w <$> vs) = Ok (vscale (turns vs) (vcross u w)).
Proof.
  intros L. unfold PolygonNormal. rewrite fmap_length. destruct (Nat.ltb_spec 2 (length vs)); [|lia]. cbn [require mbind outcome_bind].
  f_equal. rewrite (vfold (fun i => vcross _ _)). cbn [fst snd].
  assert (forall i, i ∈ seq 0 (length vs) ->
    vcross (vsub (vnth (embed o u w <$> vs) ((i + 1) mod length vs)) (vnth (embed o u w <$> vs) i))
           (vsub (vnth (embed o u w <$> vs) (previous_index i (length vs))) (vnth (embed o u w <$> vs) i)) =
    vscale (orient (vnth vs i) (vnth vs ((i + 1) mod length vs)) (vnth vs (previous_index i (length vs)))) (vcross u w)) as Q.
  { intros i I. apply elem_of_seq in I. rewrite !vnth_embed by first [lia|apply previous_index_lt; lia|apply Nat.mod_upper_bound; lia]. apply embed_cross. }
  unfold turns. apply vec_eq; unfold vscale; cbn [fst snd].
  - rewrite (sum_of_scaled _ (fun i => orient (vnth vs i) (vnth vs ((i + 1) mod length vs)) (vnth vs (previous_index i (length vs)))) (vcross u w).1.1); [ring|].
    intros i I. rewrite (Q i I). done.
  - rewrite (sum_of_scaled _ (fun i => orient (vnth vs i) (vnth vs ((i + 1) mod length vs)) (vnth vs (previous_index i (length vs)))) (vcross u w).1.2); [ring|].
    intros i I. rewrite (Q i I). done.
  - rewrite (sum_of_scaled _ (fun i => orient (vnth vs i) (vnth vs ((i + 1) mod length vs)) (vnth vs (previous_index i (length vs)))) (vcross u w).2); [ring|].
    intros i I. rewrite (Q i I). done.
Qed.
Lemma sum_of_pos {A} (f : A -> Qc) l x : (forall y, y ∈ l -> 0 <= f y) -> x ∈ l -> 0 < f x -> 0 < sum_of f l.
Proof.
  assert (forall m, (forall y, y ∈ m -> 0 <= f y) -> 0 <= sum_of f m) as NN.
  { induction m as [|y m IH]; intros H; [done|]. rewrite sum_of_cons. pose proof (H y ltac:(set_solver)).
    pose proof (IH ltac:(set_solver)). qlra. }
  induction l as [|y l IH]; intros H I P; [by apply elem_of_nil in I|]. rewrite sum_of_cons.
  pose proof (H y ltac:(set_solver)). pose proof (NN l ltac:(set_solver)).
  apply elem_of_cons in I. destruct I as [-> |I]; [qlra|]. pose proof (IH ltac:(set_solver) I P). qlra.
Qed.
(** A convex polygon has a real corner which is not the first vertex. *)
Lemma later_real vs : (2 < length vs)%nat -> NoDup vs -> left_turning vs ->
  exists s, (0 < s < length vs)%nat /\ real (corner vs) (length vs) s.
Proof.
  intros L N LT. pose proof (corners_three vs L N LT) as L3. rewrite corners_filter, fmap_length in L3.
  set (l := filter (real (corner vs) (length vs)) (seq 0 (length vs))) in *.
  assert (NoDup l) as ND by (apply NoDup_filter, NoDup_seq).
  assert (forall x, x ∈ l -> (x < length vs)%nat /\ real (corner vs) (length vs) x) as H.
  { intros x I. apply elem_of_list_filter in I. destruct I as [R I]. apply elem_of_seq in I. split; [lia|done]. }
  destruct l as [|a [|b r]]; [cbn in L3; lia..|].
  destruct (H a ltac:(set_solver)) as [A RA]. destruct (H b ltac:(set_solver)) as [B RB].
  destruct (decide (a = 0)%nat) as [-> |]; [|exists a; split; [lia|done]].
  exists b. split; [|done]. split; [|done]. apply NoDup_cons in ND. destruct ND as [ND _].
  destruct b; [|lia]. set_solver.
Qed.
Lemma turns_convex vs : (2 < length vs)%nat -> (N.of_nat (length vs) < 4294967296)%N -> NoDup vs -> left_turning vs -> convex vs ->
  0 < turns vs.
Proof.
  intros L B N LT C. destruct (later_real vs L N LT) as (s & BS & R). unfold turns. apply (sum_of_pos _ _ s).
  - intros i I. apply elem_of_seq in I. pose proof (previous_index_lt i (length vs) ltac:(lia)) as P.
    rewrite corner_next, !corner_vnth by (done || lia). apply C.
  - apply elem_of_seq. lia.
  - rewrite previous_index_pos by done. rewrite corner_next, !corner_vnth by lia.
    unfold real in R. replace (s + length vs - 1)%nat with (s - 1 + length vs)%nat in R by lia. rewrite corner_periodic in R.
    pose proof (orient_rotate (corner vs (s - 1)) (corner vs s) (corner vs (S s))) as E. rewrite <- E in R.
    destruct (Qcle_lt_or_eq _ _ (C s (s - 1)%nat)) as [|Z]; [done|]. by destruct R.
Qed.

(** ** Area in space *)

Lemma cross3D_embed g o u w vs A : Forall flat vs -> 0 <= cfgTolerance1D g -> PolygonArea g vs = Ok A ->
  PolygonCross3D (embed o u w <$> vs) = Ok (vscale (2 * A) (vcross u w)).
Proof.
  intros F T HA.
  assert (2 < length vs)%nat as L.
  { unfold PolygonArea in HA. destruct (require_polygon_cases g vs) as [E|E]; [|rewrite E in HA; done].
    apply accepted_iff in E. apply E. }
  rewrite area_formula in HA.
  2: { split; [done|]. eapply Forall_impl; [exact F|]. intros p P. unfold flat in P. rewrite P. done. }
  injection HA as <-.
  unfold PolygonCross3D. rewrite fmap_length. destruct (Nat.ltb_spec 2 (length vs)); [|lia]. cbn [require mbind outcome_bind].
  f_equal. rewrite (vfold (fun v => vcross _ _)). cbn [fst snd].
  assert (forall f : vec3 -> vec3 -> Qc, sum_of (fun i => f (vnth (embed o u w <$> vs) i) (vnth (embed o u w <$> vs) ((i + 1) mod length vs))) (seq 0 (length vs)) =
    closed_sum f (embed o u w <$> vs)) as S.
  { intros f. rewrite <- sum_edges_closed. unfold sum_edges. rewrite fmap_length, qsum_fmap. done. }
  pose proof (S (fun a b => (vcross a b).1.1)) as Sx. pose proof (S (fun a b => (vcross a b).1.2)) as Sy.
  pose proof (S (fun a b => (vcross a b).2)) as Sz. cbv beta in Sx, Sy, Sz. rewrite Sx, Sy, Sz. clear S Sx Sy Sz.
  set (e (p : vec3) := vcross o (vadd (vscale p.1.1 u) (vscale p.1.2 w))).
  apply vec_eq; unfold vscale; cbn [fst snd].
  - rewrite (closed_sum_map (vcross u w).1.1 _ wedge _ (fun p => (e p).1.1)).
    + unfold half. change 2 with (1 + 1). replace (Q2Qc (1 # 2)) with (1 / (1 + 1)) by done. field. done.
    + intros a b. unfold e, vcross, embed, vadd, vscale, wedge. cbn [fst snd]. ring.
  - rewrite (closed_sum_map (vcross u w).1.2 _ wedge _ (fun p => (e p).1.2)).
    + unfold half. change 2 with (1 + 1). replace (Q2Qc (1 # 2)) with (1 / (1 + 1)) by done. field. done.
    + intros a b. unfold e, vcross, embed, vadd, vscale, wedge. cbn [fst snd]. ring.
  - rewrite (closed_sum_map (vcross u w).2 _ wedge _ (fun p => (e p).2)).
    + unfold half. change 2 with (1 + 1). replace (Q2Qc (1 # 2)) with (1 / (1 + 1)) by done. field. done.
    + intros a b. unfold e, vcross, embed, vadd, vscale, wedge. cbn [fst snd]. ring.
Qed.

(** ** Orientation *)

Lemma min_element_fold l k b : (b < length l)%nat -> (forall i, (i < k)%nat -> (i <= length l)%nat -> (nth b l 0 <= nth i l 0)%N) -> (b <= k)%nat ->
  forall m r, drop k l = m -> r = foldl (fun (b : nat * nat) x => if (x <? nth b.1 l 0)%N then (b.2, S b.2) else (b.1, S b.2)) (b, k) m ->
  (r.1 < length l)%nat /\ forall i, (i < length l)%nat -> (nth r.1 l 0 <= nth i l 0)%N.
Proof.
  intros B MIN LE m r D ->. revert k b B MIN LE D. induction m as [|x m IH]; intros k b B MIN LE D; cbn [foldl fst snd].
  - split; [done|]. intros i I. apply MIN; [|lia]. assert (length (drop k l) = 0)%nat as Z by by rewrite D. rewrite drop_length in Z. lia.
  - assert (l !! k = Some x) as LK by (rewrite <- (Nat.add_0_r k), <- lookup_drop, D; done).
    assert (nth k l 0 = x)%N as NK by (by apply nth_lookup_Some).
    assert (drop (S k) l = m) as D' by (rewrite <- Nat.add_1_r, <- drop_drop, D; done).
    pose proof (lookup_lt_Some _ _ _ LK) as KL.
    destruct (N.ltb_spec x (nth b l 0%N)) as [H|H].
    + apply IH; [done| |lia|done]. intros i I IL. destruct (decide (i = k)) as [-> |]; [lia|].
      rewrite NK. specialize (MIN i ltac:(lia) IL). lia.
    + apply IH; [done| |lia|done]. intros i I IL. destruct (decide (i = k)) as [-> |]; [lia|]. apply MIN; lia.
Qed.
Lemma min_element_ok l : l <> [] -> (min_element l < length l)%nat /\ forall i, (i < length l)%nat -> (nth (min_element l) l 0 <= nth i l 0)%N.
Proof.
  intros N. destruct l as [|a l]; [done|].
  eapply (min_element_fold (a :: l) 0 0); [cbn; lia|lia|lia|reflexivity|reflexivity].
Qed.
Lemma sorted_nth (R : N -> N -> Prop) l i j : StronglySorted R l -> (i < j)%nat -> (j < length l)%nat -> R (nth i l 0%N) (nth j l 0%N).
Proof.
  intros S. revert i j. induction S as [|a l S IH F]; intros i j I J; [cbn in J; lia|].
  destruct j as [|j]; [lia|]. cbn [length] in J. destruct i as [|i]; cbn [nth].
  - rewrite Forall_forall in F. apply F. apply elem_of_list_In. apply nth_In. lia.
  - apply IH; lia.
Qed.
(** Elements of a rotated list. *)
Lemma rotated_nth (a b : list N) i : (i < length (a ++ b))%nat -> nth i (b ++ a) 0%N = nth ((i + length a) mod length (a ++ b)) (a ++ b) 0%N.
Proof.
  intros I. rewrite app_length in *. destruct (decide (i < length b)%nat) as [D|D].
  - rewrite app_nth1 by done. rewrite Nat.mod_small by lia. rewrite app_nth2 by lia. f_equal. lia.
  - rewrite app_nth2 by lia. replace (i + length a)%nat with (i - length b + 1 * (length a + length b))%nat by lia.
    rewrite Nat.mod_add, Nat.mod_small by lia. rewrite app_nth1 by lia. done.
Qed.
(** Position of the smallest element, and of the two after it, in the list before rotation. *)
Lemma rotated_min (a b : list N) k : let n := length (a ++ b) in (2 < n)%nat -> (k < n)%nat ->
  (forall i, (i < n)%nat -> i <> k -> (nth k (a ++ b) 0 < nth i (a ++ b) 0)%N) ->
  let m := min_element (b ++ a) in
  nth ((m + 1) mod n) (b ++ a) 0%N = nth ((k + 1) mod n) (a ++ b) 0%N /\
  nth (((m + 1) mod n + 1) mod n) (b ++ a) 0%N = nth ((k + 2) mod n) (a ++ b) 0%N.
Proof.
  intros n L K H. assert (length (b ++ a) = n) as E by (unfold n; rewrite !app_length; lia).
  destruct (min_element_ok (b ++ a)) as [M1 M2]; [intros Z; rewrite Z in E; cbn in E; lia|]. rewrite E in M1, M2.
  cbn zeta. set (m := min_element (b ++ a)) in *. clearbody m.
  assert (length a <= n)%nat as LA by (unfold n; rewrite app_length; lia).
  assert (forall x y, (x + y mod n) mod n = (x + y) mod n)%nat as AM by (intros; by rewrite Nat.add_mod_idemp_r by lia).
  assert (forall x y, (x mod n + y) mod n = (x + y) mod n)%nat as MA by (intros; by rewrite Nat.add_mod_idemp_l by lia).
  assert ((m + length a) mod n = k)%nat as Z.
  { destruct (decide ((m + length a) mod n = k)%nat) as [|P]; [done|]. exfalso.
    pose proof (H _ (Nat.mod_upper_bound (m + length a) n ltac:(lia)) P) as HP.
    set (i := ((k + (n - length a)) mod n)%nat).
    assert (i < n)%nat as I by (apply Nat.mod_upper_bound; lia).
    specialize (M2 i I). rewrite (rotated_nth a b m), (rotated_nth a b i) in M2 by (fold n; lia). fold n in M2. unfold i in M2. rewrite MA in M2.
    replace (k + (n - length a) + length a)%nat with (k + 1 * n)%nat in M2 by lia. rewrite Nat.mod_add, (Nat.mod_small k) in M2 by lia. lia. }
  rewrite (rotated_nth a b ((m + 1) mod n)), (rotated_nth a b (((m + 1) mod n + 1) mod n)) by (fold n; apply Nat.mod_upper_bound; lia). fold n.
  rewrite <- Z, !MA, <- (Nat.add_assoc ((m + 1) mod n)), MA. split; do 2 f_equal; lia.
Qed.
Lemma orientation_of a b k : let n := length (a ++ b) in (2 < n)%nat -> (k < n)%nat ->
  (forall i, (i < n)%nat -> i <> k -> (nth k (a ++ b) 0 < nth i (a ++ b) 0)%N) ->
  PolygonOrientation (b ++ a) =
    Ok (if (nth ((k + 1) mod n) (a ++ b) 0 <? nth ((k + 2) mod n) (a ++ b) 0)%N then CounterClockwise else Clockwise).
Proof.
  intros n L K H. assert (length (b ++ a) = n) as E by (unfold n; rewrite !app_length; lia).
  unfold PolygonOrientation. rewrite E. destruct (Nat.ltb_spec 2 n); [|lia]. cbn [require mbind outcome_bind]. cbn zeta.
  pose proof (rotated_min a b k L K H) as [R1 R2]. fold n in R1, R2. rewrite R1, R2. done.
Qed.
Lemma orientation_ascending a b : ascending (a ++ b) -> (2 < length (a ++ b))%nat -> PolygonOrientation (b ++ a) = Ok CounterClockwise.
Proof.
  intros A L. rewrite (orientation_of a b 0); [|done|lia|].
  - rewrite !Nat.mod_small by lia. pose proof (sorted_nth _ _ 1 2 A ltac:(lia) ltac:(lia)) as S.
    cbn [Nat.add]. destruct (N.ltb_spec (nth 1 (a ++ b) 0%N) (nth 2 (a ++ b) 0%N)); [done|lia].
  - intros i I NE. apply (sorted_nth _ _ 0 i A); lia.
Qed.
Lemma orientation_descending a b : descending (a ++ b) -> (2 < length (a ++ b))%nat -> PolygonOrientation (b ++ a) = Ok Clockwise.
Proof.
  intros A L. set (n := length (a ++ b)) in *. rewrite (orientation_of a b (n - 1)); [|done|unfold n; lia|].
  - fold n. replace (n - 1 + 1)%nat with (0 + 1 * n)%nat by lia. replace (n - 1 + 2)%nat with (1 + 1 * n)%nat by lia.
    rewrite !Nat.mod_add, !Nat.mod_small by lia. pose proof (sorted_nth _ _ 0 1 A ltac:(lia) ltac:(fold n; lia)) as S. cbn beta in S.
    destruct (N.ltb_spec (nth 0 (a ++ b) 0%N) (nth 1 (a ++ b) 0%N)); [lia|done].
  - fold n. intros i I NE. apply (sorted_nth _ _ i (n - 1) A); [lia|fold n; lia].
Qed.
