From Coq Require Import QArith Qcanon.
From Verif Require Import Base BaseProof QcTac FillModel GeoModel MapModel PointModel PointSpec PointProof PolyModel PolySpec PolyProof RayModel RaySpec RayProof.
From Coq Require Import ZifyBool ZifyNat.
Local Open Scope Qc_scope.

(** ** Outside a convex polygon *)
Lemma telescope p vs (h : vec3 -> Qc) : (forall i, side_wind p vs i = h (corner vs (S i)) - h (corner vs i)) -> closed_sum (wind p) vs = 0.
Proof.
  intros H. rewrite <- closed_sides.
  assert (forall n s, sum_of (side_wind p vs) (seq s n) = h (corner vs (s + n)) - h (corner vs s)) as K.
  { induction n as [|n IH]; intros s; [rewrite Nat.add_0_r; cbn [seq sum_of foldr]; unfold sum_of; cbn [foldr]; ring|].
    cbn [seq]. rewrite sum_of_cons, IH, H. replace (S s + n)%nat with (s + S n)%nat by lia. ring. }
  rewrite K, Nat.add_0_l. replace (corner vs (length vs)) with (corner vs 0); [ring|]. symmetry. apply (corner_periodic vs 0).
Qed.
Lemma crossing_identity a b u v p :
  - (b.1.2 - a.1.2) * orient u v p =
  (v.1.2 - p.1.2) * orient a b u + (p.1.2 - u.1.2) * orient a b v - (v.1.2 - u.1.2) * orient a b p.
Proof. unfold orient. ring. Qed.

Definition right_above (p v : vec3) : Qc := if qle p.1.2 v.1.2 && qlt p.1.1 v.1.1 then 1 else 0.
Definition above (p v : vec3) : Qc := if qle p.1.2 v.1.2 then 1 else 0.
Lemma qle_true (x y : Qc) : x <= y -> qle x y = true.
Proof. intros H. by destruct (qle_spec x y). Qed.
Lemma qle_false (x y : Qc) : y < x -> qle x y = false.
Proof. intros H. destruct (qle_spec x y); [exfalso; qlra|done]. Qed.

(** The line from [a] to [b] goes down, up, or is level. *)
Lemma wind_down_line p a b u v : ~ on_side p u v -> orient a b p <= 0 -> 0 <= orient a b u -> 0 <= orient a b v -> b.1.2 < a.1.2 ->
  wind p u v = above p v - above p u.
Proof.
  intros O P U V D. unfold above. destruct (side_facts p u v O) as (N1 & N2 & _). pose proof (crossing_identity a b u v p) as I.
  destruct (Qclt_le_dec u.1.2 p.1.2) as [A|A], (Qclt_le_dec v.1.2 p.1.2) as [B|B].
  - rewrite wind_below, !qle_false by done. ring.
  - rewrite wind_up, (qle_true p.1.2 v.1.2), (qle_false p.1.2 u.1.2) by done. destruct (qlt_spec 0 (orient u v p)) as [|Z]; [ring|exfalso].
    specialize (N1 A B). assert (orient u v p < 0) as Z'. { destruct (Qc_dec (orient u v p) 0) as [[|]|]; done. }
    clear N1 N2 O Z. generalize dependent (orient u v p). intros x I X.
    assert (0 <= (v.1.2 - p.1.2) * orient a b u) as T1 by (clear - B U; qnra).
    assert (0 <= (p.1.2 - u.1.2) * orient a b v) as T2 by (clear - A V; qnra).
    assert ((v.1.2 - u.1.2) * orient a b p <= 0) as T3 by (clear - A B P; qnra).
    assert (- (b.1.2 - a.1.2) * x < 0) as T4 by (clear - D X; qnra). clear - I T1 T2 T3 T4. qlra.
  - rewrite wind_down, (qle_true p.1.2 u.1.2), (qle_false p.1.2 v.1.2) by done. destruct (qlt_spec (orient u v p) 0) as [|Z]; [ring|exfalso].
    specialize (N2 B A). assert (0 < orient u v p) as Z'. { destruct (Qc_dec (orient u v p) 0) as [[|]|]; done. }
    clear N1 N2 O Z. generalize dependent (orient u v p). intros x I X.
    assert ((v.1.2 - p.1.2) * orient a b u <= 0) as T1 by (clear - B U; qnra).
    assert ((p.1.2 - u.1.2) * orient a b v <= 0) as T2 by (clear - A V; qnra).
    assert (0 <= (v.1.2 - u.1.2) * orient a b p) as T3 by (clear - A B P; qnra).
    assert (0 < - (b.1.2 - a.1.2) * x) as T4 by (clear - D X; qnra). clear - I T1 T2 T3 T4. qlra.
  - rewrite wind_above, !qle_true by done. ring.
Qed.
Lemma wind_up_line p a b u v : orient a b p <= 0 -> 0 <= orient a b u -> 0 <= orient a b v -> a.1.2 < b.1.2 -> wind p u v = 0.
Proof.
  intros P U V D. pose proof (crossing_identity a b u v p) as I.
  destruct (wind_cases p u v) as [(A & B & C & _)|[(A & B & C & _)|(_ & _ & ->)]]; [exfalso..|done].
  - generalize dependent (orient u v p). intros x I X.
    assert (0 <= (v.1.2 - p.1.2) * orient a b u) as T1 by (clear - B U; qnra).
    assert (0 <= (p.1.2 - u.1.2) * orient a b v) as T2 by (clear - A V; qnra).
    assert ((v.1.2 - u.1.2) * orient a b p <= 0) as T3 by (clear - A B P; qnra).
    assert (- (b.1.2 - a.1.2) * x < 0) as T4 by (clear - D X; qnra). clear - I T1 T2 T3 T4. qlra.
  - generalize dependent (orient u v p). intros x I X.
    assert ((v.1.2 - p.1.2) * orient a b u <= 0) as T1 by (clear - A U; qnra).
    assert ((p.1.2 - u.1.2) * orient a b v <= 0) as T2 by (clear - B V; qnra).
    assert (0 <= (v.1.2 - u.1.2) * orient a b p) as T3 by (clear - A B P; qnra).
    assert (0 < - (b.1.2 - a.1.2) * x) as T4 by (clear - D X; qnra). clear - I T1 T2 T3 T4. qlra.
Qed.
Lemma wind_level_line p a b u v : ~ on_side p u v -> orient a b p <= 0 -> 0 <= orient a b u -> 0 <= orient a b v ->
  a.1.2 = b.1.2 -> b.1.1 < a.1.1 -> wind p u v = right_above p v - right_above p u.
Proof.
  intros O P U V L D. destruct (side_facts p u v O) as (_ & _ & H). clear O.
  assert (a.1.2 <= p.1.2) as PY by (unfold orient in P; rewrite <- L in P; clear - P D; qnra).
  assert (u.1.2 <= p.1.2) as UY.
  { unfold orient in U; rewrite <- L in U. assert (u.1.2 <= a.1.2) by (clear - U D; qnra). clear - H0 PY. qlra. }
  assert (v.1.2 <= p.1.2) as VY.
  { unfold orient in V; rewrite <- L in V. assert (v.1.2 <= a.1.2) by (clear - V D; qnra). clear - H0 PY. qlra. }
  clear P U V PY L D. unfold right_above.
  destruct (Qclt_le_dec u.1.2 p.1.2) as [A|A], (Qclt_le_dec v.1.2 p.1.2) as [B|B].
  - rewrite wind_below, !qle_false by done. cbn [andb]. ring.
  - rewrite wind_up, (qle_true p.1.2 v.1.2), (qle_false p.1.2 u.1.2) by done. cbn [andb].
    assert (v.1.2 = p.1.2) as E by (clear - B VY; qlra).
    assert (orient u v p = (p.1.2 - u.1.2) * (v.1.1 - p.1.1)) as -> by (unfold orient; rewrite E; ring).
    destruct (qlt_spec 0 ((p.1.2 - u.1.2) * (v.1.1 - p.1.1))), (qlt_spec p.1.1 v.1.1); try ring; exfalso; clear - A q n; qnra.
  - rewrite wind_down, (qle_true p.1.2 u.1.2), (qle_false p.1.2 v.1.2) by done. cbn [andb].
    assert (u.1.2 = p.1.2) as E by (clear - A UY; qlra).
    assert (orient u v p = - ((p.1.2 - v.1.2) * (u.1.1 - p.1.1))) as -> by (unfold orient; rewrite E; ring).
    destruct (qlt_spec (- ((p.1.2 - v.1.2) * (u.1.1 - p.1.1))) 0), (qlt_spec p.1.1 u.1.1); try ring; exfalso; clear - B q n; qnra.
  - rewrite wind_above, !qle_true by done. cbn [andb].
    destruct H as [H1 H2]; [clear - A UY; qlra|clear - B VY; qlra|].
    destruct (qlt_spec p.1.1 v.1.1), (qlt_spec p.1.1 u.1.1); try ring; exfalso.
    + apply H1. split; clear - q n; qlra.
    + apply H2. split; clear - q n; qlra.
Qed.

Lemma convex_outside p vs i : convex vs -> corner vs i <> corner vs (S i) -> Forall flat vs -> ~ on_border p vs ->
  orient (corner vs i) (corner vs (S i)) p <= 0 -> closed_sum (wind p) vs = 0.
Proof.
  intros C N F B P. set (a := corner vs i) in *. set (b := corner vs (S i)) in *.
  assert (forall j, 0 <= orient a b (corner vs j)) as H by (intros j; apply C).
  assert (forall j, ~ on_side p (corner vs j) (corner vs (S j))) as O by (intros j J; apply B; by exists j).
  destruct (Qc_dec a.1.2 b.1.2) as [[D|D]|D].
  - apply (telescope p vs (fun _ => 0)). intros j. unfold side_wind. rewrite (wind_up_line p a b) by done. ring.
  - apply (telescope p vs (above p)). intros j. unfold side_wind. by apply (wind_down_line p a b).
  - destruct (Qc_dec a.1.1 b.1.1) as [[E|E]|E].
    + apply (telescope p vs (fun _ => 0)). intros j. unfold side_wind.
      assert (forall j, p.1.2 <= (corner vs j).1.2) as K.
      { intros k. specialize (H k). unfold orient in H, P. rewrite <- D in H, P. clear - H P E. qnra. }
      rewrite wind_above by done. ring.
    + apply (telescope p vs (right_above p)). intros j. unfold side_wind. by apply (wind_level_line p a b).
    + destruct N. pose proof (corner_flat vs i F) as FA. pose proof (corner_flat vs (S i) F) as FB. fold a in FA. fold b in FB.
      unfold flat in *. destruct a as [[ax ay] az], b as [[bx by'] bz]. cbn [fst snd] in *. by subst.
Qed.

(** ** Strictly convex polygons *)
Lemma succ_mod i n : n <> 0%nat -> (S (i mod n) mod n = S i mod n)%nat.
Proof. intros N. rewrite <- (Nat.add_1_r (i mod n)), <- (Nat.add_1_r i). by rewrite Nat.add_mod_idemp_l. Qed.
Lemma succ_mod_cases i n : (i < n)%nat -> (S i mod n = S i /\ S i < n \/ S i mod n = 0 /\ S i = n)%nat.
Proof.
  intros H. destruct (decide (S i = n)) as [E|E].
  - right. split; [|done]. by rewrite E, Nat.mod_same by lia.
  - left. rewrite Nat.mod_small; lia.
Qed.

Section strict.
Context (vs : list vec3) (L : (2 < length vs)%nat) (SC : strictly_convex vs).

Lemma next_corner i : corner vs (S (i mod length vs)) = corner vs (S i).
Proof. rewrite <- (corner_mod vs (S (i mod _))), <- (corner_mod vs (S i)). by rewrite succ_mod by lia. Qed.
Lemma strict_left i j : (j mod length vs <> i mod length vs)%nat -> (j mod length vs <> S i mod length vs)%nat ->
  0 < orient (corner vs i) (corner vs (S i)) (corner vs j).
Proof.
  intros A B. rewrite <- (corner_mod vs i), <- (next_corner i), <- (corner_mod vs j).
  apply SC; [apply Nat.mod_upper_bound; lia..|done|]. by rewrite succ_mod by lia.
Qed.
Lemma orient_ends a b : orient a b a = 0 /\ orient a b b = 0.
Proof. unfold orient. split; ring. Qed.
Lemma same_corner i j : (i mod length vs = j mod length vs)%nat -> corner vs i = corner vs j.
Proof. intros E. by rewrite <- (corner_mod vs i), E, corner_mod. Qed.
Lemma strict_convex : convex vs.
Proof.
  intros i j. destruct (orient_ends (corner vs i) (corner vs (S i))) as [E0 E1].
  destruct (decide (j mod length vs = i mod length vs)%nat) as [A|A].
  { rewrite (same_corner j i A), E0. done. }
  destruct (decide (j mod length vs = S i mod length vs)%nat) as [B|B].
  { rewrite (same_corner j (S i) B), E1. done. }
  apply Qclt_le_weak. by apply strict_left.
Qed.
(** The only vertices on the line of a side are its ends. *)
Lemma strict_zero i j : orient (corner vs i) (corner vs (S i)) (corner vs j) = 0 ->
  (j mod length vs = i mod length vs \/ j mod length vs = S i mod length vs)%nat.
Proof.
  intros Z. destruct (decide (j mod length vs = i mod length vs)%nat) as [A|A]; [by left|].
  destruct (decide (j mod length vs = S i mod length vs)%nat) as [B|B]; [by right|].
  pose proof (strict_left i j A B) as P. rewrite Z in P. qlra.
Qed.
Lemma next_apart i : (S i mod length vs <> i mod length vs)%nat.
Proof.
  pose proof (Nat.mod_upper_bound i (length vs)) as U. rewrite <- succ_mod by lia. destruct (succ_mod_cases (i mod length vs) (length vs)); lia.
Qed.
Lemma next2_apart i : (S (S i) mod length vs <> i mod length vs)%nat.
Proof.
  pose proof (Nat.mod_upper_bound i (length vs)) as U. rewrite <- (succ_mod (S i)), <- (succ_mod i) by lia.
  destruct (succ_mod_cases (i mod length vs) (length vs)) as [[-> A]|[-> A]]; [lia| |].
  - destruct (succ_mod_cases (S (i mod length vs)) (length vs)); lia.
  - rewrite Nat.mod_small by lia. lia.
Qed.
Lemma strict_inj i j : corner vs i = corner vs j -> (i mod length vs = j mod length vs)%nat.
Proof.
  intros E. destruct (decide (i mod length vs = j mod length vs)%nat) as [|N]; [done|exfalso].
  (* two different vertices are not equal: look at a side which ends in one and does not have the other *)
  destruct (decide (j mod length vs = S i mod length vs)%nat) as [A|A].
  - pose proof (strict_left (S i) i) as P. rewrite E, <- (same_corner j (S i) A) in P.
    assert (orient (corner vs j) (corner vs (S (S i))) (corner vs j) = 0) as Z by apply orient_ends. rewrite Z in P.
    assert (0 < 0) as Q; [|qlra]. apply P; intros X.
    + by apply (next_apart i).
    + by apply (next2_apart i).
  - pose proof (strict_left i j) as P. rewrite <- E in P. rewrite (proj1 (orient_ends _ _)) in P.
    assert (0 < 0) as Q; [|qlra]. apply P; congruence.
Qed.
Lemma strict_sides i : corner vs i <> corner vs (S i).
Proof. intros E%strict_inj. by apply (next_apart i). Qed.

(** ** Inside *)
Context (p : vec3) (IN : forall i, 0 < orient (corner vs i) (corner vs (S i)) p).
Let n := length vs.
Let y (i : nat) : Qc := (corner vs i).1.2.

Lemma extreme (f : nat -> Qc) m : m <> 0%nat -> exists k, (k < m)%nat /\ forall j, (j < m)%nat -> f k <= f j.
Proof.
  induction m as [|m IH]; intros N; [done|]. destruct (decide (m = 0)%nat) as [-> |M].
  - exists 0%nat. split; [lia|]. intros j J. assert (j = 0)%nat as -> by lia. done.
  - destruct (IH M) as (k & K & H). destruct (Qclt_le_dec (f m) (f k)) as [A|A].
    + exists m. split; [lia|]. intros j J. destruct (decide (j = m)) as [->|]; [done|]. assert (f k <= f j) by (apply H; lia). qlra.
    + exists k. split; [lia|]. intros j J. destruct (decide (j = m)) as [->|]; [done|]. apply H. lia.
Qed.
Lemma prev_exists k : (k < n)%nat -> exists j, corner vs (S j) = corner vs k /\ corner vs (S (S j)) = corner vs (S k).
Proof.
  intros K. exists (k + n - 1)%nat. replace (S (k + n - 1)) with (k + n)%nat by lia. replace (S (k + n)) with (S k + n)%nat by lia.
  by rewrite !corner_periodic.
Qed.
(** There is a vertex below the point and one not below. *)
Lemma turn_identity (a b c : vec3) :
  (b.1.2 - a.1.2) * orient b c p - (c.1.2 - b.1.2) * orient a b p + (p.1.2 - b.1.2) * orient a b c = 0.
Proof. unfold orient. ring. Qed.
Lemma some_below : exists k, y k < p.1.2.
Proof.
  destruct (extreme y n) as (k & K & H); [lia|]. exists k. destruct (Qclt_le_dec (y k) p.1.2) as [|A]; [done|exfalso].
  assert (forall j, y k <= y j) as H'. { intros j. unfold y. rewrite <- (corner_mod vs j). apply H. apply Nat.mod_upper_bound. lia. }
  destruct (prev_exists k K) as (j & E1 & E2). pose proof (IN j) as I1. pose proof (IN k) as I2.
  assert (0 < orient (corner vs j) (corner vs (S j)) (corner vs (S (S j)))) as T.
  { apply strict_left; [apply next2_apart|apply next_apart]. }
  rewrite E2, E1 in T. rewrite E1 in I1. pose proof (turn_identity (corner vs j) (corner vs k) (corner vs (S k))) as I.
  pose proof (H' j) as Hj. pose proof (H' (S k)) as Hk. unfold y in *.
  assert (((corner vs k).1.2 - (corner vs j).1.2) * orient (corner vs k) (corner vs (S k)) p <= 0) as T1 by (clear - Hj I2; qnra).
  assert (0 <= ((corner vs (S k)).1.2 - (corner vs k).1.2) * orient (corner vs j) (corner vs k) p) as T2 by (clear - Hk I1; qnra).
  assert ((p.1.2 - (corner vs k).1.2) * orient (corner vs j) (corner vs k) (corner vs (S k)) <= 0) as T3 by (clear - A T; qnra).
  assert ((corner vs j).1.2 = (corner vs k).1.2) as Z1 by (clear - T1 T2 T3 I Hj I2; qnra).
  assert ((corner vs (S k)).1.2 = (corner vs k).1.2) as Z2 by (clear - T1 T2 T3 I Hk I1; qnra).
  unfold orient in T. rewrite Z1, Z2 in T. clear - T. qlra.
Qed.
Lemma some_above : exists k, p.1.2 <= y k.
Proof.
  destruct (extreme (fun i => - y i) n) as (k & K & H); [lia|]. exists k. destruct (Qclt_le_dec (y k) p.1.2) as [A|]; [exfalso|done].
  assert (forall j, y j <= y k) as H'.
  { intros j. unfold y. rewrite <- (corner_mod vs j). assert (- y k <= - y (j mod n)%nat) as Q; [|unfold y, n in *; qlra].
    apply H. apply Nat.mod_upper_bound. lia. }
  destruct (prev_exists k K) as (j & E1 & E2). pose proof (IN j) as I1. pose proof (IN k) as I2.
  assert (0 < orient (corner vs j) (corner vs (S j)) (corner vs (S (S j)))) as T.
  { apply strict_left; [apply next2_apart|apply next_apart]. }
  rewrite E2, E1 in T. rewrite E1 in I1. pose proof (turn_identity (corner vs j) (corner vs k) (corner vs (S k))) as I.
  pose proof (H' j) as Hj. pose proof (H' (S k)) as Hk. unfold y in *.
  assert (0 <= ((corner vs k).1.2 - (corner vs j).1.2) * orient (corner vs k) (corner vs (S k)) p) as T1 by (clear - Hj I2; qnra).
  assert (((corner vs (S k)).1.2 - (corner vs k).1.2) * orient (corner vs j) (corner vs k) p <= 0) as T2 by (clear - Hk I1; qnra).
  assert (0 < (p.1.2 - (corner vs k).1.2) * orient (corner vs j) (corner vs k) (corner vs (S k))) as T3 by (clear - A T; qnra).
  clear - T1 T2 T3 I. qlra.
Qed.
Lemma some_upward : exists k, (k < n)%nat /\ y k < p.1.2 /\ p.1.2 <= y (S k).
Proof.
  destruct some_below as (k & K), some_above as (m & M).
  assert (forall d, y (k + d) < p.1.2 \/ exists i, y i < p.1.2 /\ p.1.2 <= y (S i)) as W.
  { induction d as [|d IH]; [left; by rewrite Nat.add_0_r|]. destruct IH as [A|]; [|by right].
    destruct (Qclt_le_dec (y (k + S d)) p.1.2) as [|B]; [by left|right]. exists (k + d)%nat. split; [done|].
    by replace (S (k + d)) with (k + S d)%nat by lia. }
  assert (exists i, y i < p.1.2 /\ p.1.2 <= y (S i)) as (i & A & B).
  { destruct (W (m + k * n - k)%nat) as [A|]; [exfalso|done].
    replace (k + (m + k * n - k))%nat with (m + k * n)%nat in A by (unfold n; nia).
    assert (y (m + k * n) = y m) as E; [|rewrite E in A; qlra].
    unfold y. f_equal. f_equal. apply same_corner. unfold n. rewrite Nat.mod_add by lia. done. }
  exists (i mod n)%nat. unfold y. rewrite corner_mod, next_corner. split; [apply Nat.mod_upper_bound; lia|done].
Qed.
Lemma one_upward i j : (i < n)%nat -> (j < n)%nat -> y i < p.1.2 -> p.1.2 <= y (S i) -> y j < p.1.2 -> p.1.2 <= y (S j) -> i = j.
Proof.
  intros Bi Bj A B C D. pose proof strict_convex as CV.
  pose proof (CV i j) as P1. pose proof (CV i (S j)) as P2. pose proof (CV j i) as P3. pose proof (CV j (S i)) as P4. unfold y in *.
  set (a := corner vs i) in *. set (b := corner vs (S i)) in *. set (c := corner vs j) in *. set (d := corner vs (S j)) in *.
  (* both sides cross the level of the point at the same place *)
  assert ((d.1.2 - p.1.2) * orient a b c + (p.1.2 - c.1.2) * orient a b d = 0) as Z.
  { assert (0 <= (d.1.2 - p.1.2) * orient a b c) as T1 by (clear - D P1; qnra).
    assert (0 <= (p.1.2 - c.1.2) * orient a b d) as T2 by (clear - C P2; qnra).
    assert (0 <= (b.1.2 - p.1.2) * orient c d a) as T3 by (clear - B P3; qnra).
    assert (0 <= (p.1.2 - a.1.2) * orient c d b) as T4 by (clear - A P4; qnra).
    assert ((d.1.2 - p.1.2) * orient a b c + (p.1.2 - c.1.2) * orient a b d =
      - ((b.1.2 - p.1.2) * orient c d a + (p.1.2 - a.1.2) * orient c d b)) as I by (unfold orient; ring).
    clear - I T1 T2 T3 T4. qlra. }
  assert (orient a b d = 0) as Zd.
  { assert (0 <= (d.1.2 - p.1.2) * orient a b c) as T1 by (clear - D P1; qnra). clear - Z T1 P2 C. qnra. }
  destruct (strict_zero i (S j) Zd) as [E|E].
  - exfalso. apply same_corner in E. fold a d in E. rewrite E in D. clear - A D. qlra.
  - destruct (succ_mod_cases i n Bi) as [[X1 X2]|[X1 X2]], (succ_mod_cases j n Bj) as [[Y1 Y2]|[Y1 Y2]]; unfold n in *; lia.
Qed.
Lemma sum_single (f : nat -> Qc) k l : NoDup l -> k ∈ l -> (forall j, j ∈ l -> j <> k -> f j = 0) -> sum_of f l = f k.
Proof.
  assert (forall l, (forall j, j ∈ l -> f j = 0) -> sum_of f l = 0) as Z.
  { induction l0 as [|j l0 IH]; intros H; [done|]. rewrite sum_of_cons, H, IH; [ring| |constructor]. intros; apply H; by constructor. }
  induction 1 as [|j l N D IH]; [by intros ?%elem_of_nil|]. intros K H. rewrite sum_of_cons. apply elem_of_cons in K as [-> |K].
  - rewrite (Z l); [ring|]. intros j' J. apply H; [by constructor|]. by intros ->.
  - rewrite (H j), IH; [ring|done| |constructor|by intros ->]. intros; apply H; [by constructor|done].
Qed.
Lemma strict_inside : closed_sum (wind p) vs = 1.
Proof.
  destruct some_upward as (k & K & A & B). rewrite <- closed_sides, (sum_single _ k).
  - unfold side_wind. rewrite wind_up by done. destruct (qlt_spec 0 (orient (corner vs k) (corner vs (S k)) p)) as [|N]; [done|]. by destruct N.
  - apply NoDup_seq.
  - apply elem_of_seq. unfold n in K. lia.
  - intros j J%elem_of_seq N. unfold side_wind.
    destruct (wind_cases p (corner vs j) (corner vs (S j))) as [(X & Y & _)|[(_ & _ & X & _)|(_ & _ & ->)]]; [exfalso..|done].
    + apply N. apply (one_upward j k); [unfold n; lia|done..].
    + specialize (IN j). clear - IN X. qlra.
Qed.
End strict.

Lemma ray_convex g p vs : PointSpec.exact g -> flat p -> (2 < length vs)%nat -> Forall flat vs -> strictly_convex vs ->
  exists r, PointPolygonPosition_RayCasting g p vs = Ok r /\
    ray_position_spec p vs (forall i, 0 < orient (corner vs i) (corner vs (S i)) p) r.
Proof.
  intros X P L F SC. destruct (ray_cases g p vs X P) as (r & E & R).
  { split; [done|]. split; [done|]. intros i. by apply strict_sides. }
  exists r. split; [done|]. destruct R as [R|(N & z & Z & ->)]; [by destruct r|].
  destruct (decide (Forall (fun i => 0 < orient (corner vs i) (corner vs (S i)) p) (seq 0 (length vs)))) as [A|A].
  - assert (forall i, 0 < orient (corner vs i) (corner vs (S i)) p) as I.
    { intros i. rewrite Forall_forall in A. specialize (A (i mod length vs)%nat). rewrite corner_mod, next_corner in A by done.
      apply A. apply elem_of_seq. pose proof (Nat.mod_upper_bound i (length vs)). lia. }
    rewrite (strict_inside vs L SC p I), <- inj_1 in Z. apply inj_inj in Z as <-. by split.
  - assert (exists i, orient (corner vs i) (corner vs (S i)) p <= 0) as (i & I).
    { apply not_Forall_Exists in A; [|apply _]. apply Exists_exists in A as (i & _ & I). exists i. apply Qcnot_lt_le. exact I. }
    rewrite (convex_outside p vs i), <- inj_0 in Z; [|by apply strict_convex|by apply strict_sides|done..].
    apply inj_inj in Z as <-. split; [done|]. intros H. specialize (H i). clear - H I. qlra.
Qed.

(** ** Agreement with the test for convex polygons *)
Lemma strict_left_turning vs : (2 < length vs)%nat -> Forall flat vs -> strictly_convex vs -> left_turning vs.
Proof.
  intros L F SC. split; [done|]. split; [intros i; by apply strict_sides|]. intros i. left.
  apply strict_left; [done..|by apply next2_apart|by apply next_apart].
Qed.
Lemma border_unique vs p r s : (2 < length vs)%nat -> strictly_convex vs -> border_answer p vs r -> border_answer p vs s -> r = s.
Proof.
  intros L SC.
  assert (forall i j : nat, (i < length vs)%nat -> (j < length vs)%nat -> i mod length vs = j mod length vs -> i = j)%nat as MOD.
  { intros i j I J. by rewrite !Nat.mod_small. }
  assert (forall c a b q, on_line a b c q -> q = a -> a <> b -> 0 < c -> False) as NOT0.
  { clear. intros c a b q -> E N C. apply N. destruct a as [[ax ay] az], b as [[bx by'] bz]. cbn [fst snd] in E. injection E as E1 E2 E3.
    f_equal; [f_equal|]; clear N; qnra. }
  assert (forall c a b q, on_line a b c q -> q = b -> a <> b -> c < 1 -> False) as NOT1.
  { clear. intros c a b q -> E N C. apply N. destruct a as [[ax ay] az], b as [[bx by'] bz]. cbn [fst snd] in E. injection E as E1 E2 E3.
    f_equal; [f_equal|]; clear N; qnra. }
  assert (forall i j c, (i < length vs)%nat -> (j < length vs)%nat -> 0 < c -> c < 1 -> on_line (corner vs i) (corner vs (S i)) c p ->
    p = corner vs j -> False) as EV.
  { intros i j c I J C0 C1 O ->. pose proof (on_line_orient _ _ _ _ O) as Z. destruct (strict_zero vs L SC i j Z) as [E|E].
    - apply (NOT0 _ _ _ _ O); [by apply same_corner|by apply strict_sides|done].
    - apply (NOT1 _ _ _ _ O); [by apply same_corner|by apply strict_sides|done]. }
  destruct r as [|i|i|]; try done; destruct s as [|j|j|]; try done.
  - intros (I & c & C0 & C1 & O) (J & d & D0 & D1 & Q). f_equal. destruct (decide (i = j)) as [|N]; [done|exfalso].
    pose proof (on_line_orient _ _ _ _ O) as Z. rewrite (orient_combination _ _ _ _ _ _ Q) in Z.
    pose proof (strict_convex vs L SC i j) as P1. pose proof (strict_convex vs L SC i (S j)) as P2.
    assert (orient (corner vs i) (corner vs (S i)) (corner vs j) = 0) as Z1.
    { generalize dependent (orient (corner vs i) (corner vs (S i)) (corner vs j)). generalize dependent (orient (corner vs i) (corner vs (S i)) (corner vs (S j))).
      intros v V u Z U. assert (0 <= d * v) by (clear - D0 V; qnra). clear - Z U H D1. qnra. }
    assert (orient (corner vs i) (corner vs (S i)) (corner vs (S j)) = 0) as Z2.
    { rewrite Z1 in Z. generalize dependent (orient (corner vs i) (corner vs (S i)) (corner vs (S j))). intros v V U. clear - V U D0. qnra. }
    destruct (strict_zero vs L SC _ _ Z1) as [E1|E1]; [apply N; symmetry; by apply MOD|].
    destruct (strict_zero vs L SC _ _ Z2) as [E2|E2].
    + apply (next2_apart vs L i). transitivity (S j mod length vs)%nat; [|done]. rewrite <- (succ_mod (S i)), <- E1, succ_mod by lia. done.
    + apply (next_apart vs L (S i)). transitivity (S j mod length vs)%nat; [|done]. rewrite <- (succ_mod (S i)), <- E1, succ_mod by lia. done.
  - intros (I & c & C0 & C1 & O) (J & E). by destruct (EV i j c).
  - intros (J & E) (I & c & C0 & C1 & O). by destruct (EV j i c).
  - intros (I & E) (J & E'). f_equal. apply MOD; [done..|]. apply strict_inj; [done..|]. by rewrite <- E.
Qed.

Lemma ray_agrees g p vs : PointSpec.exact g -> flat p -> (2 < length vs)%nat -> Forall flat vs -> strictly_convex vs ->
  PointPolygonPosition_RayCasting g p vs = PointPolygonPosition g p vs.
Proof.
  intros X P L F SC. pose proof (strict_convex vs L SC) as CV.
  destruct (ray_convex g p vs X P L F SC) as (r & -> & R).
  destruct (polygon_convex g p vs X P L (strict_left_turning vs L F SC) CV) as (s & -> & S & OUT & INS). f_equal.
  assert (forall q, ray_position_spec p vs (forall i, 0 < orient (corner vs i) (corner vs (Datatypes.S i)) p) q -> q <> Inside -> q <> Outside -> border_answer p vs q) as K1 by (intros []; done).
  assert (border_answer p vs s \/ s = Inside \/ s = Outside) as [BS|NS].
  { destruct s; auto. }
  - pose proof BS as BO. apply border_on in BO. assert (border_answer p vs r) as BR.
    { apply K1; [done|intros ->; by destruct R|intros ->; by destruct R]. }
    by apply (border_unique vs p).
  - assert (~ border_answer p vs r) as BR.
    { intros B. destruct (convex_border vs p r CV) as [B1 (i & B2)].
      - by destruct r.
      - intros ->. done.
      - intros ->. done.
      - destruct NS as [N|N].
        + pose proof (proj1 INS N i) as Q. rewrite B2 in Q. clear - Q. qlra.
        + destruct (proj1 OUT N) as (j & J). specialize (B1 j). clear - J B1. qlra. }
    assert (r = Inside \/ r = Outside) as RR by (destruct r; auto; by destruct BR).
    destruct RR as [-> | ->].
    + symmetry. apply INS. apply R.
    + destruct NS as [-> | ->]; [|done]. destruct R as [_ []]. by apply INS.
Qed.
