From Coq Require Import QArith Qcanon.
From Verif Require Import Base BaseProof QcTac FillModel GeoModel MapModel PointModel PointSpec PointProof PolyModel PolySpec PolyProof RayModel RaySpec.
From Coq Require Import ZifyBool ZifyNat.
Local Open Scope Qc_scope.

(** ** Signed crossings of the ray to the right of [p] *)
Definition wind (p a b : vec3) : Qc :=
  if qlt a.1.2 p.1.2 && qle p.1.2 b.1.2 && qlt 0 (orient a b p) then 1
  else if qlt b.1.2 p.1.2 && qle p.1.2 a.1.2 && qlt (orient a b p) 0 then - (1) else 0.

Lemma orient_swap a b p : orient b a p = - orient a b p.
Proof. unfold orient. ring. Qed.
Lemma wind_cases p a b :
  (a.1.2 < p.1.2 /\ p.1.2 <= b.1.2 /\ 0 < orient a b p /\ wind p a b = 1) \/
  (b.1.2 < p.1.2 /\ p.1.2 <= a.1.2 /\ orient a b p < 0 /\ wind p a b = - (1)) \/
  (~ (a.1.2 < p.1.2 /\ p.1.2 <= b.1.2 /\ 0 < orient a b p) /\ ~ (b.1.2 < p.1.2 /\ p.1.2 <= a.1.2 /\ orient a b p < 0) /\ wind p a b = 0).
Proof.
  unfold wind. destruct (qlt_spec a.1.2 p.1.2), (qle_spec p.1.2 b.1.2), (qlt_spec 0 (orient a b p)); cbn [andb]; try tauto;
  destruct (qlt_spec b.1.2 p.1.2), (qle_spec p.1.2 a.1.2), (qlt_spec (orient a b p) 0); cbn [andb]; tauto.
Qed.
Lemma wind_antisymmetric p : antisymmetric (wind p).
Proof.
  intros a b. pose proof (orient_swap a b p) as S.
  destruct (wind_cases p a b) as [(A & B & O & ->)|[(A & B & O & ->)|(N1 & N2 & ->)]];
  destruct (wind_cases p b a) as [(A' & B' & O' & ->)|[(A' & B' & O' & ->)|(N1' & N2' & ->)]]; rewrite S in *; try ring; exfalso.
  - clear S. qlra.
  - apply N2'. split_and!; [done..|]. clear S. qlra.
  - clear S. qlra.
  - apply N1'. split_and!; [done..|]. clear S. qlra.
  - apply N2. split_and!; [done..|]. clear S. qlra.
  - apply N1. split_and!; [done..|]. clear S. qlra.
Qed.

(** ** One triangle *)
Lemma side_facts p a b : ~ on_side p a b ->
  (a.1.2 < p.1.2 -> p.1.2 <= b.1.2 -> orient a b p <> 0) /\ (b.1.2 < p.1.2 -> p.1.2 <= a.1.2 -> orient a b p <> 0) /\
  (a.1.2 = p.1.2 -> b.1.2 = p.1.2 -> ~ (a.1.1 <= p.1.1 /\ p.1.1 <= b.1.1) /\ ~ (b.1.1 <= p.1.1 /\ p.1.1 <= a.1.1)).
Proof.
  intros N.
  assert (forall a b : vec3, a.1.2 <> b.1.2 -> 0 <= (p.1.2 - a.1.2) / (b.1.2 - a.1.2) -> (p.1.2 - a.1.2) / (b.1.2 - a.1.2) <= 1 ->
    orient a b p = 0 -> on_side p a b) as K.
  { clear. intros a b D L U O. exists ((p.1.2 - a.1.2) / (b.1.2 - a.1.2)). split_and!; [done..| |].
    - unfold orient in O. assert (b.1.2 - a.1.2 <> 0) as Z by (intros Z; apply D; qlra).
      replace p.1.1 with (a.1.1 + (p.1.1 - a.1.1)) at 1 by ring. f_equal.
      assert ((b.1.2 - a.1.2) * (p.1.1 - a.1.1) = (b.1.1 - a.1.1) * (p.1.2 - a.1.2)) as M by qlra.
      transitivity ((b.1.2 - a.1.2) * (p.1.1 - a.1.1) / (b.1.2 - a.1.2)); [by field|]. rewrite M. by field.
    - field. intros Z. apply D. qlra. }
  assert (forall x d : Qc, 0 < d -> 0 <= x -> x <= d -> 0 <= x / d /\ x / d <= 1) as Q.
  { clear. intros x d D L U. assert (d <> 0) as Z by (intros ->; qlra). set (c := x / d). assert (x = c * d) as E by (unfold c; by field).
    clearbody c. subst x. split; qnra. }
  split_and!.
  - intros A B O. apply N. destruct (Q (p.1.2 - a.1.2) (b.1.2 - a.1.2)); [qlra..|]. apply K; [intros E; rewrite E in A; qlra|done..].
  - intros A B O. apply N. destruct (Q (a.1.2 - p.1.2) (a.1.2 - b.1.2)); [qlra..|].
    assert ((p.1.2 - a.1.2) / (b.1.2 - a.1.2) = (a.1.2 - p.1.2) / (a.1.2 - b.1.2)) as E by (field; split; intros E; qlra).
    apply K; [intros Y; rewrite Y in B; qlra|by rewrite E..|done].
  - intros A B. split; intros [L U]; apply N.
    + destruct (decide (a.1.1 = b.1.1)) as [E|E].
      * exists 0. split_and!; [done..| |]; qlra.
      * destruct (Q (p.1.1 - a.1.1) (b.1.1 - a.1.1)) as [X Y]; [|qlra..|].
        { destruct (Qc_dec a.1.1 b.1.1) as [[|]|]; [qlra|qlra|done]. }
        exists ((p.1.1 - a.1.1) / (b.1.1 - a.1.1)). split_and!; [done..| |].
        -- field. intros Z. apply E. qlra.
        -- rewrite A, B. ring.
    + destruct (decide (a.1.1 = b.1.1)) as [E|E].
      * exists 0. split_and!; [done..| |]; qlra.
      * destruct (Q (a.1.1 - p.1.1) (a.1.1 - b.1.1)) as [X Y]; [|qlra..|].
        { destruct (Qc_dec b.1.1 a.1.1) as [[|]|]; [qlra|qlra|done]. }
        exists ((a.1.1 - p.1.1) / (a.1.1 - b.1.1)). split_and!; [done..| |].
        -- field. intros Z. apply E. qlra.
        -- rewrite A, B. ring.
Qed.

(** What [wind] is when it is known on which side of the ray the ends are. *)
Lemma wind_up p a b : a.1.2 < p.1.2 -> p.1.2 <= b.1.2 -> wind p a b = if qlt 0 (orient a b p) then 1 else 0.
Proof.
  intros A B. destruct (wind_cases p a b) as [(_ & _ & O & ->)|[(A' & _)|(N & _ & ->)]].
  - by destruct (qlt_spec 0 (orient a b p)).
  - exfalso. qlra.
  - destruct (qlt_spec 0 (orient a b p)); [|done]. by destruct N.
Qed.
Lemma wind_down p a b : b.1.2 < p.1.2 -> p.1.2 <= a.1.2 -> wind p a b = if qlt (orient a b p) 0 then - (1) else 0.
Proof.
  intros A B. destruct (wind_cases p a b) as [(A' & _)|[(_ & _ & O & ->)|(_ & N & ->)]].
  - exfalso. qlra.
  - by destruct (qlt_spec (orient a b p) 0).
  - destruct (qlt_spec (orient a b p) 0); [|done]. by destruct N.
Qed.
Lemma wind_below p a b : a.1.2 < p.1.2 -> b.1.2 < p.1.2 -> wind p a b = 0.
Proof. intros A B. destruct (wind_cases p a b) as [(_ & A' & _)|[(_ & A' & _)|(_ & _ & ->)]]; [exfalso; qlra..|done]. Qed.
Lemma wind_above p a b : p.1.2 <= a.1.2 -> p.1.2 <= b.1.2 -> wind p a b = 0.
Proof. intros A B. destruct (wind_cases p a b) as [(A' & _ & _)|[(A' & _ & _)|(_ & _ & ->)]]; [exfalso; qlra..|done]. Qed.

Definition inj (z : Z) : Qc := Q2Qc (inject_Z z).
Lemma inj_add x y : inj (x + y) = inj x + inj y.
Proof. unfold inj. apply Qc_is_canon. rewrite this_plus, !this_Q2Qc. by rewrite inject_Z_plus. Qed.
Lemma inj_opp x : inj (- x) = - inj x.
Proof. unfold inj. apply Qc_is_canon. rewrite this_opp, !this_Q2Qc. by rewrite inject_Z_opp. Qed.
Lemma inj_inj x y : inj x = inj y -> x = y.
Proof. unfold inj. rewrite this_eq, !this_Q2Qc. apply inject_Z_injective. Qed.
Lemma inj_0 : inj 0 = 0.
Proof. apply Qc_is_canon. done. Qed.
Lemma inj_1 : inj 1 = 1.
Proof. apply Qc_is_canon. done. Qed.

Definition pos3 p (t : triangle) : Prop := 0 < orient t.1.1 t.1.2 p /\ 0 < orient t.1.2 t.2 p /\ 0 < orient t.2 t.1.1 p.
Definition neg3 p (t : triangle) : Prop := orient t.1.1 t.1.2 p < 0 /\ orient t.1.2 t.2 p < 0 /\ orient t.2 t.1.1 p < 0.
Definition triangle_wind (p : vec3) (t : triangle) (w : Qc) : Prop :=
  (w = 1 /\ pos3 p t) \/ (w = - (1) /\ neg3 p t) \/ (w = 0 /\ ~ in_triangle p t).
Lemma triangle_wind_rotate p a b c w : triangle_wind p (b, c, a) w -> triangle_wind p (a, b, c) w.
Proof. unfold triangle_wind, in_triangle, pos3, neg3. cbn [fst snd]. tauto. Qed.
Lemma around_rotate f a b c : around f (a, b, c) = around f (b, c, a).
Proof. unfold around. cbn [fst snd]. ring. Qed.

Lemma orient_identity p a b c :
  orient b c p * (a.1.2 - p.1.2) + orient c a p * (b.1.2 - p.1.2) + orient a b p * (c.1.2 - p.1.2) = 0.
Proof. unfold orient. ring. Qed.
Lemma orient_level p a b : orient a b p = (a.1.1 - p.1.1) * (b.1.2 - p.1.2) - (b.1.1 - p.1.1) * (a.1.2 - p.1.2).
Proof. unfold orient. ring. Qed.

Ltac no_in := right; right; split; [ring|]; unfold in_triangle; cbn [fst snd]; intros [(X1 & X2 & X3)|(X1 & X2 & X3)].

(** One vertex below, two not below. *)
Lemma triangle_one_below p a b c : off_triangle p (a, b, c) -> a.1.2 < p.1.2 -> p.1.2 <= b.1.2 -> p.1.2 <= c.1.2 ->
  triangle_wind p (a, b, c) (around (wind p) (a, b, c)).
Proof.
  intros (O1 & O2 & O3) A B C. cbn [fst snd] in *. unfold around. cbn [fst snd].
  rewrite (wind_up p a b), (wind_above p b c), (wind_down p c a) by done.
  pose proof (orient_identity p a b c) as I.
  destruct (side_facts p a b O1) as (N1 & _ & _). specialize (N1 A B).
  destruct (side_facts p c a O3) as (_ & N3 & _). specialize (N3 A C).
  destruct (side_facts p b c O2) as (_ & _ & H).
  pose proof (orient_level p a b) as L1. pose proof (orient_level p c a) as L3.
  clear O1 O2 O3.
  assert (forall x, x <> 0 -> ~ 0 < x -> x < 0) as NZ.
  { clear. intros x Z P. destruct (Qc_dec x 0) as [[|]|]; done. }
  set (o1 := orient a b p) in *. set (o2 := orient b c p) in *. set (o3 := orient c a p) in *.
  destruct (qlt_spec 0 o1) as [P1|P1], (qlt_spec o3 0) as [P3|P3].
  - no_in; fold o1 in X1; fold o3 in X3; [clear - X3 P3|clear - X1 P1]; qlra.
  - left. split; [ring|]. unfold pos3. cbn [fst snd]. fold o1 o2 o3.
    assert (0 < o3) as P3'. { destruct (Qc_dec o3 0) as [[|]|]; done. }
    split_and!; [done| |done].
    destruct (qlt_spec 0 o2) as [|P2]; [done|exfalso].
    assert (0 <= o2 * (a.1.2 - p.1.2)) as T1 by (clear - P2 A; qnra).
    assert (0 <= o3 * (b.1.2 - p.1.2)) as T2 by (clear - P3' B; qnra).
    assert (0 <= o1 * (c.1.2 - p.1.2)) as T3 by (clear - P1 C; qnra).
    assert (b.1.2 = p.1.2) as EB by (clear - T1 T2 T3 I P3' B; qnra).
    assert (c.1.2 = p.1.2) as EC by (clear - T1 T2 T3 I P1 C; qnra).
    destruct (H EB EC) as [_ []]. rewrite EB in L1. rewrite EC in L3. split.
    + clear - L3 P3' A. qnra.
    + clear - L1 P1 A. qnra.
  - right. left. split; [ring|]. unfold neg3. cbn [fst snd]. fold o1 o2 o3.
    assert (o1 < 0) as P1' by (by apply NZ).
    split_and!; [done| |done].
    destruct (qlt_spec o2 0) as [|P2]; [done|exfalso].
    assert (o2 * (a.1.2 - p.1.2) <= 0) as T1 by (clear - P2 A; qnra).
    assert (o3 * (b.1.2 - p.1.2) <= 0) as T2 by (clear - P3 B; qnra).
    assert (o1 * (c.1.2 - p.1.2) <= 0) as T3 by (clear - P1' C; qnra).
    assert (b.1.2 = p.1.2) as EB by (clear - T1 T2 T3 I P3 B; qnra).
    assert (c.1.2 = p.1.2) as EC by (clear - T1 T2 T3 I P1' C; qnra).
    destruct (H EB EC) as [[] _]. rewrite EB in L1. rewrite EC in L3. split.
    + clear - L1 P1' A. qnra.
    + clear - L3 P3 A. qnra.
  - no_in; fold o1 in X1; fold o3 in X3; [clear - X1 P1|clear - X3 P3]; qlra.
Qed.

(** Two vertices below, one not below. *)
Lemma triangle_two_below p a b c : off_triangle p (a, b, c) -> p.1.2 <= a.1.2 -> b.1.2 < p.1.2 -> c.1.2 < p.1.2 ->
  triangle_wind p (a, b, c) (around (wind p) (a, b, c)).
Proof.
  intros (O1 & O2 & O3) A B C. cbn [fst snd] in *. unfold around. cbn [fst snd].
  rewrite (wind_down p a b), (wind_below p b c), (wind_up p c a) by done.
  pose proof (orient_identity p a b c) as I.
  destruct (side_facts p a b O1) as (_ & N1 & _). specialize (N1 B A).
  destruct (side_facts p c a O3) as (N3 & _ & _). specialize (N3 C A).
  clear O1 O2 O3.
  assert (forall x, x <> 0 -> ~ 0 < x -> x < 0) as NZ.
  { clear. intros x Z P. destruct (Qc_dec x 0) as [[|]|]; done. }
  set (o1 := orient a b p) in *. set (o2 := orient b c p) in *. set (o3 := orient c a p) in *.
  destruct (qlt_spec o1 0) as [P1|P1], (qlt_spec 0 o3) as [P3|P3].
  - no_in; fold o1 in X1; fold o3 in X3; [clear - X1 P1|clear - X3 P3]; qlra.
  - right. left. split; [ring|]. unfold neg3. cbn [fst snd]. fold o1 o2 o3.
    assert (o3 < 0) as P3' by (by apply NZ). split_and!; [done| |done].
    assert (0 < o3 * (b.1.2 - p.1.2)) as T2 by (clear - P3' B; qnra).
    assert (0 < o1 * (c.1.2 - p.1.2)) as T3 by (clear - P1 C; qnra).
    destruct (qlt_spec o2 0) as [|P2]; [done|exfalso].
    assert (0 <= o2 * (a.1.2 - p.1.2)) as T1 by (clear - P2 A; qnra). clear - I T1 T2 T3. qlra.
  - left. split; [ring|]. unfold pos3. cbn [fst snd]. fold o1 o2 o3.
    assert (0 < o1) as P1'. { destruct (Qc_dec o1 0) as [[|]|]; done. } split_and!; [done| |done].
    assert (o3 * (b.1.2 - p.1.2) < 0) as T2 by (clear - P3 B; qnra).
    assert (o1 * (c.1.2 - p.1.2) < 0) as T3 by (clear - P1' C; qnra).
    destruct (qlt_spec 0 o2) as [|P2]; [done|exfalso].
    assert (o2 * (a.1.2 - p.1.2) <= 0) as T1 by (clear - P2 A; qnra). clear - I T1 T2 T3. qlra.
  - no_in; fold o1 in X1; fold o3 in X3; [clear - X3 P3 N3|clear - X1 P1 N1]; [|qlra].
    apply P3. done.
Qed.

Lemma off_rotate p a b c : off_triangle p (a, b, c) -> off_triangle p (b, c, a).
Proof. unfold off_triangle. cbn [fst snd]. tauto. Qed.
Lemma around_triangle p t : off_triangle p t -> triangle_wind p t (around (wind p) t).
Proof.
  destruct t as [[a b] c]. intros O. pose proof (off_rotate _ _ _ _ O) as O'. pose proof (off_rotate _ _ _ _ O') as O''.
  destruct (Qclt_le_dec a.1.2 p.1.2) as [A|A], (Qclt_le_dec b.1.2 p.1.2) as [B|B], (Qclt_le_dec c.1.2 p.1.2) as [C|C].
  - unfold around. cbn [fst snd]. rewrite !wind_below by done. pose proof (orient_identity p a b c) as I. clear O O' O''.
    set (o1 := orient a b p) in *. set (o2 := orient b c p) in *. set (o3 := orient c a p) in *. no_in.
    + fold o1 o2 o3 in X1, X2, X3. assert (o2 * (a.1.2 - p.1.2) < 0) by (clear - X2 A; qnra).
      assert (o3 * (b.1.2 - p.1.2) < 0) by (clear - X3 B; qnra). assert (o1 * (c.1.2 - p.1.2) < 0) by (clear - X1 C; qnra). qlra.
    + fold o1 o2 o3 in X1, X2, X3. assert (0 < o2 * (a.1.2 - p.1.2)) by (clear - X2 A; qnra).
      assert (0 < o3 * (b.1.2 - p.1.2)) by (clear - X3 B; qnra). assert (0 < o1 * (c.1.2 - p.1.2)) by (clear - X1 C; qnra). qlra.
  - apply triangle_wind_rotate, triangle_wind_rotate. rewrite around_rotate, around_rotate. by apply triangle_two_below.
  - apply triangle_wind_rotate. rewrite around_rotate. by apply triangle_two_below.
  - by apply triangle_one_below.
  - by apply triangle_two_below.
  - apply triangle_wind_rotate. rewrite around_rotate. by apply triangle_one_below.
  - apply triangle_wind_rotate, triangle_wind_rotate. rewrite around_rotate, around_rotate. by apply triangle_one_below.
  - unfold around. cbn [fst snd]. rewrite !wind_above by done. pose proof (orient_identity p a b c) as I. clear O O' O''.
    pose proof (orient_level p a b) as L.
    set (o1 := orient a b p) in *. set (o2 := orient b c p) in *. set (o3 := orient c a p) in *. no_in.
    + fold o1 o2 o3 in X1, X2, X3. assert (0 <= o2 * (a.1.2 - p.1.2)) as T1 by (clear - X2 A; qnra).
      assert (0 <= o3 * (b.1.2 - p.1.2)) as T2 by (clear - X3 B; qnra). assert (0 <= o1 * (c.1.2 - p.1.2)) as T3 by (clear - X1 C; qnra).
      assert (a.1.2 = p.1.2) as EA by (clear - T1 T2 T3 I X2 A; qnra).
      assert (b.1.2 = p.1.2) as EB by (clear - T1 T2 T3 I X3 B; qnra). rewrite EA, EB in L. clear - L X1. qlra.
    + fold o1 o2 o3 in X1, X2, X3. assert (o2 * (a.1.2 - p.1.2) <= 0) as T1 by (clear - X2 A; qnra).
      assert (o3 * (b.1.2 - p.1.2) <= 0) as T2 by (clear - X3 B; qnra). assert (o1 * (c.1.2 - p.1.2) <= 0) as T3 by (clear - X1 C; qnra).
      assert (a.1.2 = p.1.2) as EA by (clear - T1 T2 T3 I X2 A; qnra).
      assert (b.1.2 = p.1.2) as EB by (clear - T1 T2 T3 I X3 B; qnra). rewrite EA, EB in L. clear - L X1. qlra.
Qed.

Lemma sum_triangles p ts : Forall (off_triangle p) ts ->
  exists z, sum_of (around (wind p)) ts = inj z /\ Z.odd z = Nat.odd (length (filter (in_triangle p) ts)).
Proof.
  induction 1 as [|t ts O _ (z & E & P)]; [by exists 0%Z|]. rewrite sum_of_cons, E, filter_cons.
  destruct (around_triangle p t O) as [(-> & S)|[(-> & S)|(-> & S)]].
  - exists (1 + z)%Z. rewrite inj_add, inj_1. split; [done|]. rewrite decide_True by (by left). cbn [length].
    rewrite Z.odd_add, P, Nat.odd_succ, <- Nat.negb_odd. by destruct (Nat.odd _).
  - exists (- (1) + z)%Z. rewrite inj_add, (inj_opp 1), inj_1. split; [done|]. rewrite decide_True by (by right). cbn [length].
    rewrite Z.odd_add, P, Nat.odd_succ, <- Nat.negb_odd. by destruct (Nat.odd _).
  - exists z. split; [ring|]. by rewrite decide_False.
Qed.

(** ** One turn of the loop *)
Lemma side_coordinate p a b c : p.1.2 = a.1.2 + c * (b.1.2 - a.1.2) -> b.1.2 - a.1.2 <> 0 -> on_side p a b ->
  0 <= c /\ c <= 1 /\ p.1.1 = a.1.1 + c * (b.1.1 - a.1.1).
Proof.
  intros E Z (k & L & U & X & Y).
  assert (k = c) as <-; [|done].
  assert ((k - c) * (b.1.2 - a.1.2) = 0) as M by (rewrite E in Y; clear - Y; qlra).
  apply Qcmult_integral in M as [M|M]; [clear - M; qlra|done].
Qed.
Lemma zero_exact g v : PointSpec.exact g -> IsValueZero g v (Tolerance1D g) = qeq v 0.
Proof.
  intros E. destruct (exact_tolerance g E) as (-> & _). unfold IsValueZero. rewrite compare_exact by done.
  destruct (qeq v 0); [done|]. by destruct (qlt v 0).
Qed.
Lemma greater_exact g a b : PointSpec.exact g -> IsValueGreater g a b (Tolerance1D g) = qlt b a.
Proof.
  intros E. destruct (exact_tolerance g E) as (-> & _). unfold IsValueGreater. rewrite compare_exact by done.
  destruct (qeq_spec b a) as [->|N]; [by destruct (qlt_spec a a) as [X|X]; [qlra|]|]. by destruct (qlt b a).
Qed.

Definition turn_spec (p o e : vec3) (r : ray_turn) : Prop :=
  match r with
  | RayMiss => ~ on_side p o e /\ wind p o e = 0
  | RayHit => ~ on_side p o e /\ (wind p o e = 1 \/ wind p o e = - (1))
  | RayOrigin => p = o
  | RayInside => exists c, 0 < c /\ c < 1 /\ on_line o e c p
  | RayEnd => p = e
  end.

Lemma flat_on_line p o e c : flat p -> flat o -> flat e -> p.1.1 = o.1.1 + c * (e.1.1 - o.1.1) -> p.1.2 = o.1.2 + c * (e.1.2 - o.1.2) ->
  on_line o e c p.
Proof.
  unfold flat, on_line. destruct p as [[px py] pz], o as [[ox oy] oz], e as [[ex ey] ez]. cbn [fst snd].
  intros -> -> -> -> ->. f_equal. ring.
Qed.

Lemma ray_edge_exact g p o e : PointSpec.exact g -> flat p -> flat o -> flat e -> o <> e ->
  exists r, ray_edge g p o e = Ok r /\ turn_spec p o e r.
Proof.
  intros X P O E N. unfold ray_edge. rewrite !zero_exact, !greater_exact by done.
  assert (forall a b : vec3, (vsub a b).1.1 = a.1.1 - b.1.1 /\ (vsub a b).1.2 = a.1.2 - b.1.2 /\ (vsub a b).2 = a.2 - b.2) as V by done.
  destruct (V e o) as (V1 & V2 & V3). rewrite V1, V2.
  destruct (qeq_spec (e.1.2 - o.1.2) 0) as [Z|Z].
  - assert (e.1.2 = o.1.2) as EY by (clear - Z; qlra).
    assert (wind p o e = 0) as W.
    { destruct (Qclt_le_dec o.1.2 p.1.2); [apply wind_below|apply wind_above]; by rewrite ?EY. }
    destruct (qeq_spec (p.1.2 - o.1.2) 0) as [Y|Y].
    + assert (p.1.2 = o.1.2) as PY by (clear - Y; qlra).
      assert (e.1.1 - o.1.1 <> 0) as D.
      { intros D. apply N. unfold flat in *. destruct o as [[ox oy] oz], e as [[ex ey] ez]. cbn [fst snd] in *.
        f_equal; [f_equal|]; clear - D EY E O; qlra. }
      set (c := vdot (vsub p o) (vsub e o) / norm2 (vsub e o)).
      assert (p.1.1 = o.1.1 + c * (e.1.1 - o.1.1)) as PX.
      { subst c. unfold norm2, vdot. destruct (V p o) as (V1' & V2' & V3'). rewrite V1, V2, V3, V1', V2', V3', Z, Y.
        unfold flat in *. rewrite O, E, P.
        transitivity (o.1.1 + (p.1.1 - o.1.1) * (e.1.1 - o.1.1) / ((e.1.1 - o.1.1) * (e.1.1 - o.1.1)) * (e.1.1 - o.1.1)); [by field|].
        do 4 f_equal; ring. }
      clearbody c.
      assert (~ (0 <= c /\ c <= 1) -> ~ on_side p o e) as OFF.
      { intros K (k & L & U & A & _). apply K. assert ((k - c) * (e.1.1 - o.1.1) = 0) as M by (rewrite PX in A; clear - A; qlra).
        apply Qcmult_integral in M as [M|M]; [|done]. assert (k = c) as <- by (clear - M; qlra). done. }
      assert (on_line o e c p) as LN. { apply flat_on_line; [done..|]. rewrite PY, EY. ring. }
      destruct (coordinate_exact g c X) as (r & -> & R). cbn [mbind outcome_bind].
      destruct r; try done; eexists; (split; [reflexivity|]); cbn.
      * split; [|done]. apply OFF. clear - R. intros [A B]. qlra.
      * subst c. by apply on_line_0 in LN.
      * destruct R. by exists c.
      * subst c. by apply on_line_1 in LN.
      * split; [|done]. apply OFF. clear - R. intros [A B]. qlra.
    + exists RayMiss. split; [done|]. split; [|done]. intros (k & _ & _ & _ & K). rewrite EY in K. apply Y. clear - K. qlra.
  - set (c := (p.1.2 - o.1.2) / (e.1.2 - o.1.2)).
    assert (p.1.2 = o.1.2 + c * (e.1.2 - o.1.2)) as PY by (unfold c; field; done). clearbody c.
    set (d := o.1.1 + c * (e.1.1 - o.1.1) - p.1.1).
    assert (orient o e p = (e.1.2 - o.1.2) * d) as OD by (unfold orient, d; rewrite PY; ring).
    assert (d = 0 -> p.1.1 = o.1.1 + c * (e.1.1 - o.1.1)) as D0 by (unfold d; intros K; clear - K; qlra).
    assert (on_side p o e -> 0 <= c /\ c <= 1 /\ d = 0) as OFF.
    { intros K. destruct (side_coordinate p o e c PY Z K) as (A & B & C). split_and!; [done..|]. unfold d. rewrite C. ring. }
    clearbody d.
    assert (0 < e.1.2 - o.1.2 \/ e.1.2 - o.1.2 < 0) as SG.
    { destruct (Qc_dec (e.1.2 - o.1.2) 0) as [[|]|]; [by right|by left|done]. }
    destruct (coordinate_exact g c X) as (r & -> & R). cbn [mbind outcome_bind].
    assert (c < 0 \/ 1 < c -> turn_spec p o e RayMiss) as MISS.
    { intros K. split; [intros (A & B & _)%OFF; clear - K A B; destruct K; qlra|].
      destruct K as [K|K], SG as [SG|SG].
      - assert (p.1.2 < o.1.2) by (clear - PY K SG; qnra). apply wind_above; clear - H SG; qlra.
      - assert (o.1.2 < p.1.2) by (clear - PY K SG; qnra). apply wind_below; clear - H SG; qlra.
      - assert (e.1.2 < p.1.2) by (clear - PY K SG; qnra). apply wind_below; clear - H SG; qlra.
      - assert (p.1.2 < e.1.2) by (clear - PY K SG; qnra). apply wind_above; clear - H SG; qlra. }
    assert (d < 0 -> turn_spec p o e RayMiss) as LEFT.
    { intros K. split; [intros (_ & _ & A)%OFF; clear - K A; qlra|].
      destruct (wind_cases p o e) as [(A & B & C & _)|[(A & B & C & _)|(_ & _ & ->)]]; [exfalso..|done]; rewrite OD in C.
      - clear - A B C K. assert (0 < e.1.2 - o.1.2) by qlra. qnra.
      - clear - A B C K. assert (e.1.2 - o.1.2 < 0) by qlra. qnra. }
    assert (0 < d -> ~ on_side p o e) as RIGHT by (intros K (_ & _ & A)%OFF; clear - K A; qlra).
    assert (0 < d -> c = 0 -> turn_spec p o e (if qlt e.1.2 p.1.2 then RayHit else RayMiss)) as AT0.
    { intros K C. rewrite C in PY. destruct (qlt_spec e.1.2 p.1.2) as [Q|Q]; (split; [by apply RIGHT|]).
      - right. rewrite wind_down; [|done|clear - PY; qlra]. rewrite OD. destruct (qlt_spec ((e.1.2 - o.1.2) * d) 0) as [|B]; [done|].
        exfalso. assert (e.1.2 - o.1.2 < 0) as T by (clear - PY Q; qlra). clear - T K B. qnra.
      - apply wind_above; [clear - PY|clear - Q]; qlra. }
    assert (0 < d -> c = 1 -> turn_spec p o e (if qlt o.1.2 p.1.2 then RayHit else RayMiss)) as AT1.
    { intros K C. rewrite C in PY. destruct (qlt_spec o.1.2 p.1.2) as [Q|Q]; (split; [by apply RIGHT|]).
      - left. rewrite wind_up; [|done|clear - PY; qlra]. rewrite OD. destruct (qlt_spec 0 ((e.1.2 - o.1.2) * d)) as [|B]; [done|].
        exfalso. assert (0 < e.1.2 - o.1.2) as T by (clear - PY Q; qlra). clear - T K B. qnra.
      - apply wind_above; [clear - Q|clear - PY]; qlra. }
    assert (0 < d -> 0 < c -> c < 1 -> turn_spec p o e RayHit) as AT.
    { intros K C0 C1. split; [by apply RIGHT|]. destruct SG as [SG|SG].
      - left. rewrite wind_up; [|clear - PY C0 SG; qnra|clear - PY C1 SG; qnra]. rewrite OD.
        destruct (qlt_spec 0 ((e.1.2 - o.1.2) * d)) as [|B]; [done|]. exfalso. clear - SG K B. qnra.
      - right. rewrite wind_down; [|clear - PY C1 SG; qnra|clear - PY C0 SG; qnra]. rewrite OD.
        destruct (qlt_spec ((e.1.2 - o.1.2) * d) 0) as [|B]; [done|]. exfalso. clear - SG K B. qnra. }
    assert (forall x : Qc, 1 < x -> 0 < x) as POS1 by (clear; intros; qlra).
    assert (0 < (1 : Qc)) as POS by done.
    clear V V1 V2 V3 OD OFF RIGHT SG.
    destruct r; try done; [by eexists; split; [|apply MISS; left]| | | |by eexists; split; [|apply MISS; right]];
    (destruct (coordinate_exact g d X) as (s & -> & S); cbn [mbind outcome_bind]; destruct s; try done;
     [by eexists; split; [|apply LEFT]|..]).
    + eexists. split; [done|]. apply on_line_0 with e. rewrite <- R. by apply flat_on_line; [..|apply D0|].
    + destruct S. eexists. split; [done|]. by apply AT0.
    + subst d. eexists. split; [done|]. by apply AT0.
    + eexists. split; [done|]. by apply AT0; [apply POS1|].
    + eexists. split; [done|]. destruct R. exists c. split_and!; [done..|]. by apply flat_on_line; [..|apply D0|].
    + destruct S, R. eexists. split; [done|]. by apply AT.
    + subst d. destruct R. eexists. split; [done|]. by apply AT.
    + destruct R. eexists. split; [done|]. by apply AT; [apply POS1|..].
    + eexists. split; [done|]. apply on_line_1 with o. rewrite <- R. by apply flat_on_line; [..|apply D0|].
    + destruct S. eexists. split; [done|]. by apply AT1.
    + subst d. eexists. split; [done|]. by apply AT1.
    + eexists. split; [done|]. by apply AT1; [apply POS1|].
Qed.

(** ** The loop *)
Definition side_wind (p : vec3) (vs : list vec3) (i : nat) : Qc := wind p (corner vs i) (corner vs (S i)).
Definition border_answer (p : vec3) (vs : list vec3) (r : polygon_position) : Prop :=
  match r with BorderEdge _ | BorderVertex _ => polygon_position_spec p vs r | _ => False end.
Lemma ray_loop_exact g p vs is count : PointSpec.exact g -> flat p -> Forall flat vs -> (forall i, corner vs i <> corner vs (S i)) ->
  (forall i, i ∈ is -> (i < length vs)%nat) ->
  exists r, ray_loop g p vs count is = Ok r /\ (border_answer p vs r \/
     ((forall i, i ∈ is -> ~ on_side p (corner vs i) (corner vs (S i))) /\ exists z, sum_of (side_wind p vs) is = inj z /\ r = if xorb (Z.odd z) (Nat.odd count) then Inside else Outside)).
Proof.
  intros X P F D. revert count. induction is as [|v is IH]; intros count B.
  - eexists. split; [done|]. right. split; [by intros i H%elem_of_nil|]. exists 0%Z. split; [done|].
    change (Z.odd 0) with false. cbn [xorb]. assert ((count mod 2 =? 1)%nat = Nat.odd count) as ->; [|by destruct (Nat.odd count)].
    rewrite <- Nat.bit0_mod, Nat.bit0_odd. by destruct (Nat.odd count).
  - cbn [ray_loop]. assert (v < length vs)%nat as V by (apply B; constructor).
    rewrite corner_vnth, corner_next by done.
    destruct (ray_edge_exact g p (corner vs v) (corner vs (S v))) as (t & -> & T); [done..|by apply corner_flat|by apply corner_flat|done|].
    cbn [mbind outcome_bind].
    assert (forall i, i ∈ is -> (i < length vs)%nat) as B' by (intros; apply B; by constructor).
    destruct t.
    + destruct (IH count B') as (r & E & R). exists r. split; [done|]. destruct R as [R|(O & z & Z & R)]; [by left|right].
      destruct T as [T W]. split; [intros i [-> |H]%elem_of_cons; [done|by apply O]|]. exists z. split; [|done].
      rewrite sum_of_cons, Z. unfold side_wind. rewrite W. ring.
    + destruct (IH (S count) B') as (r & E & R). exists r. split; [done|]. destruct R as [R|(O & z & Z & R)]; [by left|right].
      destruct T as [T W]. split; [intros i [-> |H]%elem_of_cons; [done|by apply O]|].
      assert (exists s, wind p (corner vs v) (corner vs (S v)) = inj s /\ Z.odd s = true) as (s & WS & OS).
      { destruct W as [->| ->]; [exists 1%Z|exists (- (1))%Z]; (split; [|done]); by rewrite ?inj_opp, inj_1. }
      exists (s + z)%Z. split; [by rewrite sum_of_cons, Z, inj_add, <- WS|].
      rewrite R, Z.odd_add, OS, Nat.odd_succ, <- Nat.negb_odd. by destruct (Z.odd z), (Nat.odd count).
    + eexists. split; [done|]. left. done.
    + eexists. split; [done|]. left. done.
    + eexists. split; [done|]. left. cbn. split; [apply Nat.mod_upper_bound; lia|]. by rewrite corner_mod, Nat.add_1_r.
Qed.
Lemma closed_sides p vs : sum_of (side_wind p vs) (seq 0 (length vs)) = closed_sum (wind p) vs.
Proof.
  rewrite <- sum_edges_closed. unfold sum_edges. rewrite qsum_fmap.
  assert (forall is, (forall i, i ∈ is -> (i < length vs)%nat) -> sum_of (side_wind p vs) is =
    sum_of (fun v => wind p (vnth vs v) (vnth vs ((v + 1) mod length vs))) is) as K.
  { induction is as [|i is IH]; intros B; [done|]. rewrite !sum_of_cons, IH by (intros; apply B; by constructor). f_equal.
    unfold side_wind. rewrite corner_vnth, corner_next by (apply B; constructor). done. }
  apply K. intros i H%elem_of_seq. lia.
Qed.

Lemma ray_cases g p vs : PointSpec.exact g -> flat p -> proper vs ->
  exists r, PointPolygonPosition_RayCasting g p vs = Ok r /\ (border_answer p vs r \/
     (~ on_border p vs /\ exists z, closed_sum (wind p) vs = inj z /\ r = if Z.odd z then Inside else Outside)).
Proof.
  intros X P (L & F & D). unfold PointPolygonPosition_RayCasting, PointsAre2D. cbn [length Nat.eqb negb require mbind outcome_bind forallb].
  assert (qle (qabs p.2) (cfgTolerance1D g) = true) as ->.
  { destruct X as [_ C]. rewrite C, P. done. }
  cbn [andb]. assert ((2 <? length vs)%nat = true) as -> by (apply Nat.ltb_lt; lia). cbn [andb require mbind outcome_bind].
  destruct (ray_loop_exact g p vs (seq 0 (length vs)) 0 X P F D) as (r & E & R).
  { intros i H%elem_of_seq. lia. }
  exists r. split; [done|]. destruct R as [R|(O & z & Z & R)]; [by left|right]. split.
  - intros (i & I). apply (O (i mod length vs)%nat).
    { apply elem_of_seq. pose proof (Nat.mod_upper_bound i (length vs)). lia. }
    rewrite corner_mod. rewrite <- (corner_mod vs (S (i mod _))).
    replace (S (i mod length vs) mod length vs)%nat with (S i mod length vs)%nat; [by rewrite corner_mod|].
    rewrite <- (Nat.add_1_r (i mod length vs)), <- (Nat.add_1_r i). by rewrite Nat.add_mod_idemp_l by lia.
  - exists z. rewrite <- closed_sides. split; [done|]. cbn in R. by rewrite xorb_false_r in R.
Qed.
Lemma border_on p vs r : border_answer p vs r -> on_border p vs.
Proof.
  destruct r as [|i|i|]; unfold border_answer, polygon_position_spec; try done.
  - intros (_ & c & A & B & L). unfold on_line in L. exists i, c. rewrite L. split_and!; [clear - A; qlra|clear - B; qlra|reflexivity..].
  - intros (_ & L). exists i, 0. rewrite L. split_and!; [done|done|ring..].
Qed.
Lemma ray_triangles g p vs ts : PointSpec.exact g -> flat p -> proper vs -> closed_sum (wind p) vs = sum_of (around (wind p)) ts ->
  Forall (off_triangle p) ts ->
  exists r, PointPolygonPosition_RayCasting g p vs = Ok r /\ ray_position_spec p vs (Nat.Odd (length (filter (in_triangle p) ts))) r.
Proof.
  intros X P V C O. destruct (ray_cases g p vs X P V) as (r & E & R). exists r. split; [done|].
  destruct R as [R|(N & z & Z & ->)]; [by destruct r|].
  destruct (sum_triangles p ts O) as (z' & Z' & OD). rewrite C, Z' in Z. apply inj_inj in Z as ->.
  rewrite OD. destruct (Nat.odd _) eqn:K; cbn; (split; [done|]).
  - by apply Nat.odd_spec.
  - rewrite <- Nat.odd_spec. congruence.
Qed.
