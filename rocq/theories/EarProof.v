(** * Proofs about ear clipping. *)
From Coq Require Import QArith Qcanon.
From Verif Require Import Base QcTac FillModel GeoModel MapModel PointModel PointSpec PointProof PolyModel PolySpec PolyProof TriProof.
Local Open Scope Qc_scope.

(** ** Dropping the straight vertices *)

Lemma corners_filter vs :
  corners vs = corner vs <$> filter (real (corner vs) (length vs)) (seq 0 (length vs)).
Proof. done. Qed.
Lemma filter_sublist {A} (P : A -> Prop) `{!forall x, Decision (P x)} (l : list A) : filter P l `sublist_of` l.
Proof. induction l as [|a l IH]; [done|]. rewrite filter_cons. destruct (decide (P a)); by constructor. Qed.
Lemma sublist_nodup {A} (l m : list A) : l `sublist_of` m -> NoDup m -> NoDup l.
Proof.
  induction 1 as [|x l m H IH|x l m H IH]; intros N; [done|..]; apply NoDup_cons in N; destruct N as [N1 N2].
  - constructor; [|by apply IH]. intros I. apply N1. eapply elem_of_submseteq; [done|by apply sublist_submseteq].
  - by apply IH.
Qed.
Lemma sublist_forall {A} (P : A -> Prop) (l m : list A) : l `sublist_of` m -> Forall P m -> Forall P l.
Proof.
  induction 1 as [|x l m H IH|x l m H IH]; intros N; [done|..]; apply Forall_cons in N; destruct N as [N1 N2]; [constructor; auto|auto].
Qed.
Lemma corners_sublist vs : corners vs `sublist_of` vs.
Proof.
  unfold corners. rewrite (corner_all vs) at 3. apply fmap_sublist, filter_sublist.
Qed.
Lemma corner_distinct vs i j : NoDup vs -> (0 < length vs)%nat -> (i mod length vs <> j mod length vs)%nat -> corner vs i <> corner vs j.
Proof.
  intros N L H E. apply H. rewrite <- (corner_mod vs i), <- (corner_mod vs j) in E.
  assert (i mod length vs < length vs /\ j mod length vs < length vs)%nat as [A B] by (split; apply Nat.mod_upper_bound; lia).
  eapply NoDup_lookup; [done|by apply corner_lookup|]. rewrite E. by apply corner_lookup.
Qed.
Lemma mod_next i n : (1 < n)%nat -> (i mod n <> S i mod n)%nat.
Proof.
  intros L E. pose proof (Nat.div_mod i n) as A. pose proof (Nat.div_mod (S i) n) as B. rewrite <- E in B.
  pose proof (Nat.mod_upper_bound i n). assert (n * (S i / n) = n * (i / n) + 1)%nat as C by lia.
  assert (n * (S i / n - i / n) = 1)%nat as D by (rewrite Nat.mul_sub_distr_l; lia).
  apply Nat.mul_eq_1 in D. lia.
Qed.
Lemma corner_next_distinct vs i : NoDup vs -> (1 < length vs)%nat -> corner vs i <> corner vs (S i).
Proof. intros N L. apply corner_distinct; [done|lia|]. by apply mod_next. Qed.
Lemma corners_wedge vs : Forall flat vs -> NoDup vs -> (1 < length vs)%nat -> corners vs <> [] ->
  closed_sum wedge (corners vs) = closed_sum wedge vs.
Proof.
  intros F N L C. rewrite corners_filter. rewrite (corner_all vs) at 5. apply closed_real.
  - intros i. by apply corner_flat.
  - apply corner_periodic.
  - lia.
  - intros i. by apply corner_next_distinct.
  - unfold corners in C. destruct (filter (λ i : nat, ¬ straight vs i) (seq 0 (length vs))) as [|s l] eqn:E; [done|].
    assert (s ∈ filter (λ i : nat, ¬ straight vs i) (seq 0 (length vs))) as H by (rewrite E; left).
    apply elem_of_list_filter in H. destruct H as [R H]. apply elem_of_seq in H. exists s. split; [lia|exact R].
Qed.
Lemma real_copies c n k : (forall i, flat (c i)) -> (forall i, c (i + n)%nat = c i) -> (0 < n)%nat -> (forall i, c i <> c (S i)) ->
  c <$> filter (real c n) (seq 0 (k * n)) = concat (replicate k (c <$> filter (real c n) (seq 0 n))).
Proof.
  intros FL P L D. pose proof (real_per c n FL P L D) as RP.
  assert (forall i m, c <$> filter (real c n) (seq (i + n) m) = c <$> filter (real c n) (seq i m)) as FH.
  { intros i m. revert i. induction m as [|m IH]; intros i; [done|]. cbn [seq]. rewrite !filter_cons.
    change (S (i + n))%nat with (S i + n)%nat.
    destruct (decide (real c n i)) as [Y|Y].
    - rewrite decide_True by (by apply RP). rewrite !fmap_cons, P, IH. done.
    - rewrite decide_False by (by rewrite RP). apply IH. }
  induction k as [|k IH]; [done|]. cbn [replicate concat Nat.mul]. rewrite seq_app, filter_app, fmap_app. f_equal.
  rewrite <- IH. apply (FH 0%nat).
Qed.
Lemma corners_real vs v : Forall flat vs -> NoDup vs -> (1 < length vs)%nat -> (1 < length (corners vs))%nat ->
  let ws := corners vs in orient (corner ws v) (corner ws (S v)) (corner ws (S (S v))) <> 0.
Proof.
  intros F N L L2 ws. set (n := length vs) in *. set (c := corner vs). set (p := length ws).
  assert (NoDup ws) as NW by (eapply sublist_nodup; [apply corners_sublist|done]).
  set (big := filter (real c n) (seq 0 ((v + 3) * n))).
  assert (c <$> big = concat (replicate (v + 3) ws)) as B.
  { unfold big. rewrite real_copies; [unfold ws; rewrite corners_filter; done|intros; by apply corner_flat|apply corner_periodic|lia|intros; by apply corner_next_distinct]. }
  assert (forall j, (j <= S (S v))%nat -> exists x, big !! j = Some x /\ c x = corner ws j) as G.
  { intros j J. assert ((c <$> big) !! j = Some (corner ws j)) as H.
    { rewrite B. apply corner_copies. assert (1 < length ws)%nat by exact L2. nia. }
    rewrite list_lookup_fmap in H. destruct (big !! j) as [x|]; [|done]. injection H as H. eauto. }
  destruct (G v) as (x & X & CX); [lia|]. destruct (G (S v)) as (y & Y & CY); [lia|]. destruct (G (S (S v))) as (z & Z & CZ); [lia|].
  pose proof (filter_seq_next _ _ _ _ _ _ X Y) as (_ & RY & XY & BXY).
  pose proof (filter_seq_next _ _ _ _ _ _ Y Z) as (_ & _ & YZ & BYZ).
  rewrite <- CX, <- CY, <- CZ.
  apply (real_remains c n).
  - intros i. by apply corner_flat.
  - apply corner_periodic.
  - lia.
  - intros i. by apply corner_next_distinct.
  - lia.
  - done.
  - rewrite CX, CY. by apply corner_next_distinct.
  - rewrite CY, CZ. by apply corner_next_distinct.
  - done.
  - done.
Qed.

Lemma unaligned_points g vs : exact g -> Forall flat vs -> (2 < length vs)%nat ->
  UnalignedPoints g vs = Ok (filter (fun i => ~ straight vs i) (seq 0 (length vs))).
Proof.
  intros X F L. unfold UnalignedPoints.
  assert ((1 <? length vs)%nat = true) as -> by (apply Nat.ltb_lt; lia). cbn [require mbind outcome_bind].
  destruct (Nat.eqb_spec (length vs) 2); [lia|]. f_equal.
  assert (forall l, Forall (fun i => i < length vs)%nat l ->
    filter (λ p, PointIsAligned g (vnth vs (if (p =? 0)%nat then (length vs - 1)%nat else (p - 1)%nat)) (vnth vs p)
       (vnth vs ((p + 1) mod length vs)) = false) l = filter (λ i, ¬ straight vs i) l) as Q.
  { induction 1 as [|i l H _ IH]; [done|]. rewrite !filter_cons, IH.
    rewrite corner_next, (corner_vnth vs i) by done.
    assert (vnth vs (if (i =? 0)%nat then (length vs - 1)%nat else (i - 1)%nat) = corner vs (i + length vs - 1)) as ->.
    { destruct (Nat.eqb_spec i 0) as [-> |].
      - rewrite corner_vnth by lia. done.
      - rewrite corner_vnth by lia. rewrite <- corner_periodic. f_equal. lia. }
    pose proof (aligned_orient g (corner vs (i + length vs - 1)) (corner vs i) (corner vs (S i)) X) as A.
    specialize (A ltac:(by apply corner_flat) ltac:(by apply corner_flat) ltac:(by apply corner_flat)).
    unfold straight. destruct (PointIsAligned _ _ _ _).
    - rewrite decide_False by done. rewrite decide_False; [done|]. intros Z. by apply Z, A.
    - rewrite decide_True by done. rewrite decide_True; [done|]. intros Z. by apply A in Z. }
  apply Q. apply Forall_forall. intros i H. apply elem_of_seq in H. lia.
Qed.

(** ** One triangle *)

Lemma triangle_cases (P : vec3 -> vec3 -> vec3 -> Prop) a b c : P a b c -> P b c a -> P c a b ->
  forall i, P (corner [a; b; c] i) (corner [a; b; c] (S i)) (corner [a; b; c] (S (S i))).
Proof.
  intros A B C i.
  assert (forall j, corner [a; b; c] (i + j) = corner [a; b; c] (i mod 3 + j)) as E.
  { intros j. unfold corner. cbn [length]. by rewrite Nat.add_mod_idemp_l. }
  pose proof (E 0%nat) as E0. pose proof (E 1%nat) as E1. pose proof (E 2%nat) as E2.
  rewrite Nat.add_0_r in E0. rewrite Nat.add_1_r in E1. replace (i + 2)%nat with (S (S i)) in E2 by lia.
  rewrite E0, E1, E2. pose proof (Nat.mod_upper_bound i 3 ltac:(lia)) as L.
  destruct (i mod 3)%nat as [|[|[|k]]]; [done|done|done|lia].
Qed.
Lemma orient_rotate a b c : orient b c a = orient a b c.
Proof. unfold orient. ring. Qed.
Lemma orient_rotate2 a b c : orient c a b = orient a b c.
Proof. unfold orient. ring. Qed.
Lemma triangle_left_turning a b c : flat a -> flat b -> flat c -> 0 < orient a b c -> left_turning [a; b; c].
Proof.
  intros A B C O. split; [by repeat constructor|]. split.
  - assert (forall x y z, 0 < orient x y z -> x <> y) as N.
    { intros x y z H ->. assert (orient y y z = 0) as Z by (unfold orient; ring). rewrite Z in H. qlra. }
    apply (triangle_cases (fun x y _ => x <> y)).
    + by apply (N a b c).
    + apply (N b c a). by rewrite orient_rotate.
    + apply (N c a b). by rewrite orient_rotate2.
  - intros i. left. revert i. apply (triangle_cases (fun x y z => 0 < orient x y z)).
    + done.
    + by rewrite orient_rotate.
    + by rewrite orient_rotate2.
Qed.
Lemma triangle_convex a b c : 0 < orient a b c -> convex [a; b; c].
Proof.
  intros O i j. revert i. apply (triangle_cases (fun x y _ => 0 <= orient x y (corner [a; b; c] j))).
  all: unfold corner; pose proof (Nat.mod_upper_bound j 3 ltac:(lia)) as L; cbn [length];
    destruct (j mod 3)%nat as [|[|[|k]]]; [..|lia]; cbn [nth].
  1: replace (orient a b a) with 0 by (unfold orient; ring). 1: qlra.
  1: replace (orient a b b) with 0 by (unfold orient; ring). 1: qlra.
  1: qlra.
  1: rewrite orient_rotate; qlra.
  1: replace (orient b c b) with 0 by (unfold orient; ring). 1: qlra.
  1: replace (orient b c c) with 0 by (unfold orient; ring). 1: qlra.
  1: replace (orient c a c) with 0 by (unfold orient; ring). 2: rewrite orient_rotate2.
  all: try (replace (orient c a a) with 0 by (unfold orient; ring)); try (replace (orient c a c) with 0 by (unfold orient; ring)); qlra.
Qed.
Lemma triangle_outside a b c p : (exists i, orient (corner [a; b; c] i) (corner [a; b; c] (S i)) p < 0) <-> outside (a, b, c) p.
Proof.
  unfold outside. cbn [fst snd]. split.
  - intros [i H]. revert i H. apply (triangle_cases (fun x y _ => orient x y p < 0 -> orient a b p < 0 \/ orient b c p < 0 \/ orient c a p < 0)); tauto.
  - intros [H|[H|H]]; [by exists 0%nat|by exists 1%nat|by exists 2%nat].
Qed.
Lemma inside_triangle g a b c p : exact g -> flat a -> flat b -> flat c -> flat p -> 0 < orient a b c ->
  exists r, IsPointInsidePolygon g p [a; b; c] = Ok r /\ (r = false <-> outside (a, b, c) p).
Proof.
  intros X A B C P O. unfold IsPointInsidePolygon.
  destruct (polygon_convex g p [a; b; c] X P ltac:(cbn; lia) (triangle_left_turning a b c A B C O) (triangle_convex a b c O))
    as (r & E & _ & H & _).
  rewrite E. cbn [mbind outcome_bind]. eexists. split; [done|]. rewrite triangle_outside in H. rewrite <- H.
  destruct (decide (r = Outside)) as [D|D].
  - rewrite bool_decide_eq_true_2 by done. done.
  - rewrite bool_decide_eq_false_2 by done. done.
Qed.
Lemma scale_le (k a b : Qc) : 0 < k -> k * a <= k * b -> a <= b.
Proof.
  intros K H. destruct (Qclt_le_dec b a) as [L|]; [|done]. exfalso.
  assert (0 < k * (a - b)) as Z by (apply times_pos; [done|qlra]). replace (k * (a - b)) with (k * a - k * b) in Z by ring. qlra.
Qed.
Lemma combination_le (m a b c u v w : Qc) : 0 <= u -> 0 <= v -> 0 <= w -> m <= a -> m <= b -> m <= c ->
  (u + v + w) * m <= u * a + v * b + w * c.
Proof.
  intros U V W A B C. pose proof (times_nonneg u (a - m) U ltac:(qlra)) as A'. pose proof (times_nonneg v (b - m) V ltac:(qlra)) as B'.
  pose proof (times_nonneg w (c - m) W ltac:(qlra)) as C'.
  replace (u * (a - m)) with (u * a - u * m) in A' by ring. replace (v * (b - m)) with (v * b - v * m) in B' by ring.
  replace (w * (c - m)) with (w * c - w * m) in C' by ring. replace ((u + v + w) * m) with (u * m + v * m + w * m) by ring. qlra.
Qed.
Lemma combination_ge (m a b c u v w : Qc) : 0 <= u -> 0 <= v -> 0 <= w -> a <= m -> b <= m -> c <= m ->
  u * a + v * b + w * c <= (u + v + w) * m.
Proof.
  intros U V W A B C. pose proof (times_nonneg u (m - a) U ltac:(qlra)) as A'. pose proof (times_nonneg v (m - b) V ltac:(qlra)) as B'.
  pose proof (times_nonneg w (m - c) W ltac:(qlra)) as C'.
  replace (u * (m - a)) with (u * m - u * a) in A' by ring. replace (v * (m - b)) with (v * m - v * b) in B' by ring.
  replace (w * (m - c)) with (w * m - w * c) in C' by ring. replace ((u + v + w) * m) with (u * m + v * m + w * m) by ring. qlra.
Qed.
Lemma triangle_in_box lo hi a b c p : flat a -> flat b -> flat c -> flat p -> 0 < orient a b c ->
  in_box lo hi a -> in_box lo hi b -> in_box lo hi c -> ~ outside (a, b, c) p -> in_box lo hi p.
Proof.
  intros A B C P O (A1 & A2 & A3) (B1 & B2 & B3) (C1 & C2 & C3) N. unfold outside in N. cbn [fst snd] in N.
  assert (0 <= orient a b p) as U by (destruct (Qclt_le_dec (orient a b p) 0); [tauto|done]).
  assert (0 <= orient b c p) as V by (destruct (Qclt_le_dec (orient b c p) 0); [tauto|done]).
  assert (0 <= orient c a p) as W by (destruct (Qclt_le_dec (orient c a p) 0); [tauto|done]).
  assert (orient b c p + orient c a p + orient a b p = orient a b c) as S by (unfold orient; ring).
  assert (orient a b c * p.1.1 = orient b c p * a.1.1 + orient c a p * b.1.1 + orient a b p * c.1.1) as EX by (unfold orient; ring).
  assert (orient a b c * p.1.2 = orient b c p * a.1.2 + orient c a p * b.1.2 + orient a b p * c.1.2) as EY by (unfold orient; ring).
  split; [|split].
  - split; apply (scale_le (orient a b c)); try done; rewrite EX, <- S; [apply combination_le|apply combination_ge]; tauto.
  - split; apply (scale_le (orient a b c)); try done; rewrite EY, <- S; [apply combination_le|apply combination_ge]; tauto.
  - unfold flat in *. rewrite P. rewrite <- A. tauto.
Qed.

(** ** Looking for an ear *)

Lemma no_vertex g vs a b c lo hi skip ovs : exact g -> Forall flat vs -> flat a -> flat b -> flat c -> 0 < orient a b c ->
  PointsBoundingBox [a; b; c] = Ok (lo, hi) ->
  exists r, no_vertex_inside g vs [a; b; c] (lo, hi) skip ovs = Ok r /\
    (r = true <-> forall i, i ∈ ovs -> i ∉ skip -> outside (a, b, c) (vnth vs i)).
Proof.
  intros X F A B C O BB.
  assert (in_box lo hi a /\ in_box lo hi b /\ in_box lo hi c) as (IA & IB & IC).
  { destruct (bounding_box [a; b; c]) as (lo' & hi' & E & H & _); [done|]. rewrite BB in E. injection E as <- <-.
    split_and!; apply H; set_solver. }
  assert (forall i, flat (vnth vs i)) as FV.
  { intros i. unfold vnth. destruct (nth_in_or_default i vs (0, 0, 0)) as [H| ->]; [|done].
    rewrite Forall_forall in F. apply F. by apply elem_of_list_In. }
  induction ovs as [|ov ovs IH]; cbn [no_vertex_inside].
  { exists true. split; [done|]. split; [|done]. intros _ i H. by apply elem_of_nil in H. }
  destruct IH as (r & E & H).
  destruct (decide (ov ∈ skip)) as [D|D].
  { rewrite bool_decide_eq_true_2 by done. exists r. split; [done|]. rewrite H. split; intros K i I.
    - apply elem_of_cons in I. destruct I as [-> |I]; [by intros|by apply K].
    - apply K. by right. }
  rewrite bool_decide_eq_false_2 by done.
  assert (outside (a, b, c) (vnth vs ov) -> (r = true <->
    forall i, i ∈ ov :: ovs -> i ∉ skip -> outside (a, b, c) (vnth vs i))) as Q.
  { intros Y. rewrite H. split; intros K i I.
    - apply elem_of_cons in I. destruct I as [-> |I]; [by intros|by apply K].
    - apply K. by right. }
  destruct (IsPointInBoundingBox g (vnth vs ov) (lo, hi)) eqn:BX; cbn [negb].
  2:{ exists r. split; [done|]. apply Q. destruct (decide (outside (a, b, c) (vnth vs ov))) as [|NO]; [done|].
      apply (triangle_in_box lo hi) in NO; try done. apply (in_bounding_box_exact g _ _ _ X) in NO. congruence. }
  destruct (inside_triangle g a b c (vnth vs ov) X A B C (FV ov) O) as (s & S & HS). rewrite S. cbn [mbind outcome_bind].
  destruct s; cbn [negb].
  - exists false. split; [done|]. split; [done|]. intros K. exfalso.
    assert (outside (a, b, c) (vnth vs ov)) as Y by (apply K; [left|done]). apply HS in Y. done.
  - exists r. split; [done|]. apply Q. by apply HS.
Qed.

Definition ear_at (vs : list vec3) (v : nat) : Prop :=
  let n := length vs in
  let t := (corner vs (v + n - 1), corner vs v, corner vs (S v)) in
  0 < orient t.1.1 t.1.2 t.2 /\
  forall i, (i < n)%nat -> i ∉ [v; previous_of v n; ((v + 1) mod n)%nat] -> outside t (vnth vs i).
Lemma previous_corner vs v : (v < length vs)%nat -> vnth vs (previous_of v (length vs)) = corner vs (v + length vs - 1).
Proof.
  intros L. unfold previous_of. destruct (Nat.eqb_spec v 0) as [-> |].
  - rewrite corner_vnth by lia. done.
  - rewrite corner_vnth by lia. rewrite <- corner_periodic. f_equal. lia.
Qed.
Lemma previous_lt v n : (v < n)%nat -> (previous_of v n < n)%nat.
Proof. unfold previous_of. destruct (Nat.eqb_spec v 0); lia. Qed.
Lemma polar_negative g a b c n1 n2 : exact g -> 0 < n1 -> 0 < n2 -> IsPolarNegative g a b c n1 n2 = true <-> orient a b c < 0.
Proof.
  intros X P1 P2. destruct (exact_tolerance g X) as (T & _ & M).
  unfold IsPolarNegative, norm_zero, quotient_negative. rewrite T, M.
  destruct (qle_spec n1 (0 * 0)) as [L|_]; [qlra|]. destruct (qle_spec n2 (0 * 0)) as [L|_]; [qlra|]. cbn [orb negb andb].
  assert (polar_numerator a b c = orient a b c) as -> by (unfold polar_numerator, orient; ring).
  destruct (qlt_spec (orient a b c) 0) as [L|L]; cbn [andb]; [|split; [done|]; intros; qlra].
  split; [done|]. intros _.
  assert (0 < orient a b c * orient a b c / (n1 * n2)) as Q.
  { apply quotient_pos; [by apply times_pos|].
    replace (orient a b c * orient a b c) with (- orient a b c * - orient a b c) by ring. apply times_pos; qlra. }
  destruct (qlt_spec (0 * 0) (orient a b c * orient a b c / (n1 * n2))) as [|N]; [done|]. exfalso. apply N.
  replace (0 * 0) with 0 by ring. exact Q.
Qed.
Lemma extract_ok vs is : Forall (fun i => i < length vs)%nat is -> ExtractPoints vs is = Ok (vnth vs <$> is).
Proof.
  unfold ExtractPoints. induction 1 as [|i is H _ IH]; [done|]. cbn [omapM]. rewrite vget_vnth by done. cbn [mbind outcome_bind].
  rewrite IH. done.
Qed.
Lemma norm2_distinct (a b : vec3) : a <> b -> 0 < norm2 (vsub a b).
Proof. intros N. apply norm2_pos. intros Z. apply vsub_zero in Z. done. Qed.
Lemma find_ear_ok g vs is : exact g -> Forall flat vs -> NoDup vs -> (2 < length vs)%nat ->
  (forall v, orient (corner vs v) (corner vs (S v)) (corner vs (S (S v))) <> 0) -> Forall (fun i => i < length vs)%nat is ->
  exists e, find_ear g vs is = Ok e /\
    match e with Some v => v ∈ is /\ ear_at vs v | None => forall v, v ∈ is -> ~ ear_at vs v end.
Proof.
  intros X F N L R. induction 1 as [|v is V _ IH]; cbn [find_ear].
  { exists None. split; [done|]. intros v H. by apply elem_of_nil in H. }
  destruct IH as (e & E & HE).
  assert (~ ear_at vs v -> exists e0, find_ear g vs is = Ok e0 /\
    match e0 with Some v0 => v0 ∈ v :: is /\ ear_at vs v0 | None => forall v0, v0 ∈ v :: is -> ~ ear_at vs v0 end) as SKIP.
  { intros NE. exists e. split; [done|]. destruct e as [w|].
    - destruct HE. split; [by right|done].
    - intros w W. apply elem_of_cons in W. destruct W as [-> |W]; [done|by apply HE]. }
  rewrite previous_corner, corner_next, (corner_vnth vs v) by done.
  set (p := corner vs (v + length vs - 1)) in *. set (x := corner vs v) in *. set (q := corner vs (S v)) in *.
  assert (orient p x q <> 0) as O.
  { pose proof (R (v + length vs - 1)%nat) as Q. replace (S (v + length vs - 1)) with (v + length vs)%nat in Q by lia.
    replace (S (v + length vs))%nat with (S v + length vs)%nat in Q by lia. rewrite !corner_periodic in Q. exact Q. }
  assert (p <> x) as NPX.
  { pose proof (corner_next_distinct vs (v + length vs - 1) N ltac:(lia)) as Q.
    replace (S (v + length vs - 1)) with (v + length vs)%nat in Q by lia. rewrite corner_periodic in Q. exact Q. }
  assert (x <> q) as NXQ by (apply corner_next_distinct; [done|lia]).
  assert (0 < norm2 (vsub p x)) as P1 by (by apply norm2_distinct).
  assert (0 < norm2 (vsub q x)) as P2 by (apply norm2_distinct; congruence).
  destruct (IsPolarNegative g p x q (norm2 (vsub p x)) (norm2 (vsub q x))) eqn:PN.
  { apply SKIP. intros [PO _]. cbn [fst snd] in PO. fold p x q in PO. apply polar_negative in PN; try done. qlra. }
  assert (0 < orient p x q) as PO.
  { destruct (Qc_dec (orient p x q) 0) as [[A|A]|A]; [|done|done]. apply (polar_negative g p x q _ _ X P1 P2) in A. congruence. }
  rewrite extract_ok.
  2:{ apply Forall_cons. split; [by apply previous_lt|]. apply Forall_cons. split; [done|]. apply Forall_cons. split; [|constructor].
      apply Nat.mod_upper_bound. lia. }
  cbn [fmap list_fmap]. rewrite previous_corner, corner_next, (corner_vnth vs v) by done. fold p x q. cbn [mbind outcome_bind].
  destruct (bounding_box [p; x; q]) as (lo & hi & BB & _); [done|]. rewrite BB. cbn [mbind outcome_bind].
  destruct (no_vertex g vs p x q lo hi [v; previous_of v (length vs); ((v + 1) mod length vs)%nat] (seq 0 (length vs))) as (r & RE & HR).
  all: try done.
  1-3: by apply corner_flat.
  rewrite RE. cbn [mbind outcome_bind]. destruct r.
  - exists (Some v). split; [done|]. split; [left|]. split; [done|]. intros i I S. apply HR; [done| |done]. apply elem_of_seq. lia.
  - apply SKIP. intros [_ A]. cbn [fst snd] in A. fold p x q in A. assert (false = true) as Z; [|done]. apply HR.
    intros i I S. apply A; [|done]. apply elem_of_seq in I. lia.
Qed.

(** ** The loop *)

Lemma closed_sum_ear f x q r p : antisymmetric f -> closed_sum f (x :: q :: r ++ [p]) = closed_sum f (q :: r ++ [p]) + around f (p, x, q).
Proof.
  intros A. cbn [closed_sum]. change ((q :: r ++ [p]) ++ [x]) with (q :: (r ++ [p]) ++ [x]). rewrite <- !app_assoc. cbn [app].
  rewrite path_sum_cons2. change (q :: r ++ [p; x]) with ((q :: r) ++ p :: [x]). rewrite (path_sum_app f (q :: r) p [x]).
  change (q :: r ++ [p; q]) with ((q :: r) ++ p :: [q]). rewrite (path_sum_app f (q :: r) p [q]).
  change (path_sum f [p; x]) with (f p x + 0). change (path_sum f [p; q]) with (f p q + 0).
  unfold around. cbn [fst snd]. rewrite (A p q). ring.
Qed.
Lemma rotation_lookup vs v i : (v <= length vs)%nat -> (i < length vs)%nat -> (drop v vs ++ take v vs) !! i = Some (corner vs (v + i)).
Proof.
  intros V I. destruct (decide (i < length vs - v)%nat) as [D|D].
  - rewrite lookup_app_l by (rewrite drop_length; lia). rewrite lookup_drop. apply corner_lookup. lia.
  - rewrite lookup_app_r by (rewrite drop_length; lia). rewrite drop_length, lookup_take by lia.
    rewrite corner_lookup by lia. f_equal. rewrite <- corner_periodic. f_equal. lia.
Qed.
Lemma clip_sum f vs v : antisymmetric f -> (v < length vs)%nat -> (2 < length vs)%nat ->
  closed_sum f vs = closed_sum f (delete v vs) + around f (corner vs (v + length vs - 1), corner vs v, corner vs (S v)).
Proof.
  intros A V L. rewrite delete_take_drop, (closed_sum_rotate f (take v vs)).
  rewrite <- (take_drop v vs) at 1. rewrite closed_sum_rotate.
  pose proof (corner_lookup vs v V) as LV. rewrite (drop_S vs _ v LV). cbn [app].
  remember (drop (S v) vs ++ take v vs) as r eqn:HR.
  assert (length r = length vs - 1)%nat as LR by (subst r; rewrite app_length, drop_length, take_length; lia).
  assert (forall i, (i < length vs - 1)%nat -> r !! i = Some (corner vs (S v + i))) as G.
  { intros i I. transitivity ((corner vs v :: r) !! S i); [done|]. subst r. rewrite app_comm_cons, <- (drop_S vs _ v LV).
    rewrite rotation_lookup by lia. do 2 f_equal. lia. }
  destruct r as [|q r]; [cbn in LR; lia|].
  assert (q = corner vs (S v)) as ->.
  { pose proof (G 0%nat ltac:(lia)) as Q. rewrite Nat.add_0_r in Q. by injection Q. }
  destruct r as [|p r _] using rev_ind; [cbn in LR; lia|].
  assert (p = corner vs (v + length vs - 1)) as ->.
  { pose proof (G (length vs - 2)%nat ltac:(lia)) as Q. cbn [length] in LR. rewrite app_length in LR. cbn in LR.
    assert ((corner vs (S v) :: r ++ [p]) !! (length vs - 2)%nat = Some p) as Q'.
    { replace (length vs - 2)%nat with (S (length r)) by lia. rewrite app_comm_cons, lookup_app_r by (cbn; lia).
      cbn [length]. by rewrite Nat.sub_diag. }
    rewrite Q' in Q. injection Q as ->. f_equal. lia. }
  by rewrite closed_sum_ear.
Qed.
Lemma verase_delete {A} (l : list A) v : (v < length l)%nat -> verase l v = Ok (delete v l).
Proof. intros L. unfold verase. rewrite decide_True by done. by rewrite delete_take_drop. Qed.
Lemma get_all (un keep : list nat) : Forall (fun i => i < length un)%nat keep ->
  omapM (fun i => vget un i) keep = Ok ((fun i => nth i un 0%nat) <$> keep).
Proof.
  induction 1 as [|i l H _ IH]; [done|]. cbn [omapM].
  assert (vget un i = Ok (nth i un 0%nat)) as ->.
  { unfold vget. destruct (un !! i) eqn:E; [|apply lookup_ge_None in E; lia]. f_equal. symmetry. by apply nth_lookup_Some. }
  cbn [mbind outcome_bind]. rewrite IH. done.
Qed.
Lemma extract_triple_app all a b c is ts : (a < length all)%nat -> (b < length all)%nat -> (c < length all)%nat ->
  ExtractTriangulationPoints all is = Ok ts ->
  ExtractTriangulationPoints all ([a; b; c] ++ is) = Ok ((vnth all a, vnth all b, vnth all c) :: ts).
Proof.
  intros A B C E. cbn [app ExtractTriangulationPoints]. rewrite !vget_vnth by done. cbn [mbind outcome_bind]. rewrite E. done.
Qed.
Lemma vnth_fmap all un i : (i < length un)%nat -> vnth (vnth all <$> un) i = vnth all (nth i un 0%nat).
Proof.
  intros L. unfold vnth at 1. destruct (un !! i) as [k|] eqn:E; [|apply lookup_ge_None in E; lia].
  rewrite (nth_lookup_Some un i _ k E). apply nth_lookup_Some. rewrite list_lookup_fmap, E. done.
Qed.

Lemma ear_at_is_ear ws v : (v < length ws)%nat -> ear_at ws v -> is_ear ws v.
Proof.
  intros L (PO & EAR). split; [done|]. split; [done|].
  intros w W NP NX NQ. apply elem_of_list_lookup in W. destruct W as [i W]. pose proof (lookup_lt_Some _ _ _ W) as LI.
  assert (w = vnth ws i) as EW by (symmetry; by apply nth_lookup_Some). rewrite EW. apply EAR; [done|].
  intros I. apply elem_of_cons in I. destruct I as [-> |I]; [apply NX; rewrite EW; apply corner_vnth; lia|].
  apply elem_of_cons in I. destruct I as [-> |I]; [apply NP; rewrite EW; apply previous_corner; lia|].
  apply elem_of_list_singleton in I. subst i. apply NQ. rewrite EW. apply corner_next.
Qed.
Lemma is_ear_at ws v : NoDup ws -> is_ear ws v -> ear_at ws v.
Proof.
  intros N (L & PO & EAR). split; [done|]. intros i I NI.
  assert (forall j, (j < length ws)%nat -> vnth ws i = vnth ws j -> i = j) as INJ.
  { intros j J E. eapply NoDup_lookup; [done|rewrite corner_lookup by done; reflexivity|].
    rewrite corner_lookup by done. rewrite !corner_vnth in E by done. by rewrite E. }
  rewrite !elem_of_cons in NI. apply EAR.
  - rewrite corner_vnth by done. eapply elem_of_list_lookup_2. by apply corner_lookup.
  - intros E. apply NI. right; left. apply INJ; [by apply previous_lt|]. rewrite E. symmetry. by apply previous_corner.
  - intros E. apply NI. left. apply INJ; [done|]. rewrite E. symmetry. by apply corner_vnth.
  - intros E. apply NI. right; right; left. apply INJ; [apply Nat.mod_upper_bound; lia|]. rewrite E. symmetry. by apply corner_next.
Qed.
Definition clipped (all vs : list vec3) (r : outcome (list nat)) : Prop :=
  match r with
  | Ok is => exists ts, ExtractTriangulationPoints all is = Ok ts /\ ears vs ts /\ half * closed_sum wedge vs = total_area ts /\
      (length is mod 3 = 0)%nat
  | Abort => stuck vs
  | _ => False
  end.
Lemma nth_in_forall (P : nat -> Prop) l i : Forall P l -> (i < length l)%nat -> P (nth i l 0%nat).
Proof. intros F L. rewrite Forall_forall in F. apply F. apply elem_of_list_In. by apply nth_In. Qed.
Lemma area_orient t : area t = half * around wedge t.
Proof. by rewrite wedge_around. Qed.
Lemma ear_loop_ok g all fuel un : exact g -> Forall flat all -> Forall (fun i => i < length all)%nat un ->
  NoDup (vnth all <$> un) -> (2 < length un)%nat -> (length un <= fuel)%nat ->
  clipped all (vnth all <$> un) (ear_loop g all fuel (vnth all <$> un) un).
Proof.
  intros X FA. revert un. induction fuel as [|fuel IH]; intros un FU N L LF; [lia|]. cbn [ear_loop].
  set (vs := vnth all <$> un) in *.
  assert (length vs = length un) as LV by (unfold vs; by rewrite fmap_length).
  assert (Forall flat vs) as FV.
  { apply Forall_fmap. apply Forall_forall. intros i _. unfold compose, vnth.
    destruct (nth_in_or_default i all (0, 0, 0)) as [H| ->]; [|done]. rewrite Forall_forall in FA. apply FA. by apply elem_of_list_In. }
  rewrite unaligned_points by (done || lia). cbn [mbind outcome_bind].
  set (keep := filter (λ i, ¬ straight vs i) (seq 0 (length vs))).
  assert (Forall (fun i => i < length un)%nat keep) as FK.
  { apply Forall_forall. intros i H. apply elem_of_list_filter in H. destruct H as [_ H]. apply elem_of_seq in H. lia. }
  destruct (Nat.ltb_spec 2 (length keep)) as [LK|LK]; cbn [require mbind outcome_bind];
    [|apply stuck_few; unfold corners; rewrite fmap_length; fold keep; lia].
  rewrite get_all by done. cbn [mbind outcome_bind]. cbn zeta.
  set (un' := (λ i : nat, nth i un 0%nat) <$> keep).
  assert (length un' = length keep) as LU by (unfold un'; by rewrite fmap_length).
  assert (Forall (fun i => i < length all)%nat un') as FU'.
  { apply Forall_fmap. eapply Forall_impl; [exact FK|]. intros i H. unfold compose. by apply nth_in_forall. }
  assert (vnth all <$> un' = corners vs) as CO.
  { unfold un', corners. fold keep. rewrite <- list_fmap_compose. apply list_fmap_ext. intros j i H. unfold compose.
    assert (i < length un)%nat as I by (rewrite Forall_forall in FK; apply FK; eapply elem_of_list_lookup_2; exact H).
    rewrite <- vnth_fmap by done. apply corner_vnth. lia. }
  assert (length (corners vs) = length keep) as LC by (rewrite <- CO, fmap_length; done).
  assert (closed_sum wedge (corners vs) = closed_sum wedge vs) as SUM.
  { apply corners_wedge; try done; [lia|]. intros Z. rewrite Z in LC. cbn in LC. lia. }
  destruct (Nat.eqb_spec (length un') 3) as [L3|L3].
  - (* three corners remain *)
    destruct un' as [|a [|b [|c [|d l]]]]; try (cbn in L3; lia). clear L3.
    apply Forall_cons in FU'. destruct FU' as [FA1 FU']. apply Forall_cons in FU'. destruct FU' as [FA2 FU'].
    apply Forall_cons in FU'. destruct FU' as [FA3 _].
    cbn [fmap list_fmap] in CO. exists [(vnth all a, vnth all b, vnth all c)]. split; [|split; [|split]].
    + rewrite <- (app_nil_r [a; b; c]). by apply extract_triple_app.
    + by apply ears_done.
    + rewrite <- SUM, <- CO. unfold total_area, sum_of, area. cbn. unfold wedge, orient. ring.
    + done.
  - rewrite extract_ok by done. rewrite CO. cbn [mbind outcome_bind].
    set (ws := corners vs) in *. set (n := length un') in *.
    assert (length ws = n) as LW by lia.
    assert (NoDup ws) as NW by (eapply sublist_nodup; [apply corners_sublist|done]).
    assert (Forall flat ws) as FW by (eapply sublist_forall; [apply corners_sublist|done]).
    destruct (find_ear_ok g ws (seq 0 n) X FW NW) as (e & E & HE).
    + lia.
    + intros v. apply corners_real; try done; fold ws; lia.
    + apply Forall_forall. intros i H. apply elem_of_seq in H. lia.
    + rewrite E. cbn [mbind outcome_bind]. destruct e as [v|].
      2: { apply stuck_no_ear; fold ws; [lia|]. intros v H. apply (HE v); [apply elem_of_seq; destruct H; lia|by apply is_ear_at]. }
      destruct HE as [HV EAR]. apply elem_of_seq in HV. apply ear_at_is_ear in EAR; [|lia].
      rewrite verase_delete by lia. cbn [mbind outcome_bind].
      rewrite verase_delete by lia. cbn [mbind outcome_bind].
      assert (length (delete v ws) = n - 1)%nat as LD by (rewrite length_delete; [lia|apply lookup_lt_is_Some; lia]).
      destruct (Nat.ltb_spec 2 (length (delete v ws))) as [_|]; [|lia].
      assert (vnth all <$> delete v un' = delete v ws) as CD by (rewrite list_fmap_delete, CO; done).
      assert (length (delete v un') = n - 1)%nat as LDU by (rewrite length_delete; [lia|apply lookup_lt_is_Some; lia]).
      pose proof (IH (delete v un')) as Q. rewrite CD in Q.
      assert (clipped all (delete v ws) (ear_loop g all fuel (delete v ws) (delete v un'))) as C.
      { apply Q.
        - eapply sublist_forall; [apply sublist_delete|done].
        - eapply sublist_nodup; [apply sublist_delete|done].
        - lia.
        - assert (n <= length un)%nat; [|lia]. rewrite LU. unfold keep. etransitivity; [apply sublist_length, filter_sublist|].
          rewrite seq_length. lia. }
      destruct (ear_loop g all fuel (delete v ws) (delete v un')) as [is| | | |]; cbn [mbind outcome_bind]; try done.
      2: { apply (stuck_clip vs v); fold ws; [lia|done|exact C]. }
      destruct C as (ts & T1 & T2 & T3 & T4).
      assert (forall i, (i < n)%nat -> vnth all (nth i un' 0%nat) = vnth ws i) as VN.
      { intros i I. rewrite <- CO. symmetry. by apply vnth_fmap. }
      assert (forall i, (i < n)%nat -> (nth i un' 0 < length all)%nat) as BN by (intros i I; by apply nth_in_forall).
      assert ((v + 1) mod n < n)%nat as NB by (apply Nat.mod_upper_bound; lia).
      pose proof (previous_lt v n ltac:(lia)) as PB.
      eexists. split; [|split; [|split]].
      * apply extract_triple_app; [by apply BN; lia|by apply BN|by apply BN|exact T1].
      * rewrite !VN by (done || lia). rewrite <- LW, previous_corner, corner_next, corner_vnth by lia.
        apply (ears_clip vs v ts); fold ws; [lia|done|done].
      * rewrite !VN by (done || lia). rewrite <- SUM. rewrite (clip_sum wedge ws v wedge_antisymmetric) by lia.
        unfold total_area in *. rewrite sum_of_cons, <- T3. rewrite <- LW, previous_corner, corner_next, corner_vnth by lia.
        rewrite wedge_around. unfold area. cbn [fst snd].
        set (p := corner ws (v + length ws - 1)). rewrite (orient_rotate p). ring.
      * cbn [app length]. replace (S (S (S (length is)))) with (length is + 1 * 3)%nat by lia. by rewrite Nat.mod_add.
Qed.
Lemma ear_clipping g vs : exact g -> Forall flat vs -> NoDup vs ->
  match PolygonTriangulationByEarClipping g vs with
  | Ok is => exists ts, ExtractTriangulationPoints vs is = Ok ts /\ ears vs ts /\ PolygonArea g vs = Ok (total_area ts)
  | Abort => stuck vs
  | _ => False
  end.
Proof.
  intros X F N. unfold PolygonTriangulationByEarClipping. destruct (Nat.ltb_spec 2 (length vs)) as [L|L];
    cbn [require mbind outcome_bind].
  2: { apply stuck_few. pose proof (sublist_length _ _ (corners_sublist vs)). lia. }
  assert (vs = vnth vs <$> seq 0 (length vs)) as E.
  { rewrite (corner_all vs) at 1. apply list_fmap_ext. intros i j H. apply lookup_seq in H. destruct H as [-> H]. symmetry. by apply corner_vnth. }
  pose proof (ear_loop_ok g vs (length vs) (seq 0 (length vs)) X F) as Q. rewrite <- E, seq_length in Q.
  assert (clipped vs vs (ear_loop g vs (length vs) vs (seq 0 (length vs)))) as C.
  { apply Q; try done. apply Forall_forall. intros i H. apply elem_of_seq in H. lia. }
  destruct (ear_loop g vs (length vs) vs (seq 0 (length vs))) as [is| | | |]; cbn [mbind outcome_bind]; try done.
  destruct C as (ts & T1 & T2 & T3 & T4). rewrite T4. cbn [Nat.eqb require mbind outcome_bind].
  exists ts. split; [done|]. split; [done|]. rewrite area_formula; [by rewrite T3|].
  split; [done|]. eapply Forall_impl; [exact F|]. intros p H. unfold flat in H. rewrite H. destruct X as [_ ->]. done.
Qed.
