(** * Convex hulls: the comparisons and the sort. *)
From Coq Require Import QArith Qcanon Sorted.
From Verif Require Import Base QcTac FillModel GeoModel MapModel PointModel PointSpec PointProof PolyModel PolySpec PolyProof
  TriProof EarProof ConvexProof HullModel HullProof.
Local Open Scope Qc_scope.

(** ** Sorting by insertion *)

Section sorting.
Context {A : Type} (lt : A -> A -> bool) (R : A -> A -> Prop).
Fixpoint isort_insert (x : A) (l : list A) : list A :=
  match l with
  | [] => [x]
  | y :: l => if lt y x then y :: isort_insert x l else x :: y :: l
  end.
Definition isort (l : list A) : list A := foldr isort_insert [] l.
Lemma isort_insert_perm x l : isort_insert x l ≡ₚ x :: l.
Proof. induction l as [|y l IH]; [done|]. cbn. destruct (lt y x); [|done]. rewrite IH. apply Permutation_swap. Qed.
Lemma isort_perm l : isort l ≡ₚ l.
Proof. induction l as [|x l IH]; [done|]. cbn. rewrite isort_insert_perm. by rewrite IH. Qed.
Lemma isort_insert_sorted (P : A -> Prop) x l :
  (forall a b, P a -> P b -> lt a b = true -> R a b) -> (forall a b, P a -> P b -> a <> b -> lt a b = false -> R b a) ->
  (forall a b c, P a -> P b -> P c -> R a b -> R b c -> R a c) ->
  P x -> Forall P l -> x ∉ l -> StronglySorted R l -> StronglySorted R (isort_insert x l).
Proof.
  intros LT GE TR PX. induction l as [|y l IH]; intros F N SS; [by repeat constructor|].
  cbn. apply Forall_cons in F. destruct F as [PY F]. apply not_elem_of_cons in N. destruct N as [NXY N].
  apply StronglySorted_inv in SS. destruct SS as [SS SY]. destruct (lt y x) eqn:E.
  - constructor; [by apply IH|]. rewrite isort_insert_perm. constructor; [by apply LT|done].
  - assert (R x y) as XY by (apply GE; [done|done|congruence|done]).
    constructor; [by constructor|]. constructor; [done|]. rewrite Forall_forall in SY, F. apply Forall_forall. intros z Z.
    apply (TR x y z); auto.
Qed.
Lemma isort_sorted (P : A -> Prop) l :
  (forall a b, P a -> P b -> lt a b = true -> R a b) -> (forall a b, P a -> P b -> a <> b -> lt a b = false -> R b a) ->
  (forall a b c, P a -> P b -> P c -> R a b -> R b c -> R a c) ->
  Forall P l -> NoDup l -> StronglySorted R (isort l).
Proof.
  intros LT GE TR. induction l as [|x l IH]; intros F N; [constructor|]. cbn. apply Forall_cons in F. destruct F as [PX F].
  apply NoDup_cons in N. destruct N as [NX N]. apply (isort_insert_sorted P); try done.
  - by rewrite isort_perm.
  - by rewrite isort_perm.
  - by apply IH.
Qed.
(** There is only one way to sort. *)
Lemma sorted_unique (l k : list A) : (forall a b, R a b -> R b a -> False) -> StronglySorted R l -> StronglySorted R k -> l ≡ₚ k -> l = k.
Proof.
  intros AS. revert k. induction l as [|x l IH]; intros k SL SK E; [by apply Permutation_nil in E|].
  destruct k as [|y k]; [by apply Permutation_sym, Permutation_nil in E|].
  apply StronglySorted_inv in SL, SK. destruct SL as [SL FL], SK as [SK FK].
  rewrite Forall_forall in FL, FK.
  assert (x = y) as ->.
  { assert (x ∈ y :: k) as I by (rewrite <- E; apply elem_of_list_here).
    assert (y ∈ x :: l) as J by (rewrite E; apply elem_of_list_here).
    apply elem_of_cons in I, J. destruct I as [|I]; [done|]. destruct J as [|J]; [done|].
    exfalso. apply (AS x y); [by apply FL|by apply FK]. }
  f_equal. apply IH; [done|done|]. by apply Permutation_cons_inv in E.
Qed.
End sorting.
Lemma sort_isort lt l : sort lt l = isort lt l.
Proof. unfold sort, isort. induction l as [|x l IH]; [done|]. cbn [foldr]. rewrite IH. generalize (foldr (isort_insert lt) [] l). clear.
  intros k. induction k as [|y k IH]; [done|]. cbn. destruct (lt y x); [by rewrite IH|done]. Qed.

(** ** The comparisons *)

Lemma norm2_same a b : flat a -> flat b -> norm2 (vsub a b) = 0 -> a = b.
Proof. intros _ _ H. by apply vsub_zero, norm2_zero. Qed.
Lemma polar_zero g a b c : exact g -> IsPolarZero g a b c (norm2 (vsub a b)) (norm2 (vsub c b)) = true <-> orient a b c = 0.
Proof.
  intros X. destruct (exact_tolerance g X) as (T & _ & M). unfold IsPolarZero, norm_zero. rewrite T, M.
  assert (polar_numerator a b c = orient a b c) as -> by (unfold polar_numerator, orient; ring).
  pose proof (norm2_nonneg (vsub a b)) as P1. pose proof (norm2_nonneg (vsub c b)) as P2.
  destruct (qle_spec (norm2 (vsub a b)) (0 * 0)) as [L1|L1].
  { cbn. split; [|done]. intros _. assert (norm2 (vsub a b) = 0) as Z by qlra. apply norm2_zero, vsub_zero in Z as ->. unfold orient. ring. }
  destruct (qle_spec (norm2 (vsub c b)) (0 * 0)) as [L2|L2].
  { cbn. split; [|done]. intros _. assert (norm2 (vsub c b) = 0) as Z by qlra. apply norm2_zero, vsub_zero in Z as ->. unfold orient. ring. }
  cbn [orb]. assert (0 < norm2 (vsub a b) * norm2 (vsub c b)) as P by (apply times_pos; qlra).
  split.
  - destruct (qle_spec (orient a b c * orient a b c / (norm2 (vsub a b) * norm2 (vsub c b))) (0 * 0)) as [L|]; [|done]. intros _.
    destruct (Qc_eq_dec (orient a b c) 0) as [|N]; [done|]. exfalso.
    assert (0 < orient a b c * orient a b c) as Q.
    { destruct (Qcle_lt_or_eq _ _ (square_nonneg (orient a b c))) as [|Z]; [done|]. destruct N. by apply square_zero. }
    pose proof (quotient_pos _ _ P Q). qlra.
  - intros ->. destruct (qle_spec (0 * 0 / (norm2 (vsub a b) * norm2 (vsub c b))) (0 * 0)) as [|L]; [done|]. exfalso. apply L.
    replace (0 * 0 / (norm2 (vsub a b) * norm2 (vsub c b))) with 0; [qlra|]. unfold Qcdiv. ring.
Qed.
Lemma polar_neg g a b c : exact g -> IsPolarNegative g a b c (norm2 (vsub a b)) (norm2 (vsub c b)) = true <-> orient a b c < 0.
Proof.
  intros X. destruct (decide (0 < norm2 (vsub a b) /\ 0 < norm2 (vsub c b))) as [[P1 P2]|N]; [by apply polar_negative|].
  assert (orient a b c = 0) as ->.
  { destruct (Qc_eq_dec (norm2 (vsub a b)) 0) as [Z|N1]; [apply norm2_zero, vsub_zero in Z as ->; unfold orient; ring|].
    destruct (Qc_eq_dec (norm2 (vsub c b)) 0) as [Z|N2]; [apply norm2_zero, vsub_zero in Z as ->; unfold orient; ring|].
    destruct N. split.
    - destruct (Qcle_lt_or_eq _ _ (norm2_nonneg (vsub a b))) as [|Z]; [done|by symmetry in Z].
    - destruct (Qcle_lt_or_eq _ _ (norm2_nonneg (vsub c b))) as [|Z]; [done|by symmetry in Z]. }
  split; [|intros; qlra]. intros H. exfalso. apply N.
  destruct (exact_tolerance g X) as (T & _ & M). unfold IsPolarNegative, norm_zero in H. rewrite T, M in H.
  destruct (qle_spec (norm2 (vsub a b)) (0 * 0)); [done|]. destruct (qle_spec (norm2 (vsub c b)) (0 * 0)); [done|]. split; qlra.
Qed.
Lemma greater_exact g a b : exact g -> IsValueGreater g a b 0 = true <-> b < a.
Proof.
  intros X. unfold IsValueGreater. rewrite compare_exact by done. destruct (qeq_spec b a) as [->|N]; [split; [done|intros; qlra]|].
  destruct (qlt_spec b a); split; done.
Qed.
Lemma equal_exact g a b : exact g -> AreValuesEqual g a b 0 = true <-> a = b.
Proof.
  intros X. unfold AreValuesEqual. rewrite compare_exact by done. destruct (qeq_spec b a) as [->|N]; [done|].
  destruct (qlt_spec b a); split; try done; congruence.
Qed.
Lemma before_exact g o a b : exact g ->
  before g o a b = true <-> 0 < mo o.1 a.1 b.1 \/ mo o.1 a.1 b.1 = 0 /\ norm2 (vsub o.1 a.1) < norm2 (vsub o.1 b.1).
Proof.
  intros X. destruct (exact_tolerance g X) as (_ & T2 & _). unfold before. rewrite T2. unfold mo.
  assert (orient b.1 a.1 o.1 = - orient a.1 b.1 o.1) as E by (unfold orient; ring).
  destruct (IsPolarZero g a.1 b.1 o.1 (norm2 (vsub a.1 b.1)) (norm2 (vsub o.1 b.1))) eqn:Z.
  - apply polar_zero in Z; [|done]. rewrite greater_exact by done. rewrite E, Z. split; [intros; right; split; [ring|done]|].
    intros [H|[_ H]]; [qlra|done].
  - rewrite polar_neg by done. rewrite E.
    assert (orient a.1 b.1 o.1 <> 0) as N by (intros Q; apply (polar_zero g) in Q; [congruence|done]).
    split; [intros; left; qlra|]. intros [H|[H _]]; [qlra|]. destruct N. qlra.
Qed.

(** ** The scan is the scan of points *)

Lemma pop_pops g inc x st : exact g -> (fst : pt -> vec3) <$> pop g inc x st = pops inc x.1 (fst <$> st).
Proof.
  intros X. induction st as [|a st IH]; [done|]. destruct st as [|b st]; [done|]. cbn [fmap list_fmap] in *.
  cbn [pop pops]. 
  assert (IsPolarNegative g a.1 x.1 b.1 (norm2 (vsub a.1 x.1)) (norm2 (vsub b.1 x.1)) ||
    inc && IsPolarZero g a.1 x.1 b.1 (norm2 (vsub a.1 x.1)) (norm2 (vsub b.1 x.1)) = keeps inc b.1 a.1 x.1) as ->.
  { assert (orient a.1 x.1 b.1 = - mo b.1 a.1 x.1) as E by (unfold mo, orient; ring).
    apply eq_true_iff_eq. rewrite keeps_spec, orb_true_iff, andb_true_iff, polar_neg, polar_zero, E by done.
    unfold turn_ok. destruct inc; split.
    - intros [H|[_ H]]; qlra.
    - intros H. apply Qcle_lt_or_eq in H. destruct H as [H|H]; [left; qlra|right; split; [done|]; rewrite <- H; ring].
    - intros [H|[H _]]; [qlra|done].
    - intros H. left. qlra. }
  destruct (keeps inc b.1 a.1 x.1); [done|]. exact IH.
Qed.
Lemma scan_points g inc l st : exact g ->
  fst <$> foldl (fun st x => x :: pop g inc x st) st l = foldl (fun st x => x :: pops inc x st) (fst <$> st) (fst <$> l).
Proof.
  intros X. revert st. induction l as [|x l IH]; intros st; [done|]. cbn [foldl fmap list_fmap]. rewrite IH. cbn [fmap list_fmap].
  by rewrite pop_pops.
Qed.
Lemma pop_sub g inc x st y : y ∈ pop g inc x st -> y ∈ st.
Proof.
  induction st as [|a st IH]; [done|]. destruct st as [|b st]; [done|]. cbn [pop].
  destruct (_ || _); [done|]. intros H. apply elem_of_list_further, IH, H.
Qed.
Lemma scan_sub g inc l st y : y ∈ foldl (fun st x => x :: pop g inc x st) st l -> y ∈ st \/ y ∈ l.
Proof.
  revert st. induction l as [|x l IH]; intros st; [by left|]. cbn [foldl]. intros H. apply IH in H. destruct H as [H|H].
  - apply elem_of_cons in H. destruct H as [-> |H]; [right; apply elem_of_list_here|]. apply pop_sub in H. by left.
  - right. by apply elem_of_list_further.
Qed.

(** ** The order around the lowest point *)

Definition low (o p : vec3) : Prop := o.1.2 < p.1.2 \/ o.1.2 = p.1.2 /\ o.1.1 <= p.1.1.
Definition above (o p : vec3) : Prop := o.1.2 < p.1.2 \/ o.1.2 = p.1.2 /\ o.1.1 < p.1.1.
Lemma low_above o p : flat o -> flat p -> low o p -> p <> o -> above o p.
Proof.
  intros FO FP [H|[H1 H2]] N; [by left|]. right. split; [done|]. apply Qcle_lt_or_eq in H2. destruct H2 as [|H2]; [done|].
  destruct N. by apply vec_eq; [..|unfold flat in *; congruence].
Qed.
Lemma lowest_ok g ps o : exact g -> lowest g ps = Some o -> o ∈ ps /\ Forall (fun p => low o.1 p.1) ps.
Proof.
  intros X. destruct (exact_tolerance g X) as (T & _ & _). unfold lowest.
  assert (forall (l : list pt) (k : option pt) (done' : list pt), (match k with None => done' = [] | Some q => q ∈ done' /\ Forall (fun p => low q.1 p.1) done' end) ->
    match foldl (lowest_step g) k l with None => done' ++ l = [] | Some q => q ∈ done' ++ l /\ Forall (fun p => low q.1 p.1) (done' ++ l) end) as H.
  { induction l as [|x l IH]; intros k d K.
    - cbn [foldl]. rewrite app_nil_r. by destruct k.
    - cbn [foldl]. replace (d ++ x :: l) with ((d ++ [x]) ++ l) by (by rewrite <- app_assoc). apply IH.
      unfold lowest_step. rewrite T. destruct k as [q|].
      + destruct K as [I F]. rewrite Forall_forall in F.
        set (q1 := if IsValueGreater g q.1.1.2 x.1.1.2 0 then x else q).
        assert (q1 ∈ d ++ [x] /\ (forall p, p ∈ d -> low q1.1 p.1) /\ q1.1.1.2 <= x.1.1.2) as (I1 & F1 & L1).
        { subst q1. destruct (IsValueGreater g q.1.1.2 x.1.1.2 0) eqn:E.
          - apply greater_exact in E; [|done]. split_and!; [set_solver| |qlra].
            intros p P. destruct (F p P) as [L|[L1 L2]]; left; qlra.
          - assert (~ x.1.1.2 < q.1.1.2) as NE by (intros L; apply (greater_exact g) in L; [congruence|done]).
            split_and!; [set_solver|done|qlra]. }
        destruct (AreValuesEqual g q1.1.1.2 x.1.1.2 0 && IsValueGreater g q1.1.1.1 x.1.1.1 0) eqn:E.
        * apply andb_true_iff in E. destruct E as [E1 E2]. apply equal_exact in E1; [|done]. apply greater_exact in E2; [|done].
          split; [set_solver|]. apply Forall_app. split.
          -- apply Forall_forall. intros p P. destruct (F1 p P) as [L|[L2 L3]]; [left; congruence|]. right. split; [congruence|qlra].
          -- apply Forall_singleton. right. split; [done|qlra].
        * split; [done|]. apply Forall_app. split; [by apply Forall_forall|]. apply Forall_singleton.
          apply Qcle_lt_or_eq in L1. destruct L1 as [L1|L1]; [by left|]. right. split; [done|].
          destruct (Qclt_le_dec x.1.1.1 q1.1.1.1) as [C|]; [|done]. exfalso.
          apply (equal_exact g) in L1; [|done]. apply (greater_exact g) in C; [|done]. by rewrite L1, C in E.
      + subst d. cbn [app]. split; [set_solver|]. apply Forall_singleton. right. split; [done|]. qlra. }
  intros E. specialize (H ps None [] eq_refl). cbn [app] in H. rewrite E in H. done.
Qed.
Lemma lowest_some g ps : ps <> [] -> exists o, lowest g ps = Some o.
Proof.
  destruct ps as [|p ps]; [done|]. intros _. unfold lowest. cbn [foldl lowest_step].
  generalize p. induction ps as [|x ps IH]; intros q; [by exists q|]. cbn [foldl lowest_step]. apply IH.
Qed.

Section order.
Context (o : vec3) (Ho : flat o).
Definition up (p : vec3) : Prop := flat p /\ above o p.
Lemma up_ne p : up p -> p <> o.
Proof. intros [_ H] ->. destruct H as [H|[_ H]]; qlra. Qed.
(** Points on the same line are on the same ray. *)
Lemma same_ray a b : up a -> up b -> mo o a b = 0 -> exists l, 0 < l /\ on_line o a l b.
Proof.
  intros [FA A] [FB B] Z. unfold mo in Z.
  assert (o <> a) as N by (intros ->; destruct A as [A|[_ A]]; qlra).
  assert (orient o a b = 0) as Z' by (transitivity (- orient b a o); [unfold orient; ring|rewrite Z; ring]).
  pose proof (aligned_on_line b o a FB Ho FA N Z') as OL. set (t := PointCurvilinearCoordinate b o a) in OL. clearbody t.
  exists t. split; [|done]. unfold above in A, B. rewrite OL in B. cbn [fst snd] in B.
  assert (0 <= t -> t <> 0 -> 0 < t) as K by (intros P Q; apply Qcle_lt_or_eq in P; destruct P as [|P]; [done|by destruct Q]).
  destruct (Qclt_le_dec 0 t) as [|T]; [done|]. exfalso.
  assert (forall y, 0 <= y -> t * y <= 0) as M.
  { intros y Y. pose proof (times_nonneg (- t) y ltac:(qlra) Y) as Q. replace (- t * y) with (- (t * y)) in Q by ring. qlra. }
  destruct A as [A|[A1 A2]].
  - pose proof (M (a.1.2 - o.1.2) ltac:(qlra)) as Q. destruct B as [B|[B1 B2]]; [qlra|].
    assert (t * (a.1.2 - o.1.2) = 0) as Z2 by qlra. apply Qcmult_integral in Z2. destruct Z2 as [-> |Z2]; [|qlra].
    replace (0 * (a.1.1 - o.1.1)) with 0 in B2 by ring. qlra.
  - destruct B as [B|[B1 B2]].
    + rewrite A1 in B. replace (t * (a.1.2 - a.1.2)) with 0 in B by ring. qlra.
    + pose proof (M (a.1.1 - o.1.1) ltac:(qlra)). qlra.
Qed.
Lemma on_line_norm a b l : on_line o a l b -> norm2 (vsub o b) = l * l * norm2 (vsub o a).
Proof. intros ->. unfold norm2, vdot, vsub. destruct o as [[? ?] ?], a as [[? ?] ?]. cbn [fst snd]. ring. Qed.
Lemma square_less (l : Qc) n : 0 < l -> 0 < n -> n < l * l * n -> 1 < l.
Proof.
  intros L N H. destruct (Qclt_le_dec 1 l) as [|C]; [done|]. exfalso.
  assert (0 <= 1 - l * l) as Q by (replace (1 - l * l) with ((1 - l) * (1 + l)) by ring; apply times_nonneg; qlra).
  pose proof (times_nonneg (1 - l * l) n Q ltac:(qlra)) as P. replace ((1 - l * l) * n) with (n - l * l * n) in P by ring. qlra.
Qed.
Lemma square_more (l : Qc) n : 1 < l -> 0 < n -> n < l * l * n.
Proof.
  intros L N. assert (0 < l * l - 1) as Q by (replace (l * l - 1) with ((l - 1) * (l + 1)) by ring; apply times_pos; qlra).
  pose proof (times_pos _ _ Q N) as P. replace ((l * l - 1) * n) with (l * l * n - n) in P by ring. qlra.
Qed.
Lemma ray_pos a : up a -> 0 < norm2 (vsub o a).
Proof. intros U. apply norm2_pos. intros Z. apply vsub_zero in Z. by apply (up_ne a U). Qed.
Lemma after_exact a b : up a -> up b -> after o a b <-> 0 < mo o a b \/ mo o a b = 0 /\ norm2 (vsub o a) < norm2 (vsub o b).
Proof.
  intros A B. pose proof (ray_pos a A) as P. split.
  - intros [H|(l & L & OL)]; [by left|]. right. split; [by apply (on_line_mo o a l)|]. rewrite (on_line_norm _ _ _ OL).
    by apply square_more.
  - intros [H|[Z H]]; [by left|]. right. destruct (same_ray a b A B Z) as (l & L & OL). exists l. split; [|done].
    rewrite (on_line_norm _ _ _ OL) in H. by apply (square_less l (norm2 (vsub o a))).
Qed.
Lemma after_total a b : up a -> up b -> a <> b -> ~ after o a b -> after o b a.
Proof.
  intros A B N NA. rewrite after_exact in NA by done. apply after_exact; try done.
  assert (mo o b a = - mo o a b) as E by (unfold mo, orient; ring). rewrite E.
  destruct (Qc_dec (mo o a b) 0) as [[H|H]|Z].
  - left. qlra.
  - destruct NA. by left.
  - right. split; [rewrite Z; ring|]. destruct (Qc_dec (norm2 (vsub o b)) (norm2 (vsub o a))) as [[H|H]|H]; [done|destruct NA; by right|].
    exfalso. apply N. destruct (same_ray a b A B Z) as (l & L & OL). pose proof (ray_pos a A) as P.
    rewrite (on_line_norm _ _ _ OL) in H.
    assert ((l - 1) * ((l + 1) * norm2 (vsub o a)) = 0) as Q.
    { transitivity (l * l * norm2 (vsub o a) - norm2 (vsub o a)); [ring|]. rewrite H. ring. }
    apply Qcmult_integral in Q. destruct Q as [Q|Q].
    + assert (l = 1) as -> by qlra. symmetry. by apply (on_line_1 o a).
    + apply Qcmult_integral in Q. destruct Q as [Q|Q]; qlra.
Qed.
(** Height above the horizontal line, or position on it: at least one of two points on different rays is strictly above. *)
Lemma turns_transitive a b c : up a -> up b -> up c -> 0 <= mo o a b -> 0 <= mo o b c -> 0 <= mo o a c /\ (0 < mo o a b \/ 0 < mo o b c -> 0 < mo o a c).
Proof.
  intros [_ A] [_ B] [_ C] AB BC.
  (* y_b mo a c = y_c mo a b + y_a mo b c, with y >= 0 *)
  assert ((b.1.2 - o.1.2) * mo o a c = (c.1.2 - o.1.2) * mo o a b + (a.1.2 - o.1.2) * mo o b c) as Y by (unfold mo, orient; ring).
  assert ((b.1.1 - o.1.1) * mo o a c = (c.1.1 - o.1.1) * mo o a b + (a.1.1 - o.1.1) * mo o b c) as X by (unfold mo, orient; ring).
  assert (0 <= a.1.2 - o.1.2) as PA by (destruct A as [A|[A _]]; qlra).
  assert (0 <= c.1.2 - o.1.2) as PC by (destruct C as [C|[C _]]; qlra).
  pose proof (times_nonneg _ _ PC AB) as Q1. pose proof (times_nonneg _ _ PA BC) as Q2.
  assert (forall k z, 0 < k -> 0 < k * z -> 0 < z) as PF.
  { intros k z K H. destruct (Qclt_le_dec 0 z) as [|L]; [done|]. exfalso. pose proof (times_nonneg k (- z) ltac:(qlra) ltac:(qlra)) as Q.
    replace (k * - z) with (- (k * z)) in Q by ring. qlra. }
  destruct B as [B|[B1 B2]].
  - assert (0 < a.1.2 - o.1.2) as SA.
    { destruct A as [A|[A1 A2]]; [qlra|]. exfalso.
      assert (mo o a b = - ((a.1.1 - o.1.1) * (b.1.2 - o.1.2))) as E by (unfold mo, orient; rewrite <- A1; ring).
      pose proof (times_pos (a.1.1 - o.1.1) (b.1.2 - o.1.2) ltac:(qlra) ltac:(qlra)). qlra. }
    split; [apply (positive_factor (b.1.2 - o.1.2)); [qlra|]; rewrite Y; qlra|].
    intros [D|D].
    + destruct C as [C|[C1 C2]].
      * apply (PF (b.1.2 - o.1.2)); [qlra|]. rewrite Y. pose proof (times_pos (c.1.2 - o.1.2) _ ltac:(qlra) D). qlra.
      * assert (mo o a c = (a.1.2 - o.1.2) * (c.1.1 - o.1.1)) as -> by (unfold mo, orient; rewrite <- C1; ring).
        apply times_pos; qlra.
    + apply (PF (b.1.2 - o.1.2)); [qlra|]. rewrite Y. pose proof (times_pos _ _ SA D). qlra.
  - assert (mo o b c = - ((b.1.1 - o.1.1) * (c.1.2 - o.1.2))) as E by (unfold mo, orient; rewrite <- B1; ring).
    destruct C as [C|[C1 C2]].
    { exfalso. pose proof (times_pos (b.1.1 - o.1.1) (c.1.2 - o.1.2) ltac:(qlra) ltac:(qlra)). qlra. }
    assert (mo o b c = 0) as Z by (rewrite E, C1; ring). rewrite Z in X.
    replace ((a.1.1 - o.1.1) * 0) with 0 in X by ring.
    pose proof (times_nonneg (c.1.1 - o.1.1) _ ltac:(qlra) AB). split.
    + apply (positive_factor (b.1.1 - o.1.1)); [qlra|]. rewrite X. qlra.
    + intros [D|D]; [|qlra]. apply (PF (b.1.1 - o.1.1)); [qlra|]. rewrite X.
      pose proof (times_pos (c.1.1 - o.1.1) _ ltac:(qlra) D). qlra.
Qed.
Lemma after_transitive a b c : up a -> up b -> up c -> after o a b -> after o b c -> after o a c.
Proof.
  intros A B C AB BC. destruct (turns_transitive a b c A B C (after_nonneg _ _ _ AB) (after_nonneg _ _ _ BC)) as [W ST].
  rewrite after_exact in AB, BC by done. destruct AB as [AB|[ZA NA]]; [left; auto|]. destruct BC as [BC|[ZB NB]]; [left; auto|].
  apply after_exact; [done|done|]. right. split; [|qlra].
  destruct (turns_transitive c b a C B A) as [W2 _].
  - rewrite (mo_swap o b c), ZB. done.
  - rewrite (mo_swap o a b), ZA. done.
  - rewrite (mo_swap o a c) in W2. qlra.
Qed.
Lemma after_irreflexive a b : up a -> up b -> after o a b -> after o b a -> False.
Proof.
  intros A B AB BA. rewrite after_exact in AB, BA by done. rewrite (mo_swap o a b) in BA.
  destruct AB as [AB|[AB NA]], BA as [BA|[BA NB]]; qlra.
Qed.
(** The order of the sort. *)
Definition earlier (a b : pt) : Prop := b.1 <> o /\ (a.1 = o \/ after o a.1 b.1).
Definition placed (p : pt) : Prop := p.1 = o \/ up p.1.
Lemma earlier_ok g q a b : exact g -> q.1 = o -> placed a -> placed b -> a.1 <> b.1 -> (before g q a b = true <-> earlier a b).
Proof.
  intros X Q A B N. rewrite before_exact, Q by done. unfold earlier. destruct B as [B|B].
  - rewrite B, mo_same1. split; [|by intros [[] _]]. intros [H|[_ H]]; [qlra|].
    pose proof (norm2_nonneg (vsub o a.1)). replace (norm2 (vsub o o)) with 0 in H; [qlra|].
    unfold norm2, vdot, vsub. cbn [fst snd]. ring.
  - pose proof (up_ne _ B) as NB. destruct A as [A|A].
    + rewrite A, mo_same3. split; [intros _; split; [done|by left]|]. intros _. right. split; [done|].
      pose proof (ray_pos _ B). replace (norm2 (vsub o o)) with 0; [done|]. unfold norm2, vdot, vsub. cbn [fst snd]. ring.
    + rewrite <- after_exact by done. split; [intros; split; [done|by right]|]. intros [_ [H|H]]; [|done].
      by destruct (up_ne _ A).
Qed.
Lemma sort_sorted g q l : exact g -> q.1 = o -> Forall placed l -> NoDup (fst <$> l) -> StronglySorted earlier (sort (before g q) l).
Proof.
  intros X Q F N. rewrite sort_isort.
  assert (forall l', l' `sublist_of` l -> True) as _ by done.
  revert F N. induction l as [|x l IH]; intros F N; [constructor|].
  change (isort (before g q) (x :: l)) with (isort_insert (before g q) x (isort (before g q) l)).
  apply Forall_cons in F. destruct F as [PX F]. cbn [fmap list_fmap] in N. apply NoDup_cons in N. destruct N as [NX N].
  set (l' := isort (before g q) l) in *.
  assert (Forall (fun y => placed y /\ y.1 <> x.1) l') as F'.
  { subst l'. rewrite isort_perm. rewrite Forall_forall in F. apply Forall_forall. intros y Y. split; [by apply F|].
    intros E. apply NX. rewrite <- E. by apply elem_of_list_fmap_1. }
  specialize (IH F N). clearbody l'. clear NX N F l. revert F' IH. induction l' as [|y l IH]; intros F SS; [by repeat constructor|].
  cbn. apply Forall_cons in F. destruct F as [[PY NY] F]. apply StronglySorted_inv in SS. destruct SS as [SS SY].
  rewrite Forall_forall in F, SY.
  destruct (before g q y x) eqn:E.
  - apply (earlier_ok g q) in E; try done. constructor; [apply IH; [by apply Forall_forall|done]|].
    rewrite isort_insert_perm. constructor; [done|]. by apply Forall_forall.
  - assert (earlier x y) as XY.
    { assert (~ earlier y x) as NE by (intros H; apply (earlier_ok g q) in H; [congruence|done..]).
      destruct PX as [PX|PX].
      - split; [congruence|by left].
      - destruct PY as [PY|PY]; [destruct NE; split; [by apply up_ne|by left]|].
        split; [by apply up_ne|]. right. apply after_total; [done|done|done|]. intros H. apply NE. split; [by apply up_ne|by right]. }
    constructor; [constructor; [done|by apply Forall_forall]|]. constructor; [done|]. apply Forall_forall. intros z Z.
    destruct (SY z Z) as [NZ YZ]. destruct (F z Z) as [PZ _]. split; [done|]. destruct XY as [NYO XY].
    destruct YZ as [YZ|YZ]; [done|]. destruct XY as [XY|XY]; [by left|]. right.
    destruct PX as [PX|PX].
    + exfalso. rewrite PX in XY. destruct XY as [XY|(m & M & XY)]; [rewrite mo_same3 in XY; qlra|].
      apply NYO. unfold on_line in XY. rewrite XY. apply vec_eq; cbn [fst snd]; ring.
    + destruct PY as [PY|PY]; [done|]. destruct PZ as [PZ|PZ]; [done|]. by apply (after_transitive x.1 y.1).
Qed.
Lemma sort_perm g q l : sort (before g q) l ≡ₚ l.
Proof. rewrite sort_isort. apply isort_perm. Qed.
End order.
