(** * Convex polygons: the order of the vertices, and ear clipping. *)
From Coq Require Import QArith Qcanon.
From Verif Require Import Base QcTac FillModel GeoModel MapModel PointModel PointSpec PointProof PolyModel PolySpec PolyProof
  TriProof EarProof.
Local Open Scope Qc_scope.

(** ** Strictly convex corners *)

Section strict.
Context (vs : list vec3).
Local Notation c := (corner vs).
Local Notation n := (length vs).
Context (Hn : (2 < n)%nat) (Hflat : Forall flat vs) (Hdup : NoDup vs) (Hconvex : convex vs).
Context (Hleft : forall i, 0 < orient (c i) (c (S i)) (c (S (S i)))).

Lemma previous_left i : 0 < orient (c (i + n - 1)) (c i) (c (S i)).
Proof.
  pose proof (Hleft (i + n - 1)%nat) as H. replace (S (i + n - 1))%nat with (i + n)%nat in H by lia.
  replace (S (i + n))%nat with (S i + n)%nat in H by lia. by rewrite !corner_periodic in H.
Qed.
(** No vertex is on the line of an edge, except its ends. *)
Lemma edge_strict i j : c j <> c i -> c j <> c (S i) -> 0 < orient (c i) (c (S i)) (c j).
Proof.
  intros N1 N2. destruct (Qcle_lt_or_eq 0 (orient (c i) (c (S i)) (c j)) (Hconvex i j)) as [|Z]; [done|]. exfalso. symmetry in Z.
  pose proof (previous_left i) as PI. pose proof (previous_left j) as PJ. pose proof (Hleft i) as NI.
  pose proof (Hconvex (i + n - 1)%nat j) as C1. replace (S (i + n - 1))%nat with (i + n)%nat in C1 by lia. rewrite corner_periodic in C1.
  pose proof (Hconvex (S i) j) as C2.
  pose proof (Hconvex (j + n - 1)%nat i) as D1. replace (S (j + n - 1))%nat with (j + n)%nat in D1 by lia. rewrite corner_periodic in D1.
  pose proof (Hconvex (j + n - 1)%nat (S i)) as D2. replace (S (j + n - 1))%nat with (j + n)%nat in D2 by lia. rewrite corner_periodic in D2.
  pose proof (Hconvex j i) as E1. pose proof (Hconvex j (S i)) as E2.
  assert (c i <> c (S i)) as N3 by (apply corner_next_distinct; [done|lia]).
  pose proof (aligned_on_line (c j) (c i) (c (S i)) ltac:(by apply corner_flat) ltac:(by apply corner_flat) ltac:(by apply corner_flat) N3 Z) as OL.
  set (t := PointCurvilinearCoordinate (c j) (c i) (c (S i))) in OL. clearbody t.
  set (a := c i) in *. set (b := c (S i)) in *. set (w := c j) in *.
  assert (0 < t) as T0.
  { assert (orient (c (i + n - 1)) a w = t * orient (c (i + n - 1)) a b) as Q by (rewrite OL; unfold orient; cbn [fst snd]; ring).
    rewrite Q in C1. destruct (Qc_dec t 0) as [[A|A]|A]; [|done|].
    - exfalso. pose proof (times_pos (- t) (orient (c (i + n - 1)) a b) ltac:(qlra) PI) as P.
      replace (- t * orient (c (i + n - 1)) a b) with (- (t * orient (c (i + n - 1)) a b)) in P by ring. qlra.
    - exfalso. apply N1. apply (on_line_0 a b). by rewrite <- A. }
  assert (t < 1) as T1.
  { assert (orient b (c (S (S i))) w = (1 - t) * orient a b (c (S (S i)))) as Q by (rewrite OL; unfold orient; cbn [fst snd]; ring).
    rewrite Q in C2. destruct (Qc_dec t 1) as [[A|A]|A]; [done|..].
    - exfalso. pose proof (times_pos (t - 1) (orient a b (c (S (S i)))) ltac:(qlra) NI) as P.
      replace ((t - 1) * orient a b (c (S (S i)))) with (- ((1 - t) * orient a b (c (S (S i))))) in P by ring. qlra.
    - exfalso. apply N2. apply (on_line_1 a b). by rewrite <- A. }
  (* w is strictly between a and b: its neighbours are on the line of a and b *)
  assert (forall u, 0 <= orient u w a -> 0 <= orient u w b -> orient u w a = 0 /\ orient u w b = 0) as K.
  { intros u U1 U2. assert ((1 - t) * orient u w a + t * orient u w b = 0) as Q by (rewrite OL; unfold orient; cbn [fst snd]; ring).
    pose proof (times_nonneg (1 - t) (orient u w a) ltac:(qlra) U1). pose proof (times_nonneg t (orient u w b) ltac:(qlra) U2).
    assert ((1 - t) * orient u w a = 0) as Q1 by qlra. assert (t * orient u w b = 0) as Q2 by qlra.
    apply Qcmult_integral in Q1, Q2. destruct Q1 as [Q1|Q1]; [qlra|]. destruct Q2 as [Q2|Q2]; [rewrite Q2 in T0; qlra|]. done. }
  destruct (K (c (j + n - 1)) D1 D2) as [K1 K2].
  assert (orient w (c (S j)) a = 0 /\ orient w (c (S j)) b = 0) as [K3 K4].
  { assert ((1 - t) * orient w (c (S j)) a + t * orient w (c (S j)) b = 0) as Q by (rewrite OL; unfold orient; cbn [fst snd]; ring).
    pose proof (times_nonneg (1 - t) (orient w (c (S j)) a) ltac:(qlra) E1). pose proof (times_nonneg t (orient w (c (S j)) b) ltac:(qlra) E2).
    assert ((1 - t) * orient w (c (S j)) a = 0) as Q1 by qlra. assert (t * orient w (c (S j)) b = 0) as Q2 by qlra.
    apply Qcmult_integral in Q1, Q2. destruct Q1 as [Q1|Q1]; [qlra|]. destruct Q2 as [Q2|Q2]; [rewrite Q2 in T0; qlra|]. done. }
  (* then the three consecutive vertices around w are on one line *)
  assert (a <> w) as N4 by congruence.
  pose proof (flat_distinct a w ltac:(by apply corner_flat) ltac:(by apply corner_flat) N4) as DW.
  assert (orient (c (j + n - 1)) w (c (S j)) = 0) as Z'.
  { apply (line_three a w); [done|..].
    - transitivity (orient (c (j + n - 1)) a w); [unfold orient; ring|].
      transitivity (- orient (c (j + n - 1)) w a); [unfold orient; ring|]. rewrite K1. ring.
    - unfold orient. ring.
    - transitivity (orient w (c (S j)) a); [unfold orient; ring|]. exact K3. }
  rewrite Z' in PJ. qlra.
Qed.

Lemma turn_transitive o a b d e : 0 < orient o a d -> 0 <= orient o a b -> 0 < orient o a e -> 0 < orient o b d -> 0 < orient o d e ->
  0 < orient o b e.
Proof.
  intros P1 P2 P3 P4 P5.
  assert (orient o a d * orient o b e = orient o a b * orient o d e + orient o a e * orient o b d) as Q by (unfold orient; ring).
  pose proof (times_nonneg _ _ P2 (Qclt_le_weak _ _ P5)). pose proof (times_pos _ _ P3 P4).
  destruct (Qclt_le_dec 0 (orient o b e)) as [|L]; [done|]. exfalso.
  pose proof (times_nonneg (orient o a d) (- orient o b e) (Qclt_le_weak _ _ P1) ltac:(qlra)) as R.
  replace (orient o a d * - orient o b e) with (- (orient o a d * orient o b e)) in R by ring. qlra.
Qed.
Lemma corner_index i j : (i < j)%nat -> (j < i + n)%nat -> c j <> c i.
Proof.
  intros L U. apply corner_distinct; [done|lia|]. intros E.
  pose proof (Nat.div_mod i n) as A. pose proof (Nat.div_mod j n) as B. rewrite E in B.
  assert (n * (j / n) = n * (i / n) + (j - i))%nat as C by lia.
  assert (n * (j / n - i / n) = j - i)%nat as D by (rewrite Nat.mul_sub_distr_l; lia).
  destruct (j / n - i / n)%nat as [|k]; [lia|]. nia.
Qed.
(** Seen from a vertex, the others appear in order. *)
Lemma seen_in_order i d e : (0 < d)%nat -> (d < e)%nat -> (e < n)%nat -> 0 < orient (c i) (c (i + d)) (c (i + e)).
Proof.
  intros D L E. induction e as [|e IH]; [lia|].
  assert (forall k, (2 <= k < n)%nat -> 0 < orient (c i) (c (i + 1)) (c (i + k))) as FIRST.
  { intros k K. replace (i + 1)%nat with (S i) by lia. apply edge_strict; [apply corner_index; lia|apply corner_index; lia]. }
  assert (forall k, (1 <= k)%nat -> (S k < n)%nat -> 0 < orient (c i) (c (i + k)) (c (i + S k))) as NEXT.
  { intros k K1 K2. rewrite <- orient_rotate. rewrite <- plus_n_Sm. apply edge_strict.
    - intros Z. symmetry in Z. revert Z. apply corner_index; lia.
    - intros Z. symmetry in Z. revert Z. apply corner_index; lia. }
  destruct (decide (d = e)) as [-> |N]; [apply NEXT; lia|].
  destruct (decide (d = 1%nat)) as [-> |N1]; [apply FIRST; lia|].
  apply (turn_transitive (c i) (c (i + 1)) (c (i + d)) (c (i + e)) (c (i + S e))).
  - apply FIRST; lia.
  - apply Qclt_le_weak, FIRST; lia.
  - apply FIRST; lia.
  - apply IH; lia.
  - apply NEXT; lia.
Qed.
Lemma strict_ordered : ordered vs.
Proof.
  intros i j k a b d L A B D. pose proof (lookup_lt_Some _ _ _ D) as LK.
  rewrite corner_lookup in A, B, D by lia. injection A as <-. injection B as <-. injection D as <-.
  pose proof (seen_in_order i (j - i) (k - i)) as Q. replace (i + (j - i))%nat with j in Q by lia.
  replace (i + (k - i))%nat with k in Q by lia. apply Q; lia.
Qed.
End strict.

(** ** Straight vertices in a convex polygon *)

Section left.
Context (vs : list vec3).
Local Notation c := (corner vs).
Local Notation n := (length vs).
Context (Hn : (2 < n)%nat) (Hdup : NoDup vs) (Hleft : left_turning vs).

Lemma left_distinct i : c i <> c (S i).
Proof. destruct Hleft as (_ & D & _). apply D. Qed.
Lemma left_flat : Forall flat vs.
Proof. apply Hleft. Qed.
(** Along straight vertices one moves forward. *)
Lemma forward i d : (0 < d)%nat -> (forall k, 0 < k < d -> ~ real c n (i + k))%nat -> exists l, 1 <= l /\ on_line (c i) (c (S i)) l (c (i + d)) /\
  exists m, 0 < m /\ vsub (c (i + d)) (c (i + d - 1)) = vscale m (vsub (c (S i)) (c i)).
Proof.
  intros D. induction d as [|d IH]; intros S; [lia|]. destruct d as [|d].
  - exists 1. split; [done|]. rewrite !Nat.add_1_r. split.
    + unfold on_line. apply vec_eq; cbn [fst snd]; ring.
    + exists 1. split; [done|]. replace (Datatypes.S i - 1)%nat with i by lia. unfold vscale, vsub. apply vec_eq; cbn [fst snd]; ring.
  - destruct IH as (l & L & OL & m & M & E); [lia|intros k K; apply S; lia|].
    pose proof (proj2 (proj2 Hleft) (i + d)%nat) as T. cbn zeta in T. destruct T as [T|(k & K & T)].
    { exfalso. apply (S (Datatypes.S d) ltac:(lia)). rewrite <- plus_n_Sm.
      apply real_S; [intros; apply corner_flat, left_flat|apply corner_periodic|lia|apply left_distinct|].
      intros Z. rewrite Z in T. qlra. }
    rewrite <- !plus_n_Sm in *. replace (Datatypes.S (i + d) - 1)%nat with (i + d)%nat in E by lia.
    replace (Datatypes.S (Datatypes.S (i + d)) - 1)%nat with (Datatypes.S (i + d)) by lia.
    set (a := c i) in *. set (b := c (Datatypes.S i)) in *. set (u := c (i + d)) in *. set (v := c (Datatypes.S (i + d))) in *.
    assert (vsub (c (Datatypes.S (Datatypes.S (i + d)))) v = vscale ((k - 1) * m) (vsub b a)) as E2.
    { transitivity (vscale (k - 1) (vsub v u)).
      - rewrite T. unfold vscale, vsub. apply vec_eq; cbn [fst snd]; ring.
      - rewrite E. unfold vscale. apply vec_eq; cbn [fst snd]; ring. }
    assert (0 < (k - 1) * m) as P by (apply times_pos; [qlra|done]).
    exists (l + (k - 1) * m). split; [qlra|]. split; [|by exists ((k - 1) * m)].
    unfold on_line in *. pose proof (f_equal (fun x : vec3 => x.1.1) E2) as X. pose proof (f_equal (fun x : vec3 => x.1.2) E2) as Y.
    pose proof (f_equal (fun x : vec3 => x.2) E2) as W. cbn [vsub vscale fst snd] in X, Y, W.
    pose proof (f_equal (fun x : vec3 => x.1.1) OL) as X'. pose proof (f_equal (fun x : vec3 => x.1.2) OL) as Y'.
    pose proof (f_equal (fun x : vec3 => x.2) OL) as W'. cbn [fst snd] in X', Y', W'.
    apply vec_eq; cbn [fst snd].
    + transitivity ((c (Datatypes.S (Datatypes.S (i + d)))).1.1 - v.1.1 + v.1.1); [ring|]. rewrite X, X'. ring.
    + transitivity ((c (Datatypes.S (Datatypes.S (i + d)))).1.2 - v.1.2 + v.1.2); [ring|]. rewrite Y, Y'. ring.
    + transitivity ((c (Datatypes.S (Datatypes.S (i + d)))).2 - v.2 + v.2); [ring|]. rewrite W, W'. ring.
Qed.
Lemma left_not_real i : ~ real c n (S i) -> exists k, 1 < k /\ on_line (c i) (c (S i)) k (c (S (S i))).
Proof.
  intros R. pose proof (proj2 (proj2 Hleft) i) as T. cbn zeta in T. destruct T as [T|T]; [|done]. exfalso. apply R.
  apply real_S; [intros; apply corner_flat, left_flat|apply corner_periodic|lia|apply left_distinct|].
  intros Z. rewrite Z in T. qlra.
Qed.
Lemma real_mod i : real c n i -> real c n (i mod n).
Proof.
  intros R. rewrite (Nat.div_mod i n) in R by lia. rewrite Nat.add_comm, Nat.mul_comm in R. revert R. generalize (i / n)%nat.
  intros m. induction m as [|m IH]; [by rewrite Nat.add_0_r|]. intros R. apply IH.
  refine (proj1 (real_per c n _ _ _ _ _) _); [intros; apply corner_flat, left_flat|apply corner_periodic|lia|apply left_distinct|].
  replace (i mod n + m * n + n)%nat with (i mod n + S m * n)%nat by lia. done.
Qed.
(** Somewhere there is a real corner. *)
Lemma some_real : exists s, (s < n)%nat /\ real c n s.
Proof.
  destruct (decide (Exists (real c n) (seq 0 n))) as [E|E].
  - apply Exists_exists in E. destruct E as (s & I & R). apply elem_of_seq in I. exists s. split; [lia|done].
  - exfalso. assert (forall i, ~ real c n i) as NR.
    { intros i R. apply E. apply Exists_exists. exists (i mod n)%nat. split; [|by apply real_mod].
      apply elem_of_seq. pose proof (Nat.mod_upper_bound i n). lia. }
    apply (not_all_straight vs 0); [apply left_distinct|lia|]. intros j _ _. apply left_not_real, NR.
Qed.
Local Notation ws := (corners vs).
(** The edges of the corners are pieces of lines of edges, in the same direction. *)
Lemma corners_edge v : (0 < length ws)%nat -> exists x y l, corner ws v = c x /\ corner ws (S v) = c y /\ 1 <= l /\ (x < y)%nat /\
  on_line (c x) (c (S x)) l (c y).
Proof.
  intros L.
  set (big := filter (real c n) (seq 0 ((v + 2) * n))).
  assert (c <$> big = concat (replicate (v + 2) ws)) as B.
  { unfold big. rewrite real_copies; [rewrite corners_filter; done|intros; apply corner_flat, left_flat|apply corner_periodic|lia|apply left_distinct]. }
  assert (forall j, (j <= S v)%nat -> exists x, big !! j = Some x /\ c x = corner ws j) as G.
  { intros j J. assert ((c <$> big) !! j = Some (corner ws j)) as H by (rewrite B; apply corner_copies; nia).
    rewrite list_lookup_fmap in H. destruct (big !! j) as [x|]; [|done]. injection H as H. eauto. }
  destruct (G v) as (x & X & CX); [lia|]. destruct (G (S v)) as (y & Y & CY); [lia|].
  pose proof (filter_seq_next _ _ _ _ _ _ X Y) as (_ & _ & XY & BXY).
  destruct (forward x (y - x)) as (l & L1 & OL & _); [lia|intros k K; apply BXY; lia|].
  replace (x + (y - x))%nat with y in OL by lia. exists x, y, l. rewrite <- CX, <- CY. split_and!; done.
Qed.
Lemma on_line_self a b l : 0 < l -> on_line a b l a -> a = b.
Proof.
  intros L OL. unfold on_line in OL.
  pose proof (f_equal (fun x : vec3 => x.1.1) OL) as X. pose proof (f_equal (fun x : vec3 => x.1.2) OL) as Y.
  pose proof (f_equal (fun x : vec3 => x.2) OL) as W. cbn [fst snd] in X, Y, W.
  apply vec_eq.
  all: match goal with |- ?u = ?v => assert (l * (v - u) = 0) as Q by qlra; apply Qcmult_integral in Q; destruct Q as [Q|Q]; [rewrite Q in L; qlra|qlra] end.
Qed.
Lemma corners_three : (2 < length ws)%nat.
Proof.
  assert (0 < length ws)%nat as L0.
  { destruct some_real as (s & S & R). rewrite corners_filter, fmap_length.
    assert (s ∈ filter (real c n) (seq 0 n)) as I by (apply elem_of_list_filter; split; [done|apply elem_of_seq; lia]).
    destruct (filter (real c n) (seq 0 n)); [by apply elem_of_nil in I|cbn; lia]. }
  destruct (decide (length ws = 1)%nat) as [L1|N1].
  { exfalso. destruct (corners_edge 0) as (x & y & l & A & B & L & _ & OL); [done|].
    pose proof (corner_periodic ws 0) as P. rewrite L1 in P. cbn [Nat.add] in P. rewrite <- B, P, A in OL.
    apply (left_distinct x). apply (on_line_self _ _ l); [qlra|done]. }
  destruct (decide (length ws = 2)%nat) as [L2|N2]; [|lia].
  exfalso. apply (corners_real vs 0); [apply left_flat|done|lia|lia|].
  pose proof (corner_periodic ws 0) as P. rewrite L2 in P. cbn [Nat.add] in P. rewrite P. unfold orient. ring.
Qed.
Lemma corners_convex : convex vs -> convex ws.
Proof.
  intros C i j. pose proof corners_three as L3.
  destruct (corners_edge i) as (x & y & l & A & B & L & _ & OL); [lia|].
  destruct (corners_edge j) as (z & _ & _ & D & _); [lia|].
  rewrite A, B, D. replace (orient (c x) (c y) (c z)) with (l * orient (c x) (c (S x)) (c z)).
  - apply times_nonneg; [qlra|apply C].
  - rewrite OL. unfold orient. cbn [fst snd]. ring.
Qed.
Lemma corners_nodup : NoDup ws.
Proof. eapply sublist_nodup; [apply corners_sublist|done]. Qed.
Lemma corners_flat : Forall flat ws.
Proof. eapply sublist_forall; [apply corners_sublist|apply left_flat]. Qed.
Lemma corners_ordered : convex vs -> ordered ws.
Proof.
  intros C. pose proof corners_three as L3. pose proof (corners_convex C) as CC.
  apply strict_ordered; [done|apply corners_flat|apply corners_nodup|done|].
  intros i. destruct (Qcle_lt_or_eq _ _ (CC i (S (S i)))) as [|Z]; [done|]. exfalso.
  apply (corners_real vs i); [apply left_flat|done|lia|lia|]. done.
Qed.
End left.

(** ** Vertices in order *)

Lemma sublist_ordered l k : l `sublist_of` k -> ordered k -> ordered l.
Proof.
  intros SL O i j m a b c L A B C.
  assert (forall (l k : list vec3), l `sublist_of` k -> exists f : nat -> nat, (forall i j, i < j -> f i < f j)%nat /\
    forall i x, l !! i = Some x -> k !! f i = Some x) as EMB.
  { clear. induction 1 as [|x l k _ (f & M & F)|x l k _ (f & M & F)].
    - exists (fun i => i). split; [done|]. done.
    - exists (fun i => match i with O => O | S i => S (f i) end). split.
      + intros [|i] [|j] H; try lia. specialize (M i j). lia.
      + intros [|i] y H; [done|]. by apply F.
    - exists (fun i => S (f i)). split; [intros i j H; specialize (M i j H); lia|]. intros i y H. by apply F. }
  destruct (EMB _ _ SL) as (f & M & F).
  apply (O (f i) (f j) (f m)); [|by apply F..]. split; apply M; lia.
Qed.
Lemma ordered_corner vs i j k : ordered vs -> (i < j < k)%nat -> (k < length vs)%nat -> 0 < orient (corner vs i) (corner vs j) (corner vs k).
Proof. intros O L K. apply (O i j k); [done|apply corner_lookup; lia..]. Qed.
Lemma ordered_left vs i : ordered vs -> (2 < length vs)%nat -> 0 < orient (corner vs i) (corner vs (S i)) (corner vs (S (S i))).
Proof.
  intros O L. rewrite <- (corner_mod vs i), <- (corner_mod vs (S i)), <- (corner_mod vs (S (S i))).
  set (n := length vs) in *. pose proof (Nat.mod_upper_bound i n ltac:(lia)) as M.
  assert (S i mod n = S (i mod n) mod n)%nat as -> by (rewrite <- (Nat.add_1_r i), <- (Nat.add_1_r (i mod n)), Nat.add_mod_idemp_l by lia; reflexivity).
  assert (S (S i) mod n = S (S (i mod n)) mod n)%nat as ->.
  { replace (S (S i)) with (i + 2)%nat by lia. replace (S (S (i mod n))) with (i mod n + 2)%nat by lia. rewrite Nat.add_mod_idemp_l by lia. reflexivity. }
  set (m := (i mod n)%nat) in *. clearbody m. unfold n in *. rewrite !corner_mod.
  destruct (decide (S (S m) < length vs)%nat) as [A|A]; [apply ordered_corner; [done|lia|done]|].
  destruct (decide (S m < length vs)%nat) as [B|B].
  - replace (S (S m)) with (0 + length vs)%nat by lia. rewrite corner_periodic, <- orient_rotate2. apply ordered_corner; [done|lia|done].
  - replace (S (S m)) with (1 + length vs)%nat by lia. replace (S m) with (0 + length vs)%nat by lia.
    rewrite !corner_periodic, <- orient_rotate. apply ordered_corner; [done|lia|done].
Qed.
Lemma ordered_corners vs : ordered vs -> (2 < length vs)%nat -> corners vs = vs.
Proof.
  intros O L. etransitivity; [|symmetry; apply corner_all]. unfold corners. f_equal.
  assert (forall l, Forall (fun i => ~ straight vs i) l -> filter (λ i, ¬ straight vs i) l = l) as Q.
  { induction 1 as [|i l H _ IH]; [done|]. rewrite filter_cons, decide_True by done. by f_equal. }
  apply Q. apply Forall_forall. intros i _. unfold straight. pose proof (ordered_left vs (i + length vs - 1) O L) as H.
  replace (S (i + length vs - 1)) with (i + length vs)%nat in H by lia.
  replace (S (i + length vs)) with (S i + length vs)%nat in H by lia. rewrite !corner_periodic in H. intros Z. rewrite Z in H. qlra.
Qed.
(** Every vertex is an ear; it is enough to look at the first one. *)
Lemma ordered_ear vs : ordered vs -> (2 < length vs)%nat -> is_ear vs 0.
Proof.
  intros O L. split; [lia|]. cbn [Nat.add]. split.
  - rewrite <- orient_rotate. apply ordered_corner; [done|lia|lia].
  - intros w W N1 N2 N3. apply elem_of_list_lookup in W. destruct W as [i W]. pose proof (lookup_lt_Some _ _ _ W) as LI.
    rewrite corner_lookup in W by done. injection W as <-.
    right; right. cbn [fst snd].
    assert (i <> 0 /\ i <> 1 /\ i <> length vs - 1)%nat as (I0 & I1 & I2) by (split_and!; intros ->; congruence).
    pose proof (ordered_corner vs 1 i (length vs - 1) O ltac:(lia) ltac:(lia)) as H.
    replace (orient (corner vs 1) (corner vs (length vs - 1)) (corner vs i)) with
      (- orient (corner vs 1) (corner vs i) (corner vs (length vs - 1))) by (unfold orient; ring). qlra.
Qed.
Lemma ordered_not_stuck vs : stuck vs -> ordered (corners vs) -> (2 < length (corners vs))%nat -> False.
Proof.
  induction 1 as [vs L|vs L N|vs v L E S IH]; intros O L3; [lia|by apply (N 0%nat), ordered_ear|].
  assert (v < length (corners vs))%nat as V by apply E.
  assert (length (delete v (corners vs)) = length (corners vs) - 1)%nat as LD by (rewrite length_delete; [lia|apply lookup_lt_is_Some; lia]).
  assert (ordered (delete v (corners vs))) as OD by (eapply sublist_ordered; [apply sublist_delete|done]).
  apply IH; rewrite ordered_corners by (done || lia); [done|lia].
Qed.
Lemma ordered_ears vs ts : ears vs ts -> ordered (corners vs) ->
  Forall (fun t => 0 < area t) ts /\ (length ts + 2 = length (corners vs))%nat.
Proof.
  assert (0 < half) as HH by done.
  induction 1 as [vs a b c E|vs v ts L EAR ES IH]; intros O.
  - rewrite E in O |- *. split; [|done]. constructor; [|constructor]. unfold area. cbn [fst snd].
    apply times_pos; [done|]. by apply (O 0 1 2)%nat; [lia|..].
  - assert (v < length (corners vs))%nat as V by apply EAR.
    assert (length (delete v (corners vs)) = length (corners vs) - 1)%nat as LD by (rewrite length_delete; [lia|apply lookup_lt_is_Some; lia]).
    assert (ordered (delete v (corners vs))) as OD by (eapply sublist_ordered; [apply sublist_delete|done]).
    destruct IH as [P N]; [rewrite ordered_corners by (done || lia); done|].
    rewrite ordered_corners in N by (done || lia). split; [|cbn [length]; lia].
    constructor; [|done]. unfold area. cbn [fst snd]. apply times_pos; [done|].
    destruct EAR as (_ & PO & _). set (p := corner _ (_ - 1)) in *. by rewrite orient_rotate.
Qed.
Lemma ear_clipping_convex g vs : exact g -> (2 < length vs)%nat -> NoDup vs -> left_turning vs -> convex vs ->
  exists is ts, PolygonTriangulationByEarClipping g vs = Ok is /\ ExtractTriangulationPoints vs is = Ok ts /\ ears vs ts /\
    PolygonArea g vs = Ok (total_area ts) /\ Forall (fun t => 0 < area t) ts /\ (length ts + 2 = length (corners vs))%nat.
Proof.
  intros X L N LT C. pose proof (corners_ordered vs L N LT C) as O. pose proof (corners_three vs L N LT) as L3.
  pose proof (ear_clipping g vs X ltac:(by apply left_flat) N) as Q.
  destruct (PolygonTriangulationByEarClipping g vs) as [is| | | |]; try done.
  - destruct Q as (ts & A & B & D). exists is, ts. pose proof (ordered_ears vs ts B O) as [P M]. done.
  - exfalso. by apply (ordered_not_stuck vs).
Qed.
Lemma first_vertex_convex g vs is ts : exact g -> Forall flat vs -> convex vs -> PolygonTriangulationByFirstVertex g vs = Ok is ->
  ExtractTriangulationPoints vs is = Ok ts -> Forall (fun t => 0 < area t) ts.
Proof.
  intros X F C E T. rewrite (first_vertex_extract g vs is E) in T. injection T as <-.
  apply Forall_forall. intros t H. apply elem_of_list_filter in H. destruct H as [NS H].
  apply elem_of_list_fmap in H. destruct H as (i & -> & I). apply elem_of_seq in I.
  unfold not_straight, corner_triple in NS. cbn [fst snd] in NS.
  assert (0 < half) as HH by done. apply times_pos; [done|]. unfold corner_triple. cbn [fst snd].
  rewrite !corner_vnth in NS |- * by lia. pose proof (C i 0%nat) as CI. rewrite orient_rotate in CI.
  destruct (Qcle_lt_or_eq _ _ CI) as [|Z]; [done|]. symmetry in Z.
  apply (aligned_orient g) in Z; [by rewrite Z in NS|done|by apply corner_flat..].
Qed.
