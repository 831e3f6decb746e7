(** * Proofs about the triangulations of a polygon. *)
From Coq Require Import QArith Qcanon Sorted.
From Verif Require Import Base QcTac FillModel GeoModel MapModel PointModel PointSpec PointProof PolyModel PolySpec PolyProof.
Local Open Scope Qc_scope.

(** ** From the first vertex *)

Definition corner_triple (vs : list vec3) (i : nat) : triangle := (vnth vs 0, vnth vs i, vnth vs (S i)).
Definition not_straight (g : geo_config) (t : triangle) : Prop := PointIsAligned g t.1.1 t.1.2 t.2 = false.
Global Typeclasses Opaque not_straight.
Global Instance not_straight_dec g t : Decision (not_straight g t).
Proof. unfold not_straight. apply bool_eq_dec. Defined.

Lemma first_vertex_loop_closed g vs k v fuel : (v + 2 + k = length vs)%nat -> (k < fuel)%nat ->
  first_vertex_loop g vs v fuel =
  concat ((fun i => [0; i; S i]%nat) <$> filter (fun i => not_straight g (corner_triple vs i)) (seq (S v) k)).
Proof.
  revert v fuel. induction k as [|k IH]; intros v fuel E F; (destruct fuel as [|fuel]; [lia|]); cbn [first_vertex_loop].
  - replace (v + 2)%nat with (length vs) by lia. rewrite Nat.mod_same by lia. done.
  - rewrite !Nat.mod_small by lia. destruct (Nat.eqb_spec (v + 2) 0) as [?|_]; [lia|].
    rewrite (IH (S v) fuel) by lia.
    cbn [seq]. rewrite filter_cons.
    replace (v + 1)%nat with (S v) by lia. replace (v + 2)%nat with (S (S v)) by lia.
    destruct (PointIsAligned g (vnth vs 0) (vnth vs (S v)) (vnth vs (S (S v)))) eqn:A.
    + rewrite decide_False; [done|]. unfold not_straight, corner_triple. cbn [fst snd]. by rewrite A.
    + rewrite decide_True; [done|]. done.
Qed.
Lemma concat_triples_length (l : list nat) : (length (concat ((fun i => [0; i; S i]%nat) <$> l)) mod 3 = 0)%nat.
Proof.
  induction l as [|a l IH]; [done|]. rewrite fmap_cons. cbn [concat app length].
  replace (S (S (S (length (concat ((λ i : nat, [0%nat; i; S i]) <$> l))))))%nat with
    (length (concat ((λ i : nat, [0%nat; i; S i]) <$> l)) + 1 * 3)%nat by lia.
  by rewrite Nat.mod_add.
Qed.
Lemma first_vertex_closed g vs : (2 < length vs)%nat -> PolygonTriangulationByFirstVertex g vs =
  Ok (concat ((fun i => [0; i; S i]%nat) <$>
    filter (fun i => not_straight g (corner_triple vs i)) (seq 1 (length vs - 2)))).
Proof.
  intros L. unfold PolygonTriangulationByFirstVertex.
  assert ((2 <? length vs)%nat = true) as -> by (by apply Nat.ltb_lt). cbn [require mbind outcome_bind]. cbn zeta.
  rewrite (first_vertex_loop_closed g vs (length vs - 2)) by lia.
  rewrite concat_triples_length. done.
Qed.
Lemma vget_vnth vs i : (i < length vs)%nat -> vget vs i = Ok (vnth vs i).
Proof.
  intros L. unfold vget, vnth. destruct (vs !! i) eqn:E; [by rewrite (nth_lookup_Some _ _ _ _ E)|].
  apply lookup_ge_None in E. lia.
Qed.
Lemma extract_triples vs (l : list nat) : Forall (fun i => S i < length vs)%nat l -> 
  ExtractTriangulationPoints vs (concat ((fun i => [0; i; S i]%nat) <$> l)) = Ok (corner_triple vs <$> l).
Proof.
  induction 1 as [|i l H _ IH]; [done|]. rewrite !fmap_cons. cbn [concat app ExtractTriangulationPoints].
  rewrite !vget_vnth by lia. cbn [mbind outcome_bind]. rewrite IH. done.
Qed.
Lemma filter_fmap {A B} (P : B -> Prop) `{!forall x, Decision (P x)} (f : A -> B) (l : list A) :
  filter P (f <$> l) = f <$> filter (fun x => P (f x)) l.
Proof.
  induction l as [|a l IH]; [done|]. rewrite fmap_cons, !filter_cons. destruct (decide (P (f a))); by rewrite IH.
Qed.
Lemma first_vertex_extract g vs is : PolygonTriangulationByFirstVertex g vs = Ok is ->
  ExtractTriangulationPoints vs is =
  Ok (filter (not_straight g) (corner_triple vs <$> seq 1 (length vs - 2))).
Proof.
  intros E. assert (2 < length vs)%nat as L.
  { unfold PolygonTriangulationByFirstVertex in E. destruct (Nat.ltb_spec 2 (length vs)); [done|done]. }
  rewrite first_vertex_closed in E by done. apply Ok_inj' in E. subst is.
  rewrite extract_triples.
  - f_equal. by rewrite filter_fmap.
  - apply Forall_forall. intros i H. apply elem_of_list_filter in H. destruct H as [_ H]. apply elem_of_seq in H. lia.
Qed.
Lemma first_vertex_indices g vs is : PolygonTriangulationByFirstVertex g vs = Ok is ->
  exists ks, Forall (fun k => (0 < k)%nat /\ (S k < length vs)%nat) ks /\ StronglySorted lt ks /\
    is = concat ((fun k => [0; k; S k]%nat) <$> ks).
Proof.
  intros E. assert (2 < length vs)%nat as L.
  { unfold PolygonTriangulationByFirstVertex in E. destruct (Nat.ltb_spec 2 (length vs)); [done|done]. }
  rewrite first_vertex_closed in E by done. apply Ok_inj' in E. eexists. split_and!; [| |done].
  - apply Forall_forall. intros k K. apply elem_of_list_filter in K. destruct K as [_ K]. apply elem_of_seq in K. lia.
  - assert (forall (P : nat -> Prop) (HP : forall x, Decision (P x)) s m, StronglySorted lt (filter P (seq s m)) /\
      Forall (fun k => s <= k)%nat (filter P (seq s m))) as Q.
    { intros P HP s m. revert s. induction m as [|m IH]; intros s; [split; constructor|]. cbn [seq]. rewrite filter_cons.
      destruct (IH (S s)) as [A B]. assert (Forall (fun k => s <= k)%nat (filter P (seq (S s) m))) as C.
      { eapply Forall_impl; [exact B|]. intros k K. cbn beta in K |- *. lia. }
      destruct (decide (P s)); [|done]. split; [|by constructor]. constructor; [done|].
      apply List.Forall_forall. intros k K. rewrite List.Forall_forall in B. specialize (B k K). cbn beta in B. lia. }
    apply Q.
Qed.
Lemma corner_triples_fan a l k : (k <= length l)%nat ->
  corner_triple (a :: l) <$> seq (S k) (length l - 1 - k) = fan a (drop k l).
Proof.
  intros K. remember (length l - 1 - k)%nat as d eqn:D. revert k K D. induction d as [|d IH]; intros k K D.
  - cbn. destruct (drop k l) as [|x [|y m]] eqn:X; [done|done|].
    assert (length (drop k l) = S (S (length m))) as Z by (by rewrite X). rewrite drop_length in Z. lia.
  - cbn [seq]. rewrite fmap_cons. rewrite IH by lia.
    destruct (drop k l) as [|x [|y m]] eqn:X.
    1-2: assert (length (drop k l) <= 1)%nat as Z by (rewrite X; cbn; lia); rewrite drop_length in Z; lia.
    rewrite fan_cons2. f_equal.
    + assert (forall i, drop k l !! i = l !! (k + i)%nat) as Q by (intros; by rewrite lookup_drop).
      pose proof (Q 0%nat) as Q0. pose proof (Q 1%nat) as Q1. rewrite X in Q0, Q1. cbn in Q0, Q1.
      unfold corner_triple, vnth. cbn [nth].
      rewrite (nth_lookup_Some l k _ x), (nth_lookup_Some l (S k) _ y); [done|..].
      * by rewrite Q1, Nat.add_1_r.
      * by rewrite Q0, Nat.add_0_r.
    + f_equal. rewrite <- (Nat.add_1_r k). rewrite <- drop_drop, X. done.
Qed.
Lemma total_filter (P : triangle -> Prop) `{!forall t, Decision (P t)} ts : (forall t, t ∈ ts -> ~ P t -> area t = 0) ->
  total_area (filter P ts) = total_area ts.
Proof.
  unfold total_area. induction ts as [|t ts IH]; intros HZ; [done|]. rewrite filter_cons.
  rewrite sum_of_cons. destruct (decide (P t)).
  - rewrite sum_of_cons, IH; [done|]. intros u U. apply HZ. by right.
  - rewrite IH; [|intros u U; apply HZ; by right]. rewrite (HZ t); [ring|by left|done].
Qed.
Lemma times_nonneg (a b : Qc) : 0 <= a -> 0 <= b -> 0 <= a * b.
Proof. intros A B. replace 0 with (0 * b) by ring. by apply Qcmult_le_compat_r. Qed.
Lemma times_pos (a b : Qc) : 0 < a -> 0 < b -> 0 < a * b.
Proof. intros A B. replace 0 with (0 * b) by ring. by apply Qcmult_lt_compat_r. Qed.
Lemma sine2_nonneg u v : 0 <= sine2 u v.
Proof.
  unfold sine2. destruct (Qc_eq_dec (norm2 u * norm2 v) 0) as [E|E].
  - rewrite E. replace (norm2 (vcross u v) / 0) with 0; [apply Qcle_refl|]. unfold Qcdiv. replace (/ 0) with 0; [ring|].
    apply Qc_is_canon. reflexivity.
  - pose proof (norm2_nonneg u). pose proof (norm2_nonneg v). pose proof (norm2_nonneg (vcross u v)).
    assert (0 <= norm2 u * norm2 v) by (by apply times_nonneg). 
    assert (0 < norm2 u * norm2 v) by (destruct (Qcle_lt_or_eq 0 (norm2 u * norm2 v)) as [?|Z]; [done|done|by rewrite <- Z in E]).
    destruct (Qclt_le_dec (norm2 (vcross u v) / (norm2 u * norm2 v)) 0) as [L|]; [|done]. exfalso.
    assert (norm2 (vcross u v) / (norm2 u * norm2 v) * (norm2 u * norm2 v) = norm2 (vcross u v)) as Q by (field; split; intros Z; rewrite Z in E; apply E; ring).
    pose proof (times_pos (- (norm2 (vcross u v) / (norm2 u * norm2 v))) (norm2 u * norm2 v)) as R. 
    assert (0 < - (norm2 (vcross u v) / (norm2 u * norm2 v))) as R1 by qlra. specialize (R R1 ltac:(done)).
    replace (- (norm2 (vcross u v) / (norm2 u * norm2 v)) * (norm2 u * norm2 v)) with
      (- (norm2 (vcross u v) / (norm2 u * norm2 v) * (norm2 u * norm2 v))) in R by ring.
    rewrite Q in R. qlra.
Qed.
Lemma vsub_same_norm a : norm2 (vsub a a) = 0.
Proof. unfold norm2, vdot, vsub. cbn. ring. Qed.
Lemma div_zero (x : Qc) : x / 0 = 0.
Proof. unfold Qcdiv. replace (/ 0) with 0; [ring|]. apply Qc_is_canon. reflexivity. Qed.
Lemma aligned_orient g a b c : exact g -> flat a -> flat b -> flat c -> PointIsAligned g a b c = true <-> orient a b c = 0.
Proof.
  intros X A B C. destruct (exact_tolerance g X) as (T & _ & M).
  unfold PointIsAligned, norm_zero. rewrite T, M.
  pose proof (sine2_nonneg (vsub b a) (vsub c a)) as P.
  pose proof (orient_cross b a c B A C) as O.
  assert (orient a c b = - orient a b c) as S by (unfold orient; ring). rewrite S in O.
  destruct (decide (a = b)) as [<-|N1].
  { unfold sine2. rewrite vsub_same_norm. replace (0 * norm2 (vsub c a)) with 0 by ring. rewrite div_zero.
    split; [intros _; unfold orient; ring|intros _; done]. }
  destruct (decide (a = c)) as [<-|N2].
  { unfold sine2. rewrite vsub_same_norm. replace (norm2 (vsub b a) * 0) with 0 by ring. rewrite div_zero.
    split; [intros _; unfold orient; ring|intros _; done]. }
  assert (0 < norm2 (vsub b a)) as P1 by (apply norm2_pos; intros Z; apply vsub_zero in Z; congruence).
  assert (0 < norm2 (vsub c a)) as P2 by (apply norm2_pos; intros Z; apply vsub_zero in Z; congruence).
  unfold sine2 in *. rewrite O in *.
  assert (norm2 (vsub b a) * norm2 (vsub c a) <> 0) as NZ by (intros Z; apply Qcmult_integral in Z; destruct Z as [Z|Z]; rewrite Z in *; qlra).
  split.
  - intros H. destruct (qle_spec (- orient a b c * - orient a b c / (norm2 (vsub b a) * norm2 (vsub c a))) (0 * 0)) as [L|]; [|done].
    assert (- orient a b c * - orient a b c / (norm2 (vsub b a) * norm2 (vsub c a)) = 0) as Z by qlra.
    apply quotient_zero in Z; [|done]. apply square_zero in Z. qlra.
  - intros ->. replace (- 0 * - 0 / (norm2 (vsub b a) * norm2 (vsub c a))) with 0.
    + done.
    + field. split; intros Z; rewrite Z in *; qlra.
Qed.
Lemma first_vertex_area g vs is : exact g -> Forall flat vs -> PolygonTriangulationByFirstVertex g vs = Ok is ->
  exists ts, ExtractTriangulationPoints vs is = Ok ts /\ PolygonArea g vs = Ok (total_area ts).
Proof.
  intros X F E. assert (2 < length vs)%nat as L.
  { unfold PolygonTriangulationByFirstVertex in E. destruct (Nat.ltb_spec 2 (length vs)); [done|done]. }
  apply first_vertex_extract in E. eexists. split; [exact E|].
  destruct vs as [|a l]; [cbn in L; lia|].
  rewrite (area_fan g _ a).
  2:{ split; [done|]. eapply Forall_impl; [exact F|]. intros p H. unfold flat in H. rewrite H. destruct X as [_ ->]. done. }
  f_equal. rewrite total_filter.
  - pose proof (corner_triples_fan a l 0) as C. rewrite drop_0, Nat.sub_0_r in C.
    cbn [length]. replace (S (length l) - 2)%nat with (length l - 1)%nat by lia. rewrite C by lia.
    destruct l as [|b l]; [cbn in L; lia|]. cbn [fan_closed app]. rewrite fan_cons2.
    unfold total_area. rewrite sum_of_cons.
    assert (forall m x, sum_of area (fan a (x :: m ++ [a])) = sum_of area (fan a (x :: m))) as Q.
    { induction m as [|y m IH]; intros x.
      - cbn. unfold area, orient. cbn. ring.
      - cbn [app]. rewrite !fan_cons2, !sum_of_cons, IH. done. }
    rewrite Q. unfold area at 1, orient. cbn [fst snd]. ring.
  - intros t H NP. unfold not_straight in NP. apply not_false_is_true in NP.
    apply elem_of_list_fmap in H. destruct H as (i & -> & _). unfold corner_triple in *. cbn [fst snd] in *.
    assert (forall i, flat (vnth (a :: l) i)) as FF.
    { intros j. unfold vnth. destruct (nth_in_or_default j (a :: l) (0, 0, 0)) as [H| ->]; [|done].
      rewrite Forall_forall in F. apply F. by apply elem_of_list_In. }
    apply aligned_orient in NP; try done. unfold area. cbn [fst snd]. rewrite NP. ring.
Qed.

(** ** From an internal point *)

Lemma fan_zip p a l z : fan p (a :: l ++ [z]) = zip_with (fun x y => (p, x, y)) (a :: l) (l ++ [z]).
Proof. revert a. induction l as [|b l IH]; intros a; [done|]. cbn [app]. rewrite fan_cons2, IH. done. Qed.
Lemma internal_point vs p : (2 < length vs)%nat -> exists is, PolygonTriangulationByInternalPoint vs = Ok is /\
  is = concat ((fun v => [length vs; v; ((v + 1) mod length vs)%nat]) <$> seq 0 (length vs)) /\
  ExtractTriangulationPointsByInternalPoint vs p is = Ok (fan_closed p vs).
Proof.
  intros L. unfold PolygonTriangulationByInternalPoint.
  assert ((2 <? length vs)%nat = true) as -> by (by apply Nat.ltb_lt). cbn [require mbind outcome_bind]. cbn zeta.
  assert (forall l : list nat, (length (concat ((fun v => [length vs; v; ((v + 1) mod length vs)%nat]) <$> l)) mod 3 = 0)%nat) as ->.
  { induction l as [|a l IH]; [done|]. rewrite fmap_cons. cbn [concat app length]. revert IH.
    generalize (length (concat ((λ v : nat, [length vs; v; ((v + 1) mod length vs)%nat]) <$> l))). intros k IH.
    replace (S (S (S k))) with (k + 1 * 3)%nat by lia. by rewrite Nat.mod_add. }
  cbn [Nat.eqb require mbind outcome_bind]. eexists. split; [done|]. split; [done|].
  destruct vs as [|a l]; [cbn in L; lia|]. unfold fan_closed. rewrite fan_zip, <- zip_edges.
  set (n := length (a :: l)) in *. set (ws := a :: l) in *.
  assert (forall is, Forall (fun i => i < n)%nat is ->
    ExtractTriangulationPointsByInternalPoint ws p (concat ((λ v : nat, [n; v; ((v + 1) mod n)%nat]) <$> is)) =
    Ok ((λ v : nat, (p, vnth ws v, vnth ws ((v + 1) mod n))) <$> is)) as Q.
  { induction 1 as [|i is H _ IH]; [done|]. rewrite !fmap_cons. cbn [concat app ExtractTriangulationPointsByInternalPoint].
    rewrite !vget_vnth; [|done || (apply Nat.mod_upper_bound; lia)..]. cbn [mbind outcome_bind]. rewrite IH. done. }
  apply Q. apply Forall_forall. intros i H. apply elem_of_seq in H. lia.
Qed.

(** ** Vertices inside the sides *)

Lemma line_shared a b x y z : (a.1.1 <> b.1.1 \/ a.1.2 <> b.1.2) -> (x.1.1 <> y.1.1 \/ x.1.2 <> y.1.2) ->
  orient a b x = 0 -> orient a b y = 0 -> orient x y z = 0 -> orient a b z = 0.
Proof.
  intros N M X Y Z.
  (* (y - x) is a multiple of (b - a): the product of orient a b z with the components of y - x vanishes *)
  assert ((y.1.1 - x.1.1) * orient a b z = 0) as P1.
  { transitivity ((b.1.1 - a.1.1) * orient x y z + (y.1.1 - z.1.1) * orient a b x + (z.1.1 - x.1.1) * orient a b y).
    - unfold orient. ring.
    - rewrite X, Y, Z. ring. }
  assert ((y.1.2 - x.1.2) * orient a b z = 0) as P2.
  { transitivity ((b.1.2 - a.1.2) * orient x y z + (y.1.2 - z.1.2) * orient a b x + (z.1.2 - x.1.2) * orient a b y).
    - unfold orient. ring.
    - rewrite X, Y, Z. ring. }
  apply Qcmult_integral in P1, P2. destruct P1 as [P1|]; [|done]. destruct P2 as [P2|]; [|done].
  destruct M as [M|M]; exfalso; apply M; qlra.
Qed.
Lemma flat_distinct (a b : vec3) : flat a -> flat b -> a <> b -> a.1.1 <> b.1.1 \/ a.1.2 <> b.1.2.
Proof.
  unfold flat. intros A B N. destruct (Qc_eq_dec a.1.1 b.1.1) as [E1|]; [|by left]. right. intros E2. apply N. apply vec_eq; congruence.
Qed.

Lemma line_three p q x y z : (p.1.1 <> q.1.1 \/ p.1.2 <> q.1.2) ->
  orient p q x = 0 -> orient p q y = 0 -> orient p q z = 0 -> orient x y z = 0.
Proof.
  intros N X Y Z.
  assert ((q.1.1 - p.1.1) * orient x y z = 0) as P1.
  { transitivity ((z.1.1 - y.1.1) * orient p q x + (x.1.1 - z.1.1) * orient p q y + (y.1.1 - x.1.1) * orient p q z); [unfold orient; ring|].
    rewrite X, Y, Z. ring. }
  assert ((q.1.2 - p.1.2) * orient x y z = 0) as P2.
  { transitivity ((z.1.2 - y.1.2) * orient p q x + (x.1.2 - z.1.2) * orient p q y + (y.1.2 - x.1.2) * orient p q z); [unfold orient; ring|].
    rewrite X, Y, Z. ring. }
  apply Qcmult_integral in P1, P2. destruct P1 as [P1|]; [|done]. destruct P2 as [P2|]; [|done].
  destruct N as [N|N]; exfalso; apply N; qlra.
Qed.

Section periodic.
Context (c : nat -> vec3) (n : nat).
Context (Hflat : forall i, flat (c i)) (Hper : forall i, c (i + n)%nat = c i) (Hn : (0 < n)%nat).
Context (Hne : forall i, c i <> c (S i)).
(** A real corner. *)
Definition real (i : nat) : Prop := orient (c (i + n - 1)) (c i) (c (S i)) <> 0.
Instance real_dec i : Decision (real i).
Proof. apply not_dec, Qc_eq_dec. Defined.
Typeclasses Opaque real.
Lemma real_S i : real (S i) <-> orient (c i) (c (S i)) (c (S (S i))) <> 0.
Proof. unfold real. replace (S i + n - 1)%nat with (i + n)%nat by lia. by rewrite Hper. Qed.
Lemma real_per i : real (i + n) <-> real i.
Proof.
  unfold real. replace (i + n + n - 1)%nat with ((i + n - 1) + n)%nat by lia.
  replace (S (i + n)) with (S i + n)%nat by lia. by rewrite !Hper.
Qed.
Lemma chain i d : (forall k, 0 < k < d -> ~ real (i + k))%nat -> forall m, (m <= d)%nat -> orient (c i) (c (S i)) (c (i + m)) = 0.
Proof.
  intros H. induction m as [m IH] using lt_wf_ind. intros M. destruct m as [|[|m]].
  - rewrite Nat.add_0_r. unfold orient. ring.
  - rewrite Nat.add_1_r. unfold orient. ring.
  - assert (~ real (S (i + m))) as R by (specialize (H (S m)); rewrite <- plus_n_Sm in H; apply H; lia).
    rewrite real_S in R. destruct (Qc_eq_dec (orient (c (i + m)) (c (S (i + m))) (c (S (S (i + m))))) 0) as [Z|]; [|done].
    rewrite <- !plus_n_Sm. eapply (line_shared _ _ (c (i + m)) (c (S (i + m)))); try done.
    + by apply flat_distinct.
    + by apply flat_distinct.
    + apply IH; lia.
    + rewrite plus_n_Sm. apply IH; lia.
Qed.
(** Three points of the line. *)
Lemma chain_three i d a b e : (forall k, 0 < k < d -> ~ real (i + k))%nat -> (a <= d)%nat -> (b <= d)%nat -> (e <= d)%nat ->
  orient (c (i + a)) (c (i + b)) (c (i + e)) = 0.
Proof.
  intros H A B E. pose proof (chain i d H a A) as PA. pose proof (chain i d H b B) as PB. pose proof (chain i d H e E) as PE.
  exact (line_three _ _ _ _ _ (flat_distinct _ _ (Hflat i) (Hflat (S i)) (Hne i)) PA PB PE).
Qed.
Lemma wedge_three x y z : orient x y z = 0 -> wedge x y + wedge y z = wedge x z.
Proof. intros O. assert (orient x y z = wedge x y + wedge y z - wedge x z) by (unfold orient, wedge; ring). qlra. Qed.
Lemma path_real m i d : real i -> (forall k, 0 < k <= d -> ~ real (i + k))%nat -> real (i + d + m) ->
  path_sum wedge (c i :: (c <$> filter real (seq (S (i + d)) m))) =
  wedge (c i) (c (i + d)) + path_sum wedge (c <$> seq (i + d) (S m)).
Proof.
  revert i d. induction m as [|m IH]; intros i d R H E.
  - rewrite Nat.add_0_r in E. destruct d as [|d]; [|exfalso; apply (H (S d)); [lia|done]].
    rewrite Nat.add_0_r. cbn. unfold wedge. ring.
  - cbn [seq]. rewrite filter_cons.
    assert (wedge (c i) (c (i + d)) + wedge (c (i + d)) (c (S (i + d))) = wedge (c i) (c (S (i + d)))) as W.
    { apply wedge_three. pose proof (chain_three i (S d) 0 d (S d)) as T. rewrite Nat.add_0_r, <- plus_n_Sm in T. apply T; [|lia..].
      intros k K. apply H. lia. }
    change (c <$> i + d :: S (i + d) :: seq (S (S (i + d))) m)%nat with (c (i + d) :: c (S (i + d)) :: (c <$> seq (S (S (i + d))) m)).
    rewrite path_sum_cons2. rewrite Qcplus_assoc, W.
    destruct (decide (real (S (i + d)))) as [RS|RS].
    + rewrite fmap_cons, path_sum_cons2. f_equal.
      pose proof (IH (S (i + d)) 0%nat) as Q. rewrite Nat.add_0_r in Q. rewrite Q.
      * replace (wedge (c (S (i + d))) (c (S (i + d)))) with 0 by (unfold wedge; ring). cbn [seq]. rewrite fmap_cons. ring.
      * done.
      * lia.
      * by replace (S (i + d) + m)%nat with (i + d + S m)%nat by lia.
    + pose proof (IH i (S d)) as Q. rewrite <- plus_n_Sm in Q. rewrite Q; [done|done|..].
      * intros k K. destruct (decide (k = S d)) as [-> |]; [by rewrite <- plus_n_Sm|apply H; lia].
      * by replace (S (i + d) + m)%nat with (i + d + S m)%nat by lia.
Qed.
Lemma closed_real : (exists s, (s < n)%nat /\ real s) ->
  closed_sum wedge (c <$> filter real (seq 0 n)) = closed_sum wedge (c <$> seq 0 n).
Proof.
  intros (s & HS & R).
  assert (forall i k, c <$> seq (i + n) k = c <$> seq i k) as SH.
  { intros i k. revert i. induction k as [|k IH]; intros i; [done|]. cbn [seq]. rewrite !fmap_cons, Hper.
    change (S (i + n))%nat with (S i + n)%nat. by rewrite IH. }
  assert (forall i k, c <$> filter real (seq (i + n) k) = c <$> filter real (seq i k)) as FH.
  { intros i k. revert i. induction k as [|k IH]; intros i; [done|]. cbn [seq]. rewrite !filter_cons.
    change (S (i + n))%nat with (S i + n)%nat.
    destruct (decide (real i)) as [Y|Y].
    - rewrite decide_True by (by apply real_per). rewrite !fmap_cons, Hper, IH. done.
    - rewrite decide_False by (by rewrite real_per). apply IH. }
  assert (seq 0 n = seq 0 s ++ seq s (n - s)) as E by (rewrite <- seq_app; f_equal; lia).
  assert (seq s n = seq s (n - s) ++ seq (0 + n) s) as E'.
  { replace (0 + n)%nat with (s + (n - s))%nat by lia. rewrite <- seq_app. f_equal. lia. }
  transitivity (closed_sum wedge (c <$> filter real (seq s n))).
  { rewrite E, E'. rewrite !filter_app, !fmap_app, FH. apply closed_sum_rotate. }
  transitivity (closed_sum wedge (c <$> seq s n)).
  2:{ rewrite E, E'. rewrite !fmap_app, SH. apply closed_sum_rotate. }
  assert (forall i, seq i n = i :: seq (S i) (n - 1)) as SN.
  { intros i. replace n with (S (n - 1)) at 1 by lia. done. }
  rewrite SN. rewrite filter_cons, decide_True by done. rewrite !fmap_cons. cbn [closed_sum].
  pose proof (path_real n s 0 R) as Q. rewrite Nat.add_0_r in Q.
  replace (seq (S s) n) with (seq (S s) (n - 1) ++ [(s + n)%nat]) in Q.
  2:{ replace n with (S (n - 1)) at 3 by lia. rewrite seq_S. f_equal. f_equal. lia. }
  rewrite filter_app, fmap_app in Q.
  replace (filter real [(s + n)%nat]) with [(s + n)%nat] in Q.
  2:{ rewrite filter_cons, decide_True; [done|]. by apply real_per. }
  cbn [fmap list_fmap] in Q. rewrite Hper in Q. cbn [fmap list_fmap]. rewrite Q; [|lia|by apply real_per].
  replace (wedge (c s) (c s)) with 0 by (unfold wedge; ring). rewrite Qcplus_0_l.
  rewrite seq_S, SN. rewrite fmap_app. cbn [fmap list_fmap app]. rewrite Hper. done.
Qed.
(** The corners that remain are real. *)
Lemma real_remains i j k : (i < j < k)%nat -> real j -> c i <> c j -> c j <> c k ->
  (forall z, i < z < j -> ~ real z)%nat -> (forall z, j < z < k -> ~ real z)%nat -> orient (c i) (c j) (c k) <> 0.
Proof.
  intros L R N1 N2 Z1 Z2 O. pose proof (flat_distinct _ _ (Hflat i) (Hflat j) N1) as D1.
  pose proof (flat_distinct _ _ (Hflat j) (Hflat k) N2) as D2.
  assert (orient (c i) (c j) (c (j - 1)) = 0) as A.
  { pose proof (chain_three i (j - i) 0 (j - i) (j - 1 - i)) as T.
    replace (i + 0)%nat with i in T by lia. replace (i + (j - i))%nat with j in T by lia.
    replace (i + (j - 1 - i))%nat with (j - 1)%nat in T by lia. apply T; [|lia..]. intros z Z. apply Z1. lia. }
  assert (orient (c j) (c k) (c (S j)) = 0) as B.
  { pose proof (chain_three j (k - j) 0 (k - j) 1) as T.
    replace (j + 0)%nat with j in T by lia. replace (j + (k - j))%nat with k in T by lia.
    replace (j + 1)%nat with (S j) in T by lia. apply T; [|lia..]. intros z Z. apply Z2. lia. }
  assert (orient (c i) (c j) (c (S j)) = 0) as C.
  { apply (line_shared _ _ (c j) (c k)); try done. unfold orient. ring. }
  assert (orient (c i) (c j) (c j) = 0) as E by (unfold orient; ring).
  pose proof (line_three _ _ _ _ _ D1 A E C) as F.
  destruct j as [|j]; [lia|]. apply real_S in R. apply R. by replace (S j - 1)%nat with j in F by lia.
Qed.
End periodic.

Lemma filter_seq_head (P : nat -> Prop) `{HP : !forall x, Decision (P x)} s m y :
  filter P (seq s m) !! 0%nat = Some y -> P y /\ (s <= y)%nat /\ forall z, (s <= z < y)%nat -> ~ P z.
Proof.
  revert s. induction m as [|m IH]; intros s H; [done|]. cbn [seq] in H. rewrite filter_cons in H.
  destruct (decide (P s)) as [Y|N].
  - injection H as <-. split; [done|]. split; [lia|]. lia.
  - destruct (IH _ H) as (A & B & C). split; [done|]. split; [lia|]. intros z Z.
    destruct (decide (z = s)) as [-> |]; [done|]. apply C. lia.
Qed.
Lemma filter_seq_next (P : nat -> Prop) `{HP : !forall x, Decision (P x)} s m j x y :
  filter P (seq s m) !! j = Some x -> filter P (seq s m) !! S j = Some y ->
  P x /\ P y /\ (x < y)%nat /\ forall z, (x < z < y)%nat -> ~ P z.
Proof.
  revert s j. induction m as [|m IH]; intros s j H1 H2; [done|]. cbn [seq] in H1, H2. rewrite filter_cons in H1, H2.
  destruct (decide (P s)) as [Y|N]; [|by apply (IH (S s) j)].
  destruct j as [|j]; [|by apply (IH (S s) j)].
  injection H1 as <-. cbn in H2. apply filter_seq_head in H2. destruct H2 as (A & B & C).
  split; [done|]. split; [done|]. split; [lia|]. intros z Z. apply C. lia.
Qed.
Lemma corner_lookup vs i : (i < length vs)%nat -> vs !! i = Some (corner vs i).
Proof.
  intros L. unfold corner. rewrite Nat.mod_small by done. destruct (vs !! i) eqn:E; [|apply lookup_ge_None in E; lia].
  f_equal. symmetry. by apply nth_lookup_Some.
Qed.
Lemma corner_copies vs k j : (j < k * length vs)%nat -> concat (replicate k vs) !! j = Some (corner vs j).
Proof.
  revert j. induction k as [|k IH]; intros j L; [lia|]. cbn [replicate concat].
  destruct (decide (j < length vs)%nat) as [D|D].
  - rewrite lookup_app_l by done. by apply corner_lookup.
  - rewrite lookup_app_r by lia. rewrite IH by (cbn in L; lia). f_equal.
    rewrite <- (corner_periodic vs (j - length vs)). f_equal. lia.
Qed.
Lemma corner_all vs : vs = corner vs <$> seq 0 (length vs).
Proof.
  apply list_eq. intros i. rewrite list_lookup_fmap. destruct (decide (i < length vs)%nat) as [L|L].
  - rewrite lookup_seq_lt by done. by apply corner_lookup.
  - rewrite (lookup_ge_None_2 vs), (lookup_ge_None_2 (seq _ _)) by (rewrite ?seq_length; lia). done.
Qed.
