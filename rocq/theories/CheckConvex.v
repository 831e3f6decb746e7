(** * The test of convexity: what it accepts. *)
From Coq Require Import QArith Qcanon.
From Verif Require Import Base BaseProof QcTac FillModel GeoModel MapModel PointModel PointSpec PointProof PolyModel PolySpec PolyProof TriProof EarProof
  HullModel HullSpec HullProps HullTrue HullFinal HullOrient CsrModel MeshModel MeshSpec MeshRep MeshHist UtilSpec RefineModel RefineSpec CheckModel CheckSpec CheckProof CheckProof2.
Local Open Scope Qc_scope.

Lemma turning (x y : nat -> Qc) n : (forall j, 0 <= y j) -> (forall j, 0 < x j * y (S j) - y j * x (S j)) ->
  x (S (S n)) = x 1%nat -> y (S (S n)) = y 1%nat -> False.
Proof.
  intros Y P EX EY. assert (forall j, 0 < y (S j)) as YP.
  { intros j. destruct (Qcle_lt_or_eq _ _ (Y (S j))) as [|Z]; [done|]. exfalso. symmetry in Z.
    pose proof (P j) as P1. pose proof (P (S j)) as P2. rewrite Z in P1, P2. pose proof (Y j) as Y1. pose proof (Y (S (S j))) as Y2.
    generalize dependent (x j). generalize dependent (y j). generalize dependent (x (S j)). generalize dependent (y (S (S j))). generalize dependent (x (S (S j))). clear.
    intros c d D a AD e E b B. destruct (Qclt_le_dec a 0) as [L|L]; qnra. }
  assert (forall j, 0 < x 1%nat * y (S (S j)) - y 1%nat * x (S (S j))) as K.
  { clear EX EY. induction j as [|j IH]; [apply P|]. pose proof (P (S (S j))) as Q. pose proof (YP 0%nat) as A. pose proof (YP (S j)) as B. pose proof (YP (S (S j))) as C.
    generalize dependent (x 1%nat). generalize dependent (y 1%nat). generalize dependent (x (S (S j))). generalize dependent (y (S (S j))).
    generalize dependent (x (S (S (S j)))). generalize dependent (y (S (S (S j)))). clear.
    intros y3 C x3 y2 B x2 Q y1 A x1 IH. 
    assert (0 < y2 * (x1 * y3 - y1 * x3)) as Z.
    { replace (y2 * (x1 * y3 - y1 * x3)) with (y3 * (x1 * y2 - y1 * x2) + y1 * (x2 * y3 - y2 * x3)) by ring.
      assert (0 < y3 * (x1 * y2 - y1 * x2)) by qnra. assert (0 < y1 * (x2 * y3 - y2 * x3)) by qnra. qlra. }
    destruct (Qclt_le_dec 0 (x1 * y3 - y1 * x3)) as [|L]; [done|]. exfalso. generalize dependent (x1 * y3 - y1 * x3). intros w Z L. qnra. }
  specialize (K n). rewrite EX, EY in K. replace (x 1%nat * y 1%nat - y 1%nat * x 1%nat) with 0 in K by ring. by apply Qclt_not_eq in K.
Qed.

(** A point surrounded by a polygon has a vertex on the right of every line through it. *)
Lemma surrounded_right hs p q : (0 < length hs)%nat -> q.1 <> p.1 -> surrounds hs p -> (forall h, h ∈ hs -> 0 <= orient p q h) -> False.
Proof.
  intros L NE S H. set (ux := q.1.1 - p.1.1). set (uy := q.1.2 - p.1.2).
  assert (0 < ux * ux + uy * uy) as U.
  { destruct (Qc_eq_dec ux 0) as [Z|NZ].
    - destruct (Qc_eq_dec uy 0) as [Z'|NZ'].
      + exfalso. apply NE. destruct p as [[a b] c], q as [[d e] f]. unfold ux, uy in Z, Z'. cbn [fst snd] in *. f_equal; qlra.
      + assert (0 < uy * uy) by (destruct (Qc_dec uy 0) as [[A|A]|A]; [qnra|qnra|done]). assert (0 <= ux * ux) by qnra. qlra.
    - assert (0 < ux * ux) by (destruct (Qc_dec ux 0) as [[A|A]|A]; [qnra|qnra|done]). assert (0 <= uy * uy) by qnra. qlra. }
  set (x := fun j => ux * ((corner hs j).1.1 - p.1.1) + uy * ((corner hs j).1.2 - p.1.2)).
  set (y := fun j => orient p q (corner hs j)).
  apply (turning x y (length hs - 1)).
  - intros j. apply H. unfold corner. apply elem_of_list_In, nth_In. apply Nat.mod_upper_bound. lia.
  - intros j. assert (x j * y (Datatypes.S j) - y j * x (Datatypes.S j) = (ux * ux + uy * uy) * orient (corner hs j) (corner hs (Datatypes.S j)) p) as ->.
    { unfold x, y, orient, ux, uy. ring. }
    pose proof (S j) as P. generalize dependent (orient (corner hs j) (corner hs (Datatypes.S j)) p). intros w P. clear - U P.
    generalize dependent (ux * ux + uy * uy). intros t U. qnra.
  - unfold x. replace (Datatypes.S (Datatypes.S (length hs - 1))) with (1 + length hs)%nat by lia. by rewrite corner_periodic.
  - unfold y. replace (Datatypes.S (Datatypes.S (length hs - 1))) with (1 + length hs)%nat by lia. by rewrite corner_periodic.
Qed.

Lemma corners_flat vs : Forall flat vs -> Forall flat (corners vs).
Proof.
  intros F. unfold corners. apply Forall_fmap. apply Forall_forall. intros i _. cbn. by apply corner_flat.
Qed.
Lemma extract_ids ps ids hs : selected ps ids hs -> ExtractPoints ps ids = Ok hs.
Proof.
  intros S. unfold ExtractPoints. apply omapM_ok. unfold selected in S. eapply Forall2_impl; [exact S|]. cbn. intros i p E. by apply vget_Ok.
Qed.
Lemma selected_in ps ids hs h : selected ps ids hs -> h ∈ hs -> h ∈ ps.
Proof.
  intros S H. apply elem_of_list_lookup in H as [i I]. destruct (Forall2_lookup_r _ _ _ _ _ S I) as (k & _ & K). by eapply elem_of_list_lookup_2.
Qed.
Lemma extract_corners g vs : exact g -> Forall flat vs -> (2 < length vs)%nat ->
  (un ← UnalignedPoints g vs; ExtractPoints vs un) = Ok (corners vs).
Proof.
  intros X F L. rewrite unaligned_points by done. cbn [mbind outcome_bind]. apply extract_ids. unfold selected, corners.
  assert (forall l, Forall (fun i => i < length vs)%nat l -> Forall2 (fun i p => vs !! i = Some p) l (corner vs <$> l)) as K.
  { induction 1 as [|i l H _ IH]; [constructor|]. cbn. constructor; [by apply corner_lookup|done]. }
  apply K. apply Forall_forall. intros i I. apply elem_of_list_filter in I as [_ I]. apply elem_of_seq in I. lia.
Qed.
Lemma line_few (ps : list vec3) : ~ on_one_line ps -> (2 < length ps)%nat.
Proof.
  intros H. destruct ps as [|a [|b [|c ps]]]; [..|cbn; lia]; exfalso; apply H; intros x y z X Y Z.
  - by apply elem_of_nil in X.
  - apply elem_of_list_singleton in X, Y, Z. subst. unfold orient. ring.
  - apply elem_of_cons in X as [-> |X], Y as [-> |Y], Z as [-> |Z]; try apply elem_of_list_singleton in X; try apply elem_of_list_singleton in Y;
      try apply elem_of_list_singleton in Z; subst; unfold orient; ring.
Qed.

Lemma flat_distinct a b : flat a -> flat b -> a <> b -> b.1 <> a.1.
Proof. unfold flat. destruct a as [a1 a2], b as [b1 b2]. cbn. intros -> -> N E. apply N. by rewrite E. Qed.
Lemma border_supported hs us p r : Forall flat hs -> (forall x, x ∈ us -> encloses hs x) -> left_turning hs ->
  polygon_position_spec p hs r -> (exists i, r = BorderVertex i \/ r = BorderEdge i) -> supported us p.
Proof.
  intros F E (_ & D & _) S (i & [-> | ->]).
  - destruct S as [_ ->]. exists (corner hs (Datatypes.S i)). split.
    + apply flat_distinct; [by apply corner_flat|by apply corner_flat|apply D].
    + intros x X. by apply (E x X i).
  - destruct S as (_ & c & C0 & C1 & O). exists (corner hs (Datatypes.S i)).
    assert (1 - c <> 0) as NZ by (intros Z; clear - C1 Z; qlra).
    split.
    + pose proof (flat_distinct (corner hs i) (corner hs (Datatypes.S i)) ltac:(by apply corner_flat) ltac:(by apply corner_flat) (D i)) as N.
      intros Q. apply N. rewrite O in Q. destruct (corner hs i) as [[a b] e], (corner hs (Datatypes.S i)) as [[a' b'] e']. cbn [fst snd] in *.
      injection Q as Q1 Q2. assert ((1 - c) * (a' - a) = 0) as Z1 by (clear - Q1; qlra). assert ((1 - c) * (b' - b) = 0) as Z2 by (clear - Q2; qlra).
      apply Qcmult_integral in Z1 as [|Z1]; [done|]. apply Qcmult_integral in Z2 as [|Z2]; [done|]. f_equal; [clear - Z1|clear - Z2]; qlra.
    + intros x X. pose proof (E x X i) as P. rewrite O.
      assert (orient ((corner hs i).1.1 + c * ((corner hs (Datatypes.S i)).1.1 - (corner hs i).1.1), (corner hs i).1.2 + c * ((corner hs (Datatypes.S i)).1.2 - (corner hs i).1.2),
         (corner hs i).2 + c * ((corner hs (Datatypes.S i)).2 - (corner hs i).2)) (corner hs (Datatypes.S i)) x = (1 - c) * orient (corner hs i) (corner hs (Datatypes.S i)) x) as ->.
      { unfold orient. cbn [fst snd]. ring. }
      generalize dependent (orient (corner hs i) (corner hs (Datatypes.S i)) x). intros w P. clear - C1 P. qnra.
Qed.
Lemma on_border_iff g hs us ts : exact g -> (2 < length hs)%nat -> left_turning hs -> (forall h, h ∈ hs -> h ∈ us) ->
  (forall x, x ∈ us -> encloses hs x) -> Forall flat ts -> (forall t, t ∈ ts -> t ∈ us) ->
  exists b, on_border g hs ts = Ok b /\ (b = true <-> forall p, p ∈ ts -> supported us p).
Proof.
  intros X L T HU EN F. induction F as [|p ts P F IH]; intros SU; cbn [on_border].
  - exists true. split; [done|]. split; [|done]. intros _ p P. by apply elem_of_nil in P.
  - destruct (polygon_exact g p hs X P L T) as (r & E & S). rewrite E. cbn [mbind outcome_bind].
    destruct IH as (b & B & I). { intros t Q. apply SU. by right. }
    pose proof T as (FH & _).
    destruct r as [|i|i|].
    + destruct S as (i & S). exfalso. pose proof (EN p (SU p ltac:(by left)) i) as Q. by apply Qclt_not_le in S.
    + exists b. split; [done|]. rewrite I. split.
      * intros H q Q. apply elem_of_cons in Q as [-> |Q]; [|by apply H]. apply (border_supported hs us p (BorderEdge i)); try done. exists i. by right.
      * intros H q Q. apply H. by right.
    + exists b. split; [done|]. rewrite I. split.
      * intros H q Q. apply elem_of_cons in Q as [-> |Q]; [|by apply H]. apply (border_supported hs us p (BorderVertex i)); try done. exists i. by left.
      * intros H q Q. apply H. by right.
    + exists false. split; [done|]. split; [done|]. intros H. exfalso. destruct (H p ltac:(by left)) as (q & NE & Q).
      apply (surrounded_right hs p q); try done; [lia|]. intros h M. apply Q. by apply HU.
Qed.
Lemma convex_iff g vs : exact g -> Forall flat vs -> (2 < length vs)%nat -> NoDup (corners vs) -> ~ on_one_line (corners vs) ->
  exists b, IsCellConvex g vs = Ok b /\ (b = true <-> forall p, p ∈ corners vs -> supported (corners vs) p).
Proof.
  intros X F L N NL. unfold IsCellConvex. pose proof (extract_corners g vs X F L) as E. pose proof (corners_flat vs F) as FC.
  destruct (UnalignedPoints g vs) as [un| | | |] eqn:U; try discriminate E. cbn [mbind outcome_bind] in *. rewrite E. cbn [mbind outcome_bind].
  destruct (hull_sides g (corners vs) X FC N NL) as (ids & hs & H & S & LH & _ & T & EN). rewrite H. cbn [mbind outcome_bind].
  rewrite (extract_ids _ _ _ S). cbn [mbind outcome_bind]. unfold PolygonIsConvex.
  pose proof (line_few _ NL) as LF.
  unfold require_polygon_2D. rewrite points_2D by (try done; intros Z; rewrite Z in LF; cbn in LF; lia). cbn [mbind outcome_bind].
  assert (true && (2 <? length (corners vs))%nat = true) as -> by (apply Nat.ltb_lt; lia). cbn [require mbind outcome_bind].
  apply (on_border_iff g hs (corners vs) (corners vs)); try done.
  - intros h M. by eapply selected_in.
  - intros x M. by apply EN.
Qed.
Lemma convex_undefined g vs : exact g -> Forall flat vs -> (2 < length vs)%nat -> NoDup (corners vs) -> (1 < length (corners vs))%nat -> on_one_line (corners vs) ->
  IsCellConvex g vs = UB.
Proof.
  intros X F L N L1 NL. unfold IsCellConvex. pose proof (extract_corners g vs X F L) as E. pose proof (corners_flat vs F) as FC.
  destruct (UnalignedPoints g vs) as [un| | | |] eqn:U; try discriminate E. cbn [mbind outcome_bind] in *. rewrite E. cbn [mbind outcome_bind].
  by rewrite convex_hull_undefined.
Qed.

(** ** Meshes *)
Lemma check_convexity A k m : reachable m -> (0 <= MinTolerance (geo A))%Qc -> (0 <= cfgTolerance1D (geo A))%Qc ->
  balanced m -> Cell1D_CheckDuplications k = true -> exact (geo A) -> (forall c, (c < num D2 m)%nat -> exists ps, outline A m c ps /\ proper ps) ->
  CheckMesh2D A k m = Ok tt <-> plane_mesh A k m /\
    (Cell2D_CheckConvexity k = true -> forall c ps p, (c < num D2 m)%nat -> outline A m c ps -> p ∈ corners ps -> supported (corners ps) p).
Proof.
  intros RM T0 T1 B F1 X PR. destruct k as [k1 k2 k3 k4 k5 k6 k7 k8 k9]. cbn in F1.
  set (k' := Config2D k1 k2 k3 k4 k5 k6 k7 false k9).
  assert (CheckMesh2D A (Config2D k1 k2 k3 k4 k5 k6 k7 k8 k9) m = Ok tt <-> CheckMesh2D A k' m = Ok tt /\
    (k8 = true -> each (fun c => check_convex A c m) (seq 0 (num D2 m)) = Ok tt)) as ->.
  { unfold CheckMesh2D. rewrite !seq_bind_ok, !when_ok. cbn. clear. intuition congruence. }
  rewrite (check_iff A m RM T0 T1 k' B F1 eq_refl).
  assert (plane_mesh A k' m <-> plane_mesh A (Config2D k1 k2 k3 k4 k5 k6 k7 k8 k9) m) as -> by (split; intros []; by constructor).
  rewrite each_ok. cbn. apply and_iff_compat_l. split.
  - intros H K c ps p L O P. specialize (H K c ltac:(apply elem_of_seq; lia)). apply bind_ok in H as (ps' & CP & H). pose proof CP as O'.
    apply (cell_points_iff A m RM) in O'. apply (cell_points_iff A m RM) in O. rewrite O in CP. injection CP as <-.
    destruct (PR c L) as (ps' & O2 & F & L2 & N & NL). apply (cell_points_iff A m RM) in O2. rewrite O in O2. injection O2 as <-.
    destruct (convex_iff (geo A) ps X F L2 N NL) as (b & E & I). rewrite E in H. cbn [mbind outcome_bind] in H. apply req in H. by apply I.
  - intros H K c C. apply elem_of_seq in C. destruct (PR c ltac:(lia)) as (ps & O & F & L2 & N & NL).
    unfold check_convex. pose proof O as O'. apply (cell_points_iff A m RM) in O'. rewrite O'. cbn [mbind outcome_bind].
    destruct (convex_iff (geo A) ps X F L2 N NL) as (b & E & I). rewrite E. cbn [mbind outcome_bind]. apply req. apply I.
    intros p P. apply (H K c ps p); [lia|done|done].
Qed.

(** ** Convex polygons *)
Lemma ordered_supported us p : ordered us -> (1 < length us)%nat -> Forall flat us -> NoDup us -> p ∈ us -> supported us p.
Proof.
  intros O L F N P. apply elem_of_list_lookup in P as [i I]. pose proof (lookup_lt_Some _ _ _ I) as LI.
  destruct (lookup_lt_is_Some_2 us ((i + 1) mod length us)) as [q Q]; [apply Nat.mod_upper_bound; lia|].
  exists q. assert (flat p) as FP by (by eapply Forall_lookup_1). assert (flat q) as FQ by (by eapply Forall_lookup_1). split.
  - apply flat_distinct; [done|done|]. intros ->. pose proof (NoDup_lookup _ _ _ _ N I Q) as E.
    destruct (Nat.eq_dec (i + 1) (length us)) as [Z|Z]; [rewrite Z, Nat.mod_same in E by lia; lia|rewrite Nat.mod_small in E by lia; lia].
  - intros x J. apply elem_of_list_lookup in J as [j J]. pose proof (lookup_lt_Some _ _ _ J) as LJ.
    assert (forall a b, orient a b a = 0) as Z1 by (intros; unfold orient; ring).
    assert (forall a b, orient a b b = 0) as Z2 by (intros; unfold orient; ring).
    assert (forall a b c, orient a b c = orient b c a) as C1 by (intros; unfold orient; ring).
    destruct (Nat.eq_dec i j) as [<-|NI]. { assert (x = p) as -> by congruence. rewrite Z1. qlra. }
    destruct (Nat.eq_dec ((i + 1) mod length us) j) as [E|NQ]. { subst j. assert (x = q) as -> by congruence. rewrite Z2. qlra. }
    apply Qclt_le_weak. destruct (Nat.eq_dec (i + 1) (length us)) as [Z|Z].
    + rewrite Z, Nat.mod_same in Q, NQ by lia. rewrite C1. by apply (O 0%nat j i); [lia|..].
    + rewrite Nat.mod_small in Q, NQ by lia. destruct (Nat.lt_ge_cases j i) as [LT|GE].
      * rewrite C1, C1. by apply (O j i (i + 1)%nat); [lia|..].
      * by apply (O i (i + 1)%nat j); [lia|..].
Qed.
Lemma convex_accepted g vs : exact g -> Forall flat vs -> (2 < length vs)%nat -> NoDup (corners vs) -> ~ on_one_line (corners vs) ->
  ordered (corners vs) \/ ordered (reverse (corners vs)) -> IsCellConvex g vs = Ok true.
Proof.
  intros X F L N NL O. destruct (convex_iff g vs X F L N NL) as (b & E & I). rewrite E. f_equal. apply I. intros p P.
  pose proof (line_few _ NL) as LF. pose proof (corners_flat _ F) as FC. destruct O as [O|O].
  - by apply ordered_supported; [..|lia| | |].
  - destruct (ordered_supported (reverse (corners vs)) p) as (q & Q & H).
    + done.
    + rewrite reverse_length. lia.
    + by rewrite reverse_Permutation.
    + by rewrite reverse_Permutation.
    + by rewrite reverse_Permutation.
    + exists q. split; [done|]. intros x M. apply H. by rewrite reverse_Permutation.
Qed.
