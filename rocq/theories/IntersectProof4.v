(** The intersections between many segments, and of a segment and a plane. *)
From Coq Require Import QArith Qcanon Sorted.
From Verif Require Import Base BaseProof QcTac FillModel GeoModel MapModel PointModel PointSpec PointProof IntersectModel IntersectSpec IntersectProof IntersectProof2 IntersectProof3.
Local Open Scope Qc_scope.

(** ** One pair *)

Lemma cauchy (x y : vec3) : vdot x y * vdot x y <= norm2 x * norm2 y.
Proof. pose proof (norm2_nonneg (vcross x y)) as P. rewrite lagrange in P. qlra. Qed.

Lemma dot_bound (x y : vec3) (a b : Qc) : 0 <= a -> 0 <= b -> norm2 x <= a * a -> norm2 y <= b * b -> vdot x y <= a * b.
Proof.
  intros A B X Y. destruct (Qclt_le_dec (a * b) (vdot x y)) as [L|]; [|done]. exfalso.
  assert (AB : 0 <= a * b) by qnra. pose proof (square_lt' _ _ AB L) as S. pose proof (cauchy x y) as C.
  pose proof (norm2_nonneg x) as Px. pose proof (norm2_nonneg y) as Py.
  assert (norm2 x * norm2 y <= a * a * (b * b)); [|qlra].
  clear - A B X Y Px Py. generalize dependent (norm2 x). generalize dependent (norm2 y). intros n Y Pn m X Pm.
  apply Qcle_trans with (a * a * n); [apply Qcmult_le_compat_r; done|]. rewrite !(Qcmult_comm (a * a)). apply Qcmult_le_compat_r; [done|qnra].
Qed.

(** A point of a segment is near its middle. *)
Lemma near_middle a p : described a -> of_segment (seg_origin a) (seg_end a) p ->
  norm2 (vsub p (seg_barycenter a)) <= (Q2Qc (1 # 2) * seg_length a) * (Q2Qc (1 # 2) * seg_length a).
Proof.
  intros (_ & B & L & D) (c & C0 & C1 & P). rewrite on_line_along in B, P.
  assert (E : vsub p (seg_barycenter a) = vscale (c - Q2Qc (1 # 2)) (vsub (seg_end a) (seg_origin a))).
  { rewrite P, B. clear. vec. apply pair3. split_and!; ring. }
  rewrite E. assert (F : forall (k : Qc) (u : vec3), norm2 (vscale k u) = k * k * norm2 u) by (clear; intros k u; vec; ring). rewrite F.
  pose proof (norm2_nonneg (vsub (seg_end a) (seg_origin a))) as N. clear - C0 C1 D N.
  generalize dependent (norm2 (vsub (seg_end a) (seg_origin a))). intros n D N.
  assert (H : (c - Q2Qc (1 # 2)) * (c - Q2Qc (1 # 2)) <= Q2Qc (1 # 4)) by qnra.
  apply Qcle_trans with (Q2Qc (1 # 4) * n); [by apply Qcmult_le_compat_r|]. qlra.
Qed.

Lemma spheres_none g a b : exact g -> described a -> described b ->
  CheckNoSpheresIntersection g (seg_barycenter a) (seg_barycenter b) (seg_length a) (seg_length b) = true ->
  ~ exists p, of_segment (seg_origin a) (seg_end a) p /\ of_segment (seg_origin b) (seg_end b) p.
Proof.
  intros X Da Db C (p & Pa%near_middle & Pb%near_middle); [|done..].
  destruct (exact_tolerance g X) as (T1 & _ & M). unfold CheckNoSpheresIntersection, root_greater in C. rewrite T1, M in C.
  replace (seg_length a + seg_length b + 0) with (seg_length a + seg_length b) in C by ring. replace (1 - 0) with 1 in C by ring.
  assert (Q1 : qlt 0 1 = true) by (vm_compute; reflexivity). rewrite Q1 in C.
  destruct Da as (_ & _ & La & _), Db as (_ & _ & Lb & _).
  set (x := vsub p (seg_barycenter a)) in *. set (y := vsub p (seg_barycenter b)) in *.
  assert (E : vsub (seg_barycenter b) (seg_barycenter a) = vsub x y) by (unfold x, y; clear; vec; apply pair3; split_and!; ring).
  rewrite E in C. clearbody x y.
  assert (G : (seg_length a + seg_length b) * (seg_length a + seg_length b) < Q2Qc 4 * norm2 (vsub x y)).
  { assert (H : (qlt (seg_length a + seg_length b) 0 || qlt ((seg_length a + seg_length b) * (seg_length a + seg_length b)) (Q2Qc 4 * norm2 (vsub x y) * (1 * 1))) = true)
      by (destruct (_ || _) in C; exact C).
    apply orb_prop in H as [H|H].
    - destruct (qlt_spec (seg_length a + seg_length b) 0); [exfalso; qlra|done].
    - destruct (qlt_spec ((seg_length a + seg_length b) * (seg_length a + seg_length b)) (Q2Qc 4 * norm2 (vsub x y) * (1 * 1))) as [H'|]; [|done]. qlra. }
  assert (F : norm2 (vsub x y) = norm2 x + norm2 y + Q2Qc 2 * vdot x (vscale (- (1)) y)) by (clear; vec; qlra).
  assert (Ny : norm2 (vscale (- (1)) y) = norm2 y) by (clear; vec; ring).
  pose proof (dot_bound x (vscale (- (1)) y) (Q2Qc (1 # 2) * seg_length a) (Q2Qc (1 # 2) * seg_length b)) as Db.
  rewrite Ny in Db. specialize (Db ltac:(qlra) ltac:(qlra) Pa Pb). rewrite F in G. qnra.
Qed.

(** The coordinate on [a] of the crossing of [a] and [b]. *)
Definition coord (g : geo_config) (a b : segment) : option Qc :=
  match IntersectionSegmentSegment g (seg_origin a) (seg_end a) (seg_origin b) (seg_end b) with
  | Ok r => match SegmentsType r, FirstIntersections r with SingleIntersection, f :: _ => Some f.2 | _, _ => None end
  | _ => None
  end.

Lemma parallel_sym o1 e1 o2 e2 : o1 <> e1 -> o2 <> e2 -> parallel o1 e1 o2 e2 <-> parallel o2 e2 o1 e1.
Proof. intros N1 N2. rewrite !parallel_cross by done. split; apply parallel_sym_cross. Qed.

(** What the function says about one pair. *)
Lemma pair_cases g a b : exact g -> described a -> described b -> exists r,
  IntersectionSegmentSegment g (seg_origin a) (seg_end a) (seg_origin b) (seg_end b) = Ok r /\
  ((exists x y px py, SegmentsType r = SingleIntersection /\ FirstIntersections r = [(px, x)] /\ SecondIntersections r = [(py, y)] /\
      (forall c, cross_at a b c <-> c = x) /\ (forall c, cross_at b a c <-> c = y)) \/
   (SegmentsType r <> SingleIntersection /\ (forall c, ~ cross_at a b c) /\ (forall c, ~ cross_at b a c))).
Proof.
  intros X (Na & _) (Nb & _). destruct (segments_exact g _ _ _ _ X Na Nb) as (r & E & S). exists r. split; [exact E|].
  pose proof (parallel_sym _ _ _ _ Na Nb) as Sym.
  assert (SegmentsType r = SingleIntersection \/ SegmentsType r <> SingleIntersection) as [T|T] by (destruct (SegmentsType r); first [by left|by right]).
  - left. destruct S as [_ Sc _ _ [Ss _] _ Sp _]. destruct (Ss T) as [NP (p & Pa & Pb)].
    assert (LT : LinesType r = CoPlanarIntersecting).
    { apply Sc. split; [done|]. exists p. split; by apply of_segment_line. }
    destruct (Sp LT) as (s & q & ps & pq & p' & F1 & F2 & _ & _ & _ & L1 & L2 & U).
    pose proof (U p (of_segment_line _ _ _ Pa) (of_segment_line _ _ _ Pb)) as <-.
    assert (Inj : forall o e c c' p, o <> e -> on_line o e c p -> on_line o e c' p -> c = c').
    { intros o e c c' p0 N H H'. rewrite on_line_along in H, H'. rewrite H in H'. by eapply along_inj, H'; apply vsub_nonzero. }
    destruct Pa as (ca & A0 & A1 & Qa), Pb as (cb & B0 & B1 & Qb).
    assert (ca = s) as -> by (by eapply Inj; [exact Na|..]). assert (cb = q) as -> by (by eapply Inj; [exact Nb|..]).
    exists s, q, ps, pq. split; [done|]. split; [done|]. split; [done|]. split; intros c; split.
    + intros (_ & _ & _ & p0 & H1 & H2%of_segment_line). assert (p0 = p) as -> by (apply U; [by exists c|done]). by eapply Inj; [exact Na|..].
    + intros ->. split; [done|]. split; [exact A0|]. split; [exact A1|]. exists p. split; [exact Qa|]. exists q. exact (conj B0 (conj B1 Qb)).
    + intros (_ & _ & _ & p0 & H1 & H2%of_segment_line). assert (p0 = p) as -> by (apply U; [done|by exists c]). by eapply Inj; [exact Nb|..].
    + intros ->. split; [by rewrite <- Sym|]. split; [exact B0|]. split; [exact B1|]. exists p. split; [exact Qb|]. exists s. exact (conj A0 (conj A1 Qa)).
  - right. split; [exact T|]. destruct S as [_ _ _ _ [_ Ss] _ _ _]. split; intros c (NP & C0 & C1 & p & P1 & P2); apply T, Ss.
    + split; [exact NP|]. exists p. split; [|exact P2]. exists c. exact (conj C0 (conj C1 P1)).
    + split; [by rewrite Sym|]. exists p. split; [exact P2|]. exists c. exact (conj C0 (conj C1 P1)).
Qed.

Lemma coord_spec g a b c : exact g -> described a -> described b -> coord g a b = Some c <-> cross_at a b c.
Proof.
  intros X Da Db. destruct (pair_cases g a b X Da Db) as (r & E & H). unfold coord. rewrite E.
  destruct H as [(x & y & px & py & T & F & _ & C & _)|(T & C & _)].
  - rewrite T, F. cbn [snd]. rewrite C. split; [by intros [= ->]|by intros ->].
  - destruct (SegmentsType r); try done; split; try done; intros H; by apply C in H.
Qed.

Lemma between_pair_coord g segs acc s1 s2 a b : exact g -> segs !! s1 = Some a -> segs !! s2 = Some b -> described a -> described b ->
  between_pair g segs acc s1 s2 =
  match coord g a b, coord g b a with
  | Some x, Some y => acc' ← push acc s1 x; push acc' s2 y
  | _, _ => Ok acc
  end.
Proof.
  intros X E1 E2 Da Db. unfold between_pair. rewrite (vget_Ok _ _ _ E1), (vget_Ok _ _ _ E2). cbn [mbind outcome_bind].
  destruct (CheckNoSpheresIntersection g _ _ _ _) eqn:Sp.
  - pose proof (spheres_none g a b X Da Db Sp) as N. destruct (coord g a b) as [x|] eqn:C; [|done]. exfalso.
    apply coord_spec in C as (_ & C0 & C1 & p & P1 & P2); [|done..]. apply N. exists p. split; [|done]. exists x. exact (conj C0 (conj C1 P1)).
  - destruct (pair_cases g a b X Da Db) as (r & E & H). rewrite E. cbn [mbind outcome_bind].
    destruct H as [(x & y & px & py & T & F & F' & C & C')|(T & C & _)].
    + assert (coord g a b = Some x) as -> by (apply coord_spec; [done..|]; by apply C).
      assert (coord g b a = Some y) as -> by (apply coord_spec; [done..|]; by apply C').
      rewrite T, F, F'. done.
    + assert (coord g a b = None) as ->. { destruct (coord g a b) as [x|] eqn:Ex; [|done]. apply coord_spec in Ex; [|done..]. by apply C in Ex. }
      by destruct (SegmentsType r).
Qed.

(** ** All pairs *)

Section all_pairs.
  Context (g : geo_config) (segs : list segment).
  Hypotheses (X : exact g) (D : Forall described segs).

  (** The coordinates found on each segment [i], when it was compared with the segments [f i]. *)
  Definition found (f : nat -> list nat) : list (list Qc) := imap (fun i a => omap (fun j => segs !! j ≫= coord g a) (f i)) segs.
  Definition grow (f : nat -> list nat) (s1 s2 i : nat) : list nat := if decide (i = s1) then f i ++ [s2] else if decide (i = s2) then f i ++ [s1] else f i.

  Lemma found_ext f f' : (forall i, i < length segs -> f i = f' i)%nat -> found f = found f'.
  Proof using. intros E. apply imap_ext. intros i a Hi. cbn. rewrite E; [done|]. by eapply lookup_lt_Some. Qed.

  Lemma found_lookup f i a : segs !! i = Some a -> found f !! i = Some (omap (fun j => segs !! j ≫= coord g a) (f i)).
  Proof using. intros E. unfold found. by rewrite list_lookup_imap, E. Qed.

  Lemma between_pair_found f s1 s2 : (s1 < s2)%nat -> (s2 < length segs)%nat ->
    between_pair g segs (found f) s1 s2 = Ok (found (grow f s1 s2)).
  Proof using D X.
    intros L1 L2. destruct (lookup_lt_is_Some_2 segs s1 ltac:(lia)) as [a Ea]. destruct (lookup_lt_is_Some_2 segs s2 ltac:(lia)) as [b Eb].
    pose proof (Forall_lookup_1 _ _ _ _ D Ea) as Da. pose proof (Forall_lookup_1 _ _ _ _ D Eb) as Db.
    rewrite (between_pair_coord g segs _ s1 s2 a b X Ea Eb Da Db).
    assert (Both : coord g a b = None <-> coord g b a = None).
    { destruct (pair_cases g a b X Da Db) as (r & _ & [(x & y & px & py & _ & _ & _ & C & C')|(_ & C & C')]).
      - assert (coord g a b = Some x) as -> by (apply coord_spec; [done..|]; by apply C).
        assert (coord g b a = Some y) as -> by (apply coord_spec; [done..|]; by apply C'). done.
      - assert (coord g a b = None) as ->. { destruct (coord g a b) as [x|] eqn:Ex; [|done]. apply coord_spec in Ex; [|done..]. by apply C in Ex. }
        assert (coord g b a = None) as ->. { destruct (coord g b a) as [x|] eqn:Ex; [|done]. apply coord_spec in Ex; [|done..]. by apply C' in Ex. } done. }
    assert (Gr : found (grow f s1 s2) = imap (fun i c => omap (fun j => segs !! j ≫= coord g c) (f i) ++
                   (if decide (i = s1) then option_list (coord g a b) else if decide (i = s2) then option_list (coord g b a) else [])) segs).
    { apply imap_ext. intros i c Hc. cbn. unfold grow. case_decide as H1; [|case_decide as H2].
      - subst i. rewrite Ea in Hc. injection Hc as <-. rewrite omap_app. cbn. rewrite Eb. cbn. by destruct (coord g a b).
      - subst i. rewrite Eb in Hc. injection Hc as <-. rewrite omap_app. cbn. rewrite Ea. cbn. by destruct (coord g b a).
      - by rewrite app_nil_r. }
    rewrite Gr. destruct (coord g a b) as [x|] eqn:Ex.
    - destruct (coord g b a) as [y|] eqn:Ey; [|destruct Both as [_ Both]; discriminate (Both eq_refl)].
      unfold push. rewrite (vget_Ok _ _ _ (found_lookup f s1 a Ea)). cbn [mbind outcome_bind].
      rewrite vset_Ok by (unfold found; rewrite imap_length; lia). cbn [mbind outcome_bind].
      rewrite (vget_Ok _ s2 (omap (fun j => segs !! j ≫= coord g b) (f s2))) by (rewrite list_lookup_insert_ne by lia; by apply found_lookup).
      cbn [mbind outcome_bind]. rewrite vset_Ok by (rewrite insert_length; unfold found; rewrite imap_length; lia). f_equal.
      apply list_eq. intros i. rewrite list_lookup_imap. destruct (decide (i = s2)) as [->|N2].
      + rewrite list_lookup_insert by (rewrite insert_length; unfold found; rewrite imap_length; lia). rewrite Eb. cbn.
        rewrite decide_False by lia. done.
      + rewrite list_lookup_insert_ne by done. destruct (decide (i = s1)) as [->|N1].
        * rewrite list_lookup_insert by (unfold found; rewrite imap_length; lia). rewrite Ea. done.
        * rewrite list_lookup_insert_ne by done. unfold found. rewrite list_lookup_imap. destruct (segs !! i); cbn; [|done]. by rewrite app_nil_r.
    - destruct Both as [Both _]. rewrite (Both eq_refl). f_equal. unfold found. apply imap_ext. intros i c _. cbn.
      by repeat case_decide; rewrite ?app_nil_r.
  Qed.

  Lemma inner_loop s1 m : forall f, (S s1 + m <= length segs)%nat ->
    ofold (fun acc s2 => between_pair g segs acc s1 s2) (seq (S s1) m) (found f) =
    Ok (found (fun i => if decide (i = s1) then f i ++ seq (S s1) m else if decide (s1 < i /\ i <= s1 + m)%nat then f i ++ [s1] else f i)).
  Proof using D X.
    intros f. induction m as [|m IH]; intros L.
    - cbn. f_equal. apply found_ext. intros i _. case_decide; [by rewrite app_nil_r|]. rewrite decide_False by lia. done.
    - rewrite seq_S, ofold_app, IH by lia. cbn [mbind outcome_bind ofold].
      rewrite between_pair_found by lia. cbn [mbind outcome_bind]. f_equal. apply found_ext. intros i _. unfold grow.
      destruct (decide (i = s1)) as [->|N1]; [by rewrite app_assoc|].
      destruct (decide (i = S s1 + m)%nat) as [->|N2].
      + rewrite decide_False by lia. rewrite decide_True by lia. done.
      + destruct (decide (s1 < i ∧ i <= s1 + m)%nat) as [H|H]; [rewrite decide_True by lia|rewrite decide_False by lia]; done.
  Qed.

  Lemma outer_loop k : (k <= length segs)%nat ->
    ofold (fun acc s1 => ofold (fun acc s2 => between_pair g segs acc s1 s2) (seq (S s1) (length segs - S s1)) acc) (seq 0 k) (found (fun _ => [])) =
    Ok (found (fun i => if decide (i < k)%nat then seq 0 i ++ seq (S i) (length segs - S i) else seq 0 k)).
  Proof using D X.
    induction k as [|k IH]; intros L.
    - done.
    - rewrite seq_S, ofold_app, IH by lia. cbn [mbind outcome_bind ofold Nat.add]. rewrite inner_loop by lia. cbn [mbind outcome_bind].
      f_equal. apply found_ext. intros i Hi. destruct (decide (i = k)) as [->|N].
      + rewrite decide_False by lia. rewrite decide_True by lia. done.
      + destruct (decide (i < k)%nat) as [H|H].
        * rewrite decide_False by lia. rewrite decide_True by lia. done.
        * rewrite decide_True by lia. rewrite decide_False by lia. done.
  Qed.

  Lemma sorted_seq a n : StronglySorted lt (seq a n).
  Proof using.
    revert a. induction n as [|n IH]; intros a; cbn; constructor; [done|]. apply Forall_forall. intros x Hx%elem_of_seq. lia.
  Qed.
  Lemma sorted_app (l1 l2 : list nat) : StronglySorted lt l1 -> StronglySorted lt l2 -> (forall x y, x ∈ l1 -> y ∈ l2 -> x < y)%nat ->
    StronglySorted lt (l1 ++ l2).
  Proof using.
    intros S1 S2 H. induction S1 as [|x l1 S1 IH F]; cbn; [done|]. constructor.
    - apply IH. intros y z Hy Hz. apply H; [by right|done].
    - apply Forall_app. split; [done|]. apply Forall_forall. intros y Hy. apply H; [by left|done].
  Qed.
  Lemma sorted_filter (P : nat -> Prop) `{!forall x, Decision (P x)} l : StronglySorted lt l -> StronglySorted lt (filter P l).
  Proof using.
    induction 1 as [|x l S IH F]; [constructor|]. rewrite filter_cons. case_decide; [|done]. constructor; [done|].
    apply Forall_forall. intros y [_ Hy]%elem_of_list_filter. by eapply Forall_forall in F.
  Qed.

  Lemma crossings_exact : exists l, IntersectionsBetweenSegments g segs = Ok l /\ length l = length segs /\
    forall i xs, l !! i = Some xs -> crossings_spec segs i xs.
  Proof using D X.
    eexists. split.
    { unfold IntersectionsBetweenSegments. replace (replicate (length segs) []) with (found (fun _ => [])).
      2: { unfold found. apply list_eq. intros i. rewrite list_lookup_imap. destruct (segs !! i) as [a|] eqn:E; cbn.
           - symmetry. apply lookup_replicate_2. by eapply lookup_lt_Some.
           - symmetry. apply lookup_ge_None_2. rewrite replicate_length. by apply lookup_ge_None. }
      apply outer_loop. lia. }
    split; [unfold found; apply imap_length|]. intros i xs H. unfold found in H. rewrite list_lookup_imap in H.
    destruct (segs !! i) as [a|] eqn:Ea; cbn in H; [|done]. injection H as <-. pose proof (lookup_lt_Some _ _ _ Ea) as Li.
    rewrite decide_True by lia. pose proof (Forall_lookup_1 _ _ _ _ D Ea) as Da.
    set (js := seq 0 i ++ seq (S i) (length segs - S i)).
    assert (Hjs : forall j, j ∈ js <-> j <> i /\ (j < length segs)%nat).
    { intros j. unfold js. rewrite elem_of_app, !elem_of_seq. lia. }
    assert (Sjs : StronglySorted lt js).
    { apply sorted_app; [apply sorted_seq..|]. intros x y Hx%elem_of_seq Hy%elem_of_seq. lia. }
    clearbody js. exists a, (filter (fun j => is_Some (segs !! j ≫= coord g a)) js). split; [done|]. split; [by apply sorted_filter|]. split.
    - intros j. rewrite elem_of_list_filter, Hjs. split.
      + intros [[c Hc] [N L]]. split; [done|]. destruct (segs !! j) as [b|] eqn:Eb; cbn in Hc; [|done].
        exists b, c. split; [done|]. apply (coord_spec g); try done. by eapply Forall_lookup_1 in Eb.
      + intros [N (b & c & Eb & C)]. split; [|split; [done|by eapply lookup_lt_Some]]. rewrite Eb. cbn. exists c. apply coord_spec; try done.
        by eapply Forall_lookup_1 in Eb.
    - clear Hjs Sjs. induction js as [|j js IH]; [constructor|]. rewrite filter_cons. cbn [omap list_omap].
      destruct (segs !! j ≫= coord g a) as [c|] eqn:Ec.
      + rewrite decide_True by done. constructor; [|done]. destruct (segs !! j) as [b|] eqn:Eb; cbn in Ec; [|done].
        exists b. split; [done|]. apply (coord_spec g); try done. by eapply Forall_lookup_1 in Eb.
      + rewrite decide_False by (intros [? ?]; done). done.
  Qed.
End all_pairs.

(** ** A segment and a plane *)

Theorem plane_exact g o e n po : exact g -> norm2 n = 1 -> o <> e -> exists r, IntersectionSegmentPlane g o e n po = Ok r /\ plane_spec o e n po r.
Proof.
  intros X N NE. pose proof (exact_tolerance g X) as (T1 & T2 & M). pose proof (vsub_nonzero _ _ NE) as U. pose proof (norm2_pos _ U) as P.
  unfold IntersectionSegmentPlane. rewrite T1, T2.
  assert (R1 : root_is_one g (norm2 n) 0 = true) by (unfold root_is_one; rewrite M, N; vm_compute; reflexivity).
  assert (Nz : forall q, norm_zero g q 0 = qle q 0) by (intros q; unfold norm_zero; rewrite M; f_equal; ring).
  rewrite R1, !Nz. destruct (qle_spec (norm2 (vsub e o)) 0) as [L|_]; [exfalso; qlra|]. unfold require. cbn [negb mbind outcome_bind].
  assert (Ln : forall c p, on_line o e c p -> vdot n (vsub p po) = c * vdot n (vsub e o) - vdot n (vsub po o)).
  { intros c p H. rewrite on_line_along in H. rewrite H. clear. vec. ring. }
  unfold plane_spec, of_plane.
  assert (Z : vdot n (vsub e o) * vdot n (vsub e o) / norm2 (vsub e o) <= 0 <-> vdot n (vsub e o) = 0).
  { split.
    - intros H. destruct (Qc_eq_dec (vdot n (vsub e o)) 0) as [|Nd]; [done|]. exfalso. pose proof (quotient_pos _ _ P (square_pos _ Nd)). qlra.
    - intros ->. replace (0 * 0 / norm2 (vsub e o)) with 0 by (field; qlra). apply Qcle_refl. }
  destruct (qle_spec (vdot n (vsub e o) * vdot n (vsub e o) / norm2 (vsub e o)) 0) as [L|L].
  - apply Z in L. rewrite (compare_exact g _ _ X).
    assert (Lp : forall p, of_line o e p -> vdot n (vsub p po) = vdot n o - vdot n po).
    { intros p [c H]. rewrite (Ln c p H), L. clear. vec. ring. }
    destruct (qeq_spec (vdot n po) (vdot n o)) as [E|E].
    + rewrite bool_decide_eq_true_2 by done. eexists. split; [reflexivity|]. cbv beta iota. intros p H. rewrite (Lp p H). qlra.
    + rewrite bool_decide_eq_false_2 by (by destruct (qlt _ _)). eexists. split; [reflexivity|]. cbv beta iota. intros p H. rewrite (Lp p H).
      intros F. apply E. qlra.
  - assert (Nd : vdot n (vsub e o) <> 0) by (intros H; apply L, Z, H). set (c := vdot n (vsub po o) / vdot n (vsub e o)).
    destruct (coordinate_spec_exact g c X) as (k & -> & S). cbn [mbind outcome_bind].
    assert (match k with OnSegmentOrigin => 0 | OnSegmentEnd => 1 | _ => c end = c) as -> by (destruct k; cbn in S; done).
    eexists. split; [reflexivity|]. cbv beta iota. split; [exact S|]. intros c' p H. rewrite (Ln c' p H). unfold c. split.
    + intros E. apply (cancel_l (vdot n (vsub e o))); [done|]. replace (vdot n (vsub e o) * (vdot n (vsub po o) / vdot n (vsub e o))) with (vdot n (vsub po o)) by (field; done). qlra.
    + intros ->. replace (vdot n (vsub po o) / vdot n (vsub e o) * vdot n (vsub e o)) with (vdot n (vsub po o)) by (field; done). qlra.
Qed.
