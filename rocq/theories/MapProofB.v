From Coq Require Import QArith Qcanon.
From Verif Require Import Base QcTac FillModel GeoModel MapModel MapSpec MapProof.
Local Open Scope Qc_scope.

(** ** Parallelogram: image *)
Lemma convex4 v0 v1 v2 v3 p : (exists k0 k1 k2 k3, 0 <= k0 /\ 0 <= k1 /\ 0 <= k2 /\ 0 <= k3 /\ k0 + k1 + k2 + k3 = 1 /\
    p = vadd (vscale k0 v0) (vadd (vscale k1 v1) (vadd (vscale k2 v2) (vscale k3 v3)))) <-> convex_point [v0; v1; v2; v3] p.
Proof.
  assert (Z : forall u, vadd u (0, 0, 0) = u) by (intros u; vec; unfold vadd; cbn [fst snd]; triple; ring).
  split.
  - intros (k0 & k1 & k2 & k3 & H0 & H1 & H2 & H3 & Hs & ->). exists [k0; k1; k2; k3]. split; [done|].
    rewrite !Forall_cons, Forall_nil. split; [tauto|]. split; [cbn; rewrite <- Hs; ring|]. cbn [zip_with foldr]. by rewrite Z.
  - intros (ks & Hl & Hp & Hs & ->). destruct ks as [|k0 [|k1 [|k2 [|k3 [|? ?]]]]]; try discriminate Hl.
    rewrite !Forall_cons in Hp. exists k0, k1, k2, k3. cbn [zip_with foldr] in *. rewrite Z. repeat split; try tauto. rewrite <- Hs. ring.
Qed.
Lemma parallelogram_image v0 v1 v2 v3 : level v0 v1 -> level v0 v3 -> v2 = vsub (vadd v1 v3) v0 -> twice_area [v0; v1; v3] <> 0 ->
  forall p, in_reference_square p <-> convex_point [v0; v1; v2; v3] (F1 (MapParallelogram v0 v1 v2 v3) p).
Proof.
  intros H1 H2 -> Hn p. rewrite <- convex4. split.
  - intros ([Hx Hx'] & [Hy Hy'] & Hz).
    exists ((1 - p.1.1) * (1 - p.1.2)), (p.1.1 * (1 - p.1.2)), (p.1.1 * p.1.2), (p.1.2 * (1 - p.1.1)).
    repeat split.
    1-4: qnra.
    + ring.
    + vec. unfold level in *. cbn [fst snd] in *. subst.
      unfold F1, MapParallelogram, affine_of, mapply, plane_matrix, vadd, vsub, vscale. cbn [zip_with foldr fst snd af_matrix af_shift]. triple; ring.
  - intros (k0 & k1 & k2 & k3 & K0 & K1 & K2 & K3 & Hs & HF).
    set (v2 := vsub (vadd v1 v3) v0) in *.
    assert (E : F1 (MapParallelogram v0 v1 v2 v3) (k1 + k2, k2 + k3, 0) = F1 (MapParallelogram v0 v1 v2 v3) p).
    { rewrite HF. assert (k0 = 1 - k1 - k2 - k3) as -> by (rewrite <- Hs; ring). subst v2.
      clear HF. vec. unfold level in *. cbn [fst snd] in *. subst.
      unfold F1, MapParallelogram, affine_of, mapply, plane_matrix, vadd, vsub, vscale. cbn [zip_with foldr fst snd af_matrix af_shift]. triple; ring. }
    assert (E' : (k1 + k2, k2 + k3, 0) = p).
    { rewrite <- plane_det in Hn. exact (affine_inj _ _ _ _ Hn E). }
    subst p. repeat split; cbn [fst snd]; qlra.
Qed.

(** ** Parallelepiped *)
Lemma first_configuration_ok g vs ref cs d : first_configuration g vs ref cs = Ok d ->
  length vs = length ref /\ distance2 vs (F d ref) <= map_tolerance g * map_tolerance g /\
  exists i0 i1 i2 i3 v0 v1 v2 v3, (i0, i1, i2, i3) ∈ cs /\ vs !! i0 = Some v0 /\ vs !! i1 = Some v1 /\ vs !! i2 = Some v2 /\ vs !! i3 = Some v3 /\
    d = affine_of (MapQ v0 v1 v2 v3) v0.
Proof.
  induction cs as [|[[[i0 i1] i2] i3] cs IH]; [done|]. cbn [first_configuration]. unfold TestMapConfiguration, vget.
  destruct (vs !! i0) as [v0|] eqn:E0; [|done]. destruct (vs !! i1) as [v1|] eqn:E1; [|done].
  destruct (vs !! i2) as [v2|] eqn:E2; [|done]. destruct (vs !! i3) as [v3|] eqn:E3; [|done].
  cbn [mbind outcome_bind]. case_bool_decide as Hl; [|done]. cbn [negb]. unfold close_points at 1.
  destruct (qle_spec (distance2 vs (F (affine_of (MapQ v0 v1 v2 v3) v0) ref)) (map_tolerance g * map_tolerance g)) as [H|H].
  - intros [= <-]. split; [done|]. split; [done|]. exists i0, i1, i2, i3, v0, v1, v2, v3. repeat split; try done. left.
  - intros Hf. destruct (IH Hf) as (L & D & j0 & j1 & j2 & j3 & w0 & w1 & w2 & w3 & Hin & Hr). split; [done|]. split; [done|].
    exists j0, j1, j2, j3, w0, w1, w2, w3. split; [by right|done].
Qed.
Lemma first_configuration_some g vs ref cs : length vs = length ref ->
  (forall i0 i1 i2 i3, (i0, i1, i2, i3) ∈ cs -> (i0 < length vs)%nat /\ (i1 < length vs)%nat /\ (i2 < length vs)%nat /\ (i3 < length vs)%nat) ->
  (exists d, first_configuration g vs ref cs = Ok d) \/
  first_configuration g vs ref cs = Throw /\
    forall i0 i1 i2 i3 v0 v1 v2 v3, (i0, i1, i2, i3) ∈ cs -> vs !! i0 = Some v0 -> vs !! i1 = Some v1 -> vs !! i2 = Some v2 -> vs !! i3 = Some v3 ->
      map_tolerance g * map_tolerance g < distance2 vs (F (affine_of (MapQ v0 v1 v2 v3) v0) ref).
Proof.
  intros Hl. induction cs as [|[[[i0 i1] i2] i3] cs IH].
  { intros _. right. split; [done|]. intros ? ? ? ? ? ? ? ? H. by apply elem_of_nil in H. }
  intros Hr. cbn [first_configuration]. unfold TestMapConfiguration, vget.
  destruct (Hr i0 i1 i2 i3) as (R0 & R1 & R2 & R3); [left|].
  apply lookup_lt_is_Some in R0 as [v0 E0]. apply lookup_lt_is_Some in R1 as [v1 E1].
  apply lookup_lt_is_Some in R2 as [v2 E2]. apply lookup_lt_is_Some in R3 as [v3 E3].
  rewrite E0, E1, E2, E3. cbn [mbind outcome_bind]. rewrite bool_decide_eq_true_2 by done. cbn [negb].
  unfold close_points at 1 2.
  destruct (qle_spec (distance2 vs (F (affine_of (MapQ v0 v1 v2 v3) v0) ref)) (map_tolerance g * map_tolerance g)) as [H|H].
  { left. eauto. }
  destruct IH as [[d Hd]|[Hd Hn]].
  { intros j0 j1 j2 j3 Hj. apply Hr. by right. }
  { left. eauto. }
  right. split; [done|]. intros j0 j1 j2 j3 w0 w1 w2 w3 [Hj|Hj]%elem_of_cons.
  - apply pair_equal_spec in Hj as [[[-> ->]%pair_equal_spec ->]%pair_equal_spec ->].
    rewrite E0, E1, E2, E3. intros -> %Some_inj -> %Some_inj -> %Some_inj -> %Some_inj. by apply Qcnot_le_lt.
  - by apply Hn.
Qed.

Lemma test_exact g vs ref i0 i1 i2 i3 v0 v1 v2 v3 : vs !! i0 = Some v0 -> vs !! i1 = Some v1 -> vs !! i2 = Some v2 -> vs !! i3 = Some v3 ->
  length vs = length ref -> F (affine_of (MapQ v0 v1 v2 v3) v0) ref = vs ->
  TestMapConfiguration g vs ref i0 i1 i2 i3 = Ok (Some (affine_of (MapQ v0 v1 v2 v3) v0)).
Proof.
  intros E0 E1 E2 E3 L HF. unfold TestMapConfiguration, vget. rewrite E0, E1, E2, E3. cbn [mbind outcome_bind].
  rewrite bool_decide_eq_true_2 by done. rewrite HF, close_refl. done.
Qed.

Lemma Ok_inj {A} (a b : A) : Ok a = Ok b -> a = b.
Proof. by intros [= ->]. Qed.
Definition six (c0 c1 c2 c3 : nat) : list (nat * nat * nat * nat) :=
  [(c0, c1, c2, c3); (c0, c1, c3, c2); (c0, c2, c1, c3); (c0, c2, c3, c1); (c0, c3, c1, c2); (c0, c3, c2, c1)].
Lemma parallelepiped_within g vs cs d : MapParallelepiped g vs cs = Ok d ->
  length vs = 8%nat /\ distance2 vs (F d reference_cube) <= map_tolerance g * map_tolerance g /\ has_differential (F1 d) (af_matrix d) /\
  (mdet (af_matrix d) <> 0 -> good_affine d reference_cube (F d reference_cube) (mdet (af_matrix d))).
Proof.
  unfold MapParallelepiped, vget.
  destruct (cs !! 0%nat) as [c0|]; [|done]. destruct (cs !! 1%nat) as [c1|]; [|done].
  destruct (cs !! 2%nat) as [c2|]; [|done]. destruct (cs !! 3%nat) as [c3|]; [|done]. cbn [mbind outcome_bind].
  intros H. apply first_configuration_ok in H as (L & D & i0 & i1 & i2 & i3 & v0 & v1 & v2 & v3 & _ & _ & _ & _ & _ & ->).
  split; [exact L|]. split; [exact D|]. split; [apply affine_differential|]. intros Hn. by apply good_affine_of.
Qed.

(** The image of the reference cube under the configuration with edges [a], [b], [c]. *)
Lemma box_F o a b c : F (affine_of (MapQ o (vadd o a) (vadd o b) (vadd o c)) o) reference_cube = box_vertices o a b c.
Proof.
  vec. unfold F, F1, affine_of, MapQ, mapply, vadd, vsub, vscale, reference_cube, box_vertices, vadd. cbn [fmap list_fmap fst snd af_matrix af_shift].
  repeat (apply f_equal2; [triple; ring|]). done.
Qed.
Lemma square_nonneg v : 0 <= vdot v v.
Proof. vec. unfold vdot. cbn [fst snd]. qnra. Qed.
Lemma box_distance o u v w a b c :
  vdot (vsub u a) (vsub u a) + vdot (vsub v b) (vsub v b) + vdot (vsub w c) (vsub w c) <=
  distance2 (box_vertices o u v w) (box_vertices o a b c).
Proof.
  unfold distance2, box_vertices. cbn [zip_with foldr].
  assert (E : forall x y, vsub (vadd o x) (vadd o y) = vsub x y) by (intros x y; vec; unfold vsub, vadd; cbn [fst snd]; triple; ring).
  rewrite !E.
  pose proof (square_nonneg (vsub o o)).
  pose proof (square_nonneg (vsub (vadd (vadd o u) v) (vadd (vadd o a) b))).
  pose proof (square_nonneg (vsub (vadd (vadd o u) w) (vadd (vadd o a) c))).
  pose proof (square_nonneg (vsub (vadd (vadd (vadd o u) v) w) (vadd (vadd (vadd o a) b) c))).
  pose proof (square_nonneg (vsub (vadd (vadd o v) w) (vadd (vadd o b) c))).
  qlra.
Qed.

(** The coordinate system: the first vertex, then its three neighbours in any order. *)
Lemma parallelepiped_ok g o u v w c1 c2 c3 : [c1; c2; c3] ≡ₚ [1; 3; 4]%nat ->
  exists d, MapParallelepiped g (box_vertices o u v w) [0%nat; c1; c2; c3] = Ok d /\
    distance2 (box_vertices o u v w) (F d reference_cube) <= map_tolerance g * map_tolerance g /\
    ((c1, c2, c3) = (1, 3, 4)%nat \/
     (forall x y, (x, y) ∈ [(u, v); (u, w); (v, w)] -> map_tolerance g * map_tolerance g < vdot (vsub x y) (vsub x y)) ->
     F d reference_cube = box_vertices o u v w).
Proof.
  intros Hp. set (vs := box_vertices o u v w).
  assert (Hin : (0%nat, 1%nat, 3%nat, 4%nat) ∈ six 0 c1 c2 c3 /\
    forall a b c d, (a, b, c, d) ∈ six 0 c1 c2 c3 -> a = 0%nat /\ (b, c, d) ∈ [(1, 3, 4); (1, 4, 3); (3, 1, 4); (3, 4, 1); (4, 1, 3); (4, 3, 1)]%nat).
  { assert (Hc : (c1, c2, c3) ∈ [(1, 3, 4); (1, 4, 3); (3, 1, 4); (3, 4, 1); (4, 1, 3); (4, 3, 1)]%nat).
    { assert (N : NoDup [c1; c2; c3]) by (rewrite Hp; vm_compute; repeat constructor; set_solver).
      assert (M1 : c1 ∈ [1; 3; 4]%nat) by (rewrite <- Hp; set_solver). assert (M2 : c2 ∈ [1; 3; 4]%nat) by (rewrite <- Hp; set_solver).
      assert (M3 : c3 ∈ [1; 3; 4]%nat) by (rewrite <- Hp; set_solver).
      apply NoDup_cons in N as [N1 N]. apply NoDup_cons in N as [N2 _].
      rewrite !elem_of_cons, elem_of_nil in M1. rewrite !elem_of_cons, elem_of_nil in M2. rewrite !elem_of_cons, elem_of_nil in M3.
      rewrite !elem_of_cons, elem_of_nil in N1. rewrite elem_of_cons, elem_of_nil in N2. rewrite !elem_of_cons, elem_of_nil.
      destruct M1 as [-> |[-> |[-> |[]]]], M2 as [-> |[-> |[-> |[]]]], M3 as [-> |[-> |[-> |[]]]]; try (exfalso; lia); naive_solver. }
    unfold six. rewrite !elem_of_cons, elem_of_nil in Hc.
    repeat destruct Hc as [Hc|Hc]; try done; apply pair_equal_spec in Hc as [[-> ->]%pair_equal_spec ->];
      (split; [rewrite !elem_of_cons; naive_solver|]); intros a b c d; rewrite !elem_of_cons, !elem_of_nil; intros H;
      repeat destruct H as [H|H]; try done; apply pair_equal_spec in H as [[[-> ->]%pair_equal_spec ->]%pair_equal_spec ->]; naive_solver. }
  destruct Hin as [Hin Hall].
  unfold MapParallelepiped. cbn [vget lookup list_lookup mbind outcome_bind]. fold (six 0 c1 c2 c3).
  assert (Hid : F (affine_of (MapQ o (vadd o u) (vadd o v) (vadd o w)) o) reference_cube = vs) by apply box_F.
  destruct (first_configuration_some g vs reference_cube (six 0 c1 c2 c3)) as [[d Hd]|[_ Hn]].
  - done.
  - intros a b c d (-> & H)%Hall. rewrite !elem_of_cons, elem_of_nil in H.
    repeat destruct H as [H|H]; try done; apply pair_equal_spec in H as [[-> ->]%pair_equal_spec ->]; cbn; lia.
  - exists d. split; [done|]. destruct (first_configuration_ok _ _ _ _ _ Hd) as (_ & D & j0 & j1 & j2 & j3 & w0 & w1 & w2 & w3 & Hj & E0 & E1 & E2 & E3 & ->).
    split; [done|]. intros [Hc|Hfar].
    + apply pair_equal_spec in Hc as [[-> ->]%pair_equal_spec ->]. assert (Hd' : first_configuration g vs reference_cube (six 0 1 3 4) = Ok (affine_of (MapQ o (vadd o u) (vadd o v) (vadd o w)) o)).
      { apply first_configuration_head, test_exact; done. }
      rewrite Hd in Hd'. apply Ok_inj in Hd'. rewrite Hd'. exact Hid.
    + apply Hall in Hj as [-> Hj]. cbn in E0. apply Some_inj in E0. subst w0. clear Hd Hall Hin Hp Hid.
      assert (Hno : forall x y, (x, y) ∈ [(u, v); (u, w); (v, w)] -> vdot (vsub y x) (vsub y x) = vdot (vsub x y) (vsub x y)).
      { intros x y _. vec. unfold vdot, vsub. cbn [fst snd]. ring. }
      assert (Huv := Hfar u v ltac:(left)). assert (Huw := Hfar u w ltac:(right; left)). assert (Hvw := Hfar v w ltac:(right; right; left)).
      assert (Hvu := Hno u v ltac:(left)). assert (Hwu := Hno u w ltac:(right; left)). assert (Hwv := Hno v w ltac:(right; right; left)).
      rewrite !elem_of_cons, elem_of_nil in Hj.
      assert (G : forall a b c, w1 = vadd o a -> w2 = vadd o b -> w3 = vadd o c ->
        (vdot (vsub u a) (vsub u a) <= map_tolerance g * map_tolerance g /\ vdot (vsub v b) (vsub v b) <= map_tolerance g * map_tolerance g)).
      { intros a b c -> -> ->. rewrite box_F in D. pose proof (box_distance o u v w a b c) as B.
        pose proof (square_nonneg (vsub u a)). pose proof (square_nonneg (vsub v b)). pose proof (square_nonneg (vsub w c)).
        subst vs. split; qlra. }
      repeat destruct Hj as [Hj|Hj]; try done; apply pair_equal_spec in Hj as [[-> ->]%pair_equal_spec ->];
        cbn in E1, E2, E3; apply Some_inj in E1; apply Some_inj in E2; apply Some_inj in E3;
        destruct (G _ _ _ (eq_sym E1) (eq_sym E2) (eq_sym E3)) as [G1 G2].
      * subst. apply box_F.
      * exfalso. qlra.
      * exfalso. qlra.
      * exfalso. qlra.
      * exfalso. qlra.
      * exfalso. qlra.
  - exfalso. pose proof (Hn 0 1 3 4 o (vadd o u) (vadd o v) (vadd o w) Hin eq_refl eq_refl eq_refl eq_refl)%nat as H.
    rewrite Hid, distance2_refl in H. pose proof (tolerance_nonneg g). qlra.
Qed.
Lemma box_volume o u v w : mdet (MapQ o (vadd o u) (vadd o v) (vadd o w)) = vdot (cross u v) w.
Proof. vec. unfold MapQ, mdet, cross, vdot, vsub, vadd. cbn [fst snd]. ring. Qed.
