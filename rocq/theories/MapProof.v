From Coq Require Import QArith Qcanon.
From Verif Require Import Base QcTac FillModel GeoModel MapModel MapSpec.
Local Open Scope Qc_scope.

Ltac vec := repeat match goal with v : vec3 |- _ => destruct v as [[? ?] ?] end.
Ltac triple := apply pair_equal_spec; split; [apply pair_equal_spec; split|].

Lemma mdet_minv m : mdet m <> 0 -> inverses m (minv m).
Proof.
  destruct m as [[[[a b] c] [[d e] f]] [[g h] i]]. intros Hd x. vec.
  unfold mapply, minv, vadd, vscale. cbn [fst snd]. unfold mdet in *. split; triple; field; exact Hd.
Qed.
Lemma mdet_of_minv m : mdet m <> 0 -> mdet (minv m) = / mdet m.
Proof.
  destruct m as [[[[a b] c] [[d e] f]] [[g h] i]]. intros Hd.
  unfold minv. cbv zeta. unfold mdet in *.
  set (D := a * (e * i - f * h) - d * (b * i - c * h) + g * (b * f - c * e)) in *.
  assert (Hk : / D * D = 1) by (rewrite Qcmult_comm; by apply Qcmult_inv_r).
  generalize dependent (/ D). intros k Hk.
  trans (k * (k * D) * (k * D)); [|rewrite Hk; ring]. unfold D. ring.
Qed.

Lemma vadd_vsub x b : vsub (vadd x b) b = x.
Proof. vec. unfold vadd, vsub. cbn [fst snd]. triple; ring. Qed.
Lemma vsub_vadd x b : vadd (vsub x b) b = x.
Proof. vec. unfold vadd, vsub. cbn [fst snd]. triple; ring. Qed.

Lemma affine_undo m s : mdet m <> 0 -> undo (F1 (affine_of m s)) (FInv1 (affine_of m s)).
Proof.
  intros Hd x. unfold F1, FInv1, affine_of. cbn [af_matrix af_inverse af_shift]. split.
  - rewrite vadd_vsub. apply mdet_minv, Hd.
  - rewrite (proj1 (mdet_minv m Hd _)). apply vsub_vadd.
Qed.
Lemma fmap_undo {A} (f g : A -> A) (xs : list A) : (forall x, g (f x) = x) -> g <$> (f <$> xs) = xs.
Proof. intros H. induction xs as [|x xs IH]; [done|]. cbn [fmap list_fmap]. rewrite H. f_equal. exact IH. Qed.
Lemma affine_undo_list m s xs : mdet m <> 0 -> FInv (affine_of m s) (F (affine_of m s) xs) = xs /\ F (affine_of m s) (FInv (affine_of m s) xs) = xs.
Proof.
  intros Hd. unfold F, FInv. split; apply fmap_undo; intros x.
  - exact (proj1 (affine_undo m s Hd x)).
  - exact (proj2 (affine_undo m s Hd x)).
Qed.
Lemma affine_inj m s x y : mdet m <> 0 -> F1 (affine_of m s) x = F1 (affine_of m s) y -> x = y.
Proof.
  intros Hd H. rewrite <- (proj1 (affine_undo m s Hd x)), <- (proj1 (affine_undo m s Hd y)). exact (f_equal _ H).
Qed.
Lemma affine_differential m s : has_differential (F1 (affine_of m s)) m.
Proof.
  destruct m as [[[[a b] c] [[d e] f]] [[g h] i]]. intros x y. vec.
  unfold F1, affine_of, mapply, vadd, vscale. cbn [fst snd af_matrix af_shift]. triple; ring.
Qed.

Lemma fmap_const {A B} (b : B) (xs : list A) : (fun _ => b) <$> xs = replicate (length xs) b.
Proof. induction xs; cbn; congruence. Qed.
Lemma good_affine_of m s ref vs k : F (affine_of m s) ref = vs -> mdet m = k -> k <> 0 -> good_affine (affine_of m s) ref vs k.
Proof.
  intros HF Hk Hn. subst k. repeat split.
  - done.
  - exact (proj1 (affine_undo_list m s xs Hn)).
  - exact (proj2 (affine_undo_list m s xs Hn)).
  - apply affine_differential.
  - intros xs. unfold J. apply fmap_const.
  - cbn. by apply mdet_of_minv.
  - unfold DetJ3, J. rewrite <- list_fmap_compose. unfold compose. cbn. apply fmap_const.
Qed.

(** ** Triangle and parallelogram *)
Lemma plane_det v0 u w : mdet (plane_matrix v0 u w) = twice_area [v0; u; w].
Proof.
  vec. unfold plane_matrix, mdet, twice_area, shoelace_from, shoelace_term. cbn [fst snd]. ring.
Qed.

Lemma triangle_ok v0 v1 v2 : level v0 v1 -> level v0 v2 -> twice_area [v0; v1; v2] <> 0 ->
  good_affine (MapTriangle v0 v1 v2) [(0, 0, 0); (1, 0, 0); (0, 1, 0)] [v0; v1; v2] (twice_area [v0; v1; v2]).
Proof.
  intros H1 H2 Hn. apply good_affine_of; [|apply plane_det|done].
  vec. unfold level in *. cbn [fst snd] in *. subst.
  unfold F, F1, affine_of, mapply, plane_matrix, vadd, vscale. cbn [fmap list_fmap fst snd af_matrix af_shift].
  repeat (apply f_equal2; [triple; ring|]). done.
Qed.

Lemma parallelogram_area v0 v1 v3 : twice_area [v0; v1; vsub (vadd v1 v3) v0; v3] = (1 + 1) * twice_area [v0; v1; v3].
Proof. vec. unfold vsub, vadd, twice_area, shoelace_from, shoelace_term. cbn [fst snd]. ring. Qed.
Lemma parallelogram_ok v0 v1 v2 v3 : level v0 v1 -> level v0 v3 -> v2 = vsub (vadd v1 v3) v0 -> twice_area [v0; v1; v3] <> 0 ->
  good_affine (MapParallelogram v0 v1 v2 v3) reference_square [v0; v1; v2; v3] (twice_area [v0; v1; v3]).
Proof.
  intros H1 H2 -> Hn. apply good_affine_of; [|apply plane_det|done].
  vec. unfold level in *. cbn [fst snd] in *. subst.
  unfold F, F1, affine_of, mapply, plane_matrix, vadd, vsub, vscale, reference_square. cbn [fmap list_fmap fst snd af_matrix af_shift].
  repeat (apply f_equal2; [triple; ring|]). done.
Qed.

(** ** Tetrahedron *)
Lemma tolerance_nonneg g : 0 <= map_tolerance g * map_tolerance g.
Proof. pose proof (map_tolerance g) as t. intros. generalize (map_tolerance g). clear. intros t. qnra. Qed.
Lemma distance2_refl vs : distance2 vs vs = 0.
Proof.
  unfold distance2. induction vs as [|v vs IH]; [done|]. cbn [zip_with foldr]. rewrite IH. vec. unfold vdot, vsub. cbn [fst snd]. ring.
Qed.
Lemma close_refl g vs : close_points g vs vs = true.
Proof. unfold close_points. rewrite distance2_refl. destruct (qle_spec 0 (map_tolerance g * map_tolerance g)) as [|n]; [done|]. destruct n. apply tolerance_nonneg. Qed.

Lemma mapq_det v0 v1 v2 v3 : mdet (MapQ v0 v1 v2 v3) = six_volume v0 v1 v2 v3.
Proof. vec. unfold MapQ, mdet, six_volume, cross, vdot, vsub. cbn [fst snd]. ring. Qed.
Lemma tetra_F v0 v1 v2 v3 : F (affine_of (MapQ v0 v1 v2 v3) v0) reference_tetrahedron = [v0; v1; v2; v3].
Proof.
  vec. unfold F, F1, affine_of, MapQ, mapply, vadd, vsub, vscale, reference_tetrahedron. cbn [fmap list_fmap fst snd af_matrix af_shift].
  repeat (apply f_equal2; [triple; ring|]). done.
Qed.
Lemma first_configuration_head g vs ref i0 i1 i2 i3 cs d :
  TestMapConfiguration g vs ref i0 i1 i2 i3 = Ok (Some d) -> first_configuration g vs ref ((i0, i1, i2, i3) :: cs) = Ok d.
Proof. intros H. cbn [first_configuration]. rewrite H. done. Qed.
Lemma tetrahedron_first g v0 v1 v2 v3 : MapTetrahedron g [v0; v1; v2; v3] = Ok (affine_of (MapQ v0 v1 v2 v3) v0).
Proof.
  unfold MapTetrahedron. apply first_configuration_head. unfold TestMapConfiguration. cbn [vget lookup list_lookup mbind outcome_bind].
  rewrite (tetra_F v0 v1 v2 v3), close_refl. cbn [length reference_tetrahedron]. rewrite bool_decide_eq_true_2 by done. done.
Qed.
Lemma tetrahedron_ok g v0 v1 v2 v3 : exists d, MapTetrahedron g [v0; v1; v2; v3] = Ok d /\ F d reference_tetrahedron = [v0; v1; v2; v3] /\
  (six_volume v0 v1 v2 v3 <> 0 -> good_affine d reference_tetrahedron [v0; v1; v2; v3] (six_volume v0 v1 v2 v3)).
Proof.
  exists (affine_of (MapQ v0 v1 v2 v3) v0). split; [apply tetrahedron_first|]. split; [apply tetra_F|].
  intros Hn. apply good_affine_of; [apply tetra_F|apply mapq_det|done].
Qed.

(** ** Images of the reference elements *)
Lemma triangle_image v0 v1 v2 : level v0 v1 -> level v0 v2 -> twice_area [v0; v1; v2] <> 0 -> forall p,
  in_reference_triangle p <-> convex_point [v0; v1; v2] (F1 (MapTriangle v0 v1 v2) p).
Proof.
  intros H1 H2 Hn p. split.
  - intros (Hx & Hy & Hs & Hz). exists [1 - p.1.1 - p.1.2; p.1.1; p.1.2]. split; [done|].
    split; [rewrite !Forall_cons, Forall_nil; repeat split; qlra|]. split; [cbn; ring|].
    vec. unfold level in *. cbn [fst snd] in *. subst.
    unfold F1, MapTriangle, affine_of, mapply, plane_matrix, vadd, vscale. cbn [zip_with foldr fst snd af_matrix af_shift]. triple; ring.
  - intros (ks & Hl & Hp & Hs & HF). destruct ks as [|k0 [|k1 [|k2 [|? ?]]]]; try discriminate Hl. clear Hl.
    assert (E : F1 (MapTriangle v0 v1 v2) (k1, k2, 0) = F1 (MapTriangle v0 v1 v2) p).
    { rewrite HF. cbn [foldr] in Hs. assert (k0 = 1 - k1 - k2) as -> by (rewrite <- Hs; ring).
      clear HF. vec. unfold level in *. cbn [fst snd] in *. subst.
      unfold F1, MapTriangle, affine_of, mapply, plane_matrix, vadd, vscale. cbn [zip_with foldr fst snd af_matrix af_shift]. triple; ring. }
    assert (E' : (k1, k2, 0) = p).
    { rewrite <- plane_det in Hn. exact (affine_inj _ _ _ _ Hn E). }
    subst p. rewrite !Forall_cons in Hp. destruct Hp as (? & ? & ? & _). cbn [foldr] in Hs.
    repeat split; cbn [fst snd]; qlra.
Qed.
Lemma tetrahedron_image g v0 v1 v2 v3 d : MapTetrahedron g [v0; v1; v2; v3] = Ok d -> six_volume v0 v1 v2 v3 <> 0 -> forall p,
  in_reference_tetrahedron p <-> convex_point [v0; v1; v2; v3] (F1 d p).
Proof.
  rewrite tetrahedron_first. intros [= <-] Hn p. split.
  - intros (Hx & Hy & Hz & Hs). exists [1 - p.1.1 - p.1.2 - p.2; p.1.1; p.1.2; p.2]. split; [done|].
    split; [rewrite !Forall_cons, Forall_nil; repeat split; qlra|]. split; [cbn; ring|].
    vec. unfold F1, affine_of, MapQ, mapply, vadd, vsub, vscale. cbn [zip_with foldr fst snd af_matrix af_shift]. triple; ring.
  - intros (ks & Hl & Hp & Hs & HF). destruct ks as [|k0 [|k1 [|k2 [|k3 [|? ?]]]]]; try discriminate Hl. clear Hl.
    assert (E : F1 (affine_of (MapQ v0 v1 v2 v3) v0) (k1, k2, k3) = F1 (affine_of (MapQ v0 v1 v2 v3) v0) p).
    { rewrite HF. cbn [foldr] in Hs. assert (k0 = 1 - k1 - k2 - k3) as -> by (rewrite <- Hs; ring).
      clear HF. vec. unfold F1, affine_of, MapQ, mapply, vadd, vsub, vscale. cbn [zip_with foldr fst snd af_matrix af_shift]. triple; ring. }
    assert (E' : (k1, k2, k3) = p).
    { rewrite <- mapq_det in Hn. exact (affine_inj _ _ _ _ Hn E). }
    subst p. rewrite !Forall_cons in Hp. destruct Hp as (? & ? & ? & ? & _). cbn [foldr] in Hs.
    repeat split; cbn [fst snd]; qlra.
Qed.
