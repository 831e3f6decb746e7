(** * Positions of points with respect to convex polyhedra. *)
From Coq Require Import QArith Qcanon.
From Verif Require Import Base BaseProof QcTac FillModel GeoModel MapModel PointModel PointSpec PointProof SolidModel SolidSpec.
Local Open Scope Qc_scope.

Lemma vec_parts (a b c a' b' c' : Qc) : (a, b, c) = (a', b', c') -> a = a' /\ b = b' /\ c = c'.
Proof. intros E. injection E as -> -> ->. done. Qed.
Lemma side_vscale c p : vdot (vscale (if fc_out c then 1 else - (1)) (fc_normal c)) (vsub p (first_point c)) = side c p.
Proof. unfold side, outward. destruct (fc_out c); unfold vdot, vscale; cbn; ring. Qed.
Lemma norm2_zero_vdot n (d : vec3) : norm2 d = 0 -> vdot n d = 0.
Proof.
  destruct d as [[x y] z]. unfold norm2, vdot. cbn. intros H.
  assert (x = 0) as -> by qnra. assert (y = 0) as -> by qnra. assert (z = 0) as -> by qnra. ring.
Qed.

(** With zero tolerance the position with respect to a plane is the sign. *)
Lemma plane_position_exact g p n o : exact g -> 0 < norm2 n ->
  match PointPlanePosition g p n o with
  | OnPlane => vdot n (vsub p o) = 0
  | Negative => vdot n (vsub p o) < 0
  | Positive => 0 < vdot n (vsub p o)
  end.
Proof.
  intros X NP. destruct (exact_tolerance g X) as (T & _ & M). unfold PointPlanePosition. rewrite T.
  unfold norm_zero, quotient_negative. rewrite M. replace (0 * 0) with 0 by ring.
  set (d := vsub p o). set (x := vdot n d).
  destruct (qle_spec (norm2 d) 0) as [L|L].
  { apply norm2_zero_vdot. apply Qcle_antisym; [done|]. unfold norm2, vdot. qnra. }
  destruct (qle_spec (x * x / norm2 n) 0) as [Q|Q].
  { destruct (decide (x = 0)) as [|NZ]; [done|]. exfalso.
    assert (0 < x * x / norm2 n) as P. { apply quotient_pos; [done|]. clearbody x. destruct (Qc_dec x 0) as [[|]|]; [qnra|qnra|done]. }
    qlra. }
  destruct (qlt_spec x 0) as [N|N]; cbn [andb].
  - destruct (qlt_spec 0 (x * x / norm2 n)) as [|C]; [done|]. exfalso. qlra.
  - destruct (Qc_dec x 0) as [[|]|E]; [done|done|]. exfalso. apply Q. rewrite E. replace (0 * 0 / norm2 n) with 0; [qlra|].
    unfold Qcdiv. ring.
Qed.

Lemma solid_dec fs p : (exists c, c ∈ fs /\ 0 < side c p) \/ in_solid fs p.
Proof.
  induction fs as [|c fs [(c' & C & P)|IH]].
  - right. intros c C%elem_of_nil. done.
  - left. exists c'. split; [by constructor|done].
  - destruct (Qclt_le_dec 0 (side c p)) as [P|P].
    + left. exists c. split; [constructor|done].
    + right. intros c' [-> |C]%elem_of_cons; [done|by apply IH].
Qed.

(** Going back from the plane of a face. *)
Lemma tapply_inj r t x y : (forall z, mapply r (tapply r z) = z) -> tapply r (vsub x t) = tapply r (vsub y t) -> x = y.
Proof.
  intros H E. assert (vsub x t = vsub y t) as D by (rewrite <- (H (vsub x t)), <- (H (vsub y t)), E; done).
  destruct x as [[x1 x2] x3], y as [[y1 y2] y3], t as [[t1 t2] t3]. unfold vsub in D. cbn [fst snd] in D. apply vec_parts in D as (D1 & D2 & D3).
  f_equal; [f_equal|]; qlra.
Qed.
Lemma to_plane_tapply r t x : vdot r.2 (vsub x t) = 0 -> to_plane r t x = tapply r (vsub x t).
Proof. intros H. unfold to_plane, tapply. cbn. by rewrite H. Qed.
Lemma in_plane c p : proper_face c -> side c p = 0 -> vdot (fc_rotation c).2 (vsub p (fc_translation c)) = 0.
Proof.
  intros PF S. destruct (pf_normal c PF) as (k & K & E).
  assert (vdot (fc_rotation c).2 (vsub (first_point c) (fc_translation c)) = 0) as F.
  { pose proof (pf_points c PF) as A. pose proof (pf_many c PF) as L. unfold first_point. destruct (fc_points c) as [|a l]; [cbn in L; lia|].
    by inversion A. }
  assert (k * vdot (fc_rotation c).2 (vsub p (first_point c)) = 0) as Z.
  { unfold side, outward in S. rewrite E in S. destruct (fc_out c).
    - rewrite <- S. unfold vdot, vscale. cbn. ring.
    - replace (k * vdot (fc_rotation c).2 (vsub p (first_point c))) with (- vdot (vscale (- (1)) (vscale k (fc_rotation c).2)) (vsub p (first_point c)))
        by (unfold vdot, vscale; cbn; ring). rewrite S. ring. }
  apply Qcmult_integral in Z as [Z|Z]; [done|].
  replace (vdot (fc_rotation c).2 (vsub p (fc_translation c))) with
    (vdot (fc_rotation c).2 (vsub p (first_point c)) + vdot (fc_rotation c).2 (vsub (first_point c) (fc_translation c)))
    by (unfold vdot, vsub; cbn; ring).
  rewrite Z, F. ring.
Qed.
Lemma normal_pos c : proper_face c -> 0 < norm2 (vscale (if fc_out c then 1 else - (1)) (fc_normal c)).
Proof.
  intros PF. apply norm2_pos. intros Z. destruct (pf_normal c PF) as (k & K & E). rewrite E in Z.
  assert (vscale (if fc_out c then 1 else - (1)) (vscale k (fc_rotation c).2) = vscale ((if fc_out c then 1 else - (1)) * k) (fc_rotation c).2) as Y
    by (unfold vscale; cbn; f_equal; [f_equal|]; ring).
  rewrite Y in Z. set (h := (if fc_out c then 1 else - (1)) * k) in Z.
  assert (h <> 0) as H. { unfold h. destruct (fc_out c); intros W; apply K; qlra. }
  destruct (fc_rotation c).2 as [[a b] d] eqn:R. unfold vscale in Z. cbn [fst snd] in Z. apply vec_parts in Z as (Z1 & Z2 & Z3).
  apply Qcmult_integral in Z1, Z2, Z3. destruct Z1 as [?|Z1]; [done|]. destruct Z2 as [?|Z2]; [done|]. destruct Z3 as [?|Z3]; [done|]. subst a b d.
  pose proof (pf_rotation c PF) as I. destruct (fc_rotation c) as [[u v] w]. cbn in R. subst w.
  pose proof (I (1, 0, 0)) as I1. pose proof (I (0, 1, 0)) as I2. pose proof (I (0, 0, 1)) as I3.
  destruct u as [[u1 u2] u3], v as [[v1 v2] v3]. unfold mapply, tapply, vadd, vscale, vdot in I1, I2, I3. cbn [fst snd] in I1, I2, I3.
  apply vec_parts in I1 as (A1 & A2 & A3). apply vec_parts in I2 as (B1 & B2 & B3). apply vec_parts in I3 as (C1 & C2 & C3).
  assert (u1 * u1 + v1 * v1 = 1) as E11 by (rewrite <- A1; ring). assert (u2 * u1 + v2 * v1 = 0) as E12 by (rewrite <- A2; ring).
  assert (u3 * u1 + v3 * v1 = 0) as E13 by (rewrite <- A3; ring). assert (u2 * u2 + v2 * v2 = 1) as E22 by (rewrite <- B2; ring).
  assert (u3 * u2 + v3 * v2 = 0) as E23 by (rewrite <- B3; ring). assert (u3 * u3 + v3 * v3 = 1) as E33 by (rewrite <- C3; ring).
  (* three orthonormal vectors of the plane: the third is orthogonal to the first two, whose determinant is not zero *)
  set (D := u1 * v2 - u2 * v1).
  assert (u3 * D = 0) as D1.
  { unfold D. replace (u3 * (u1 * v2 - u2 * v1)) with ((u3 * u1 + v3 * v1) * v2 - (u3 * u2 + v3 * v2) * v1) by ring. rewrite E13, E23. ring. }
  assert (v3 * D = 0) as D2.
  { unfold D. replace (v3 * (u1 * v2 - u2 * v1)) with ((u3 * u2 + v3 * v2) * u1 - (u3 * u1 + v3 * v1) * u2) by ring. rewrite E13, E23. ring. }
  assert (D * D = 1) as DD.
  { unfold D. replace ((u1 * v2 - u2 * v1) * (u1 * v2 - u2 * v1)) with ((u1 * u1 + v1 * v1) * (u2 * u2 + v2 * v2) - (u2 * u1 + v2 * v1) * (u2 * u1 + v2 * v1)) by ring.
    rewrite E11, E12, E22. ring. }
  assert (D <> 0) as DN. { intros W. rewrite W in DD. discriminate. }
  apply Qcmult_integral in D1 as [D1|?]; [|done]. apply Qcmult_integral in D2 as [D2|?]; [|done]. rewrite D1, D2 in E33. discriminate.
Qed.
Lemma plane_lookup c k a : proper_face c -> fc_points c !! k = Some a -> corner (fc_plane c) k = to_plane (fc_rotation c) (fc_translation c) a.
Proof.
  intros PF H. pose proof (lookup_lt_Some _ _ _ H) as L. rewrite (pf_plane c PF). unfold corner. rewrite fmap_length, Nat.mod_small by done.
  apply nth_lookup_Some. rewrite list_lookup_fmap, H. done.
Qed.
Lemma point_plane c k a : proper_face c -> fc_points c !! k = Some a ->
  to_plane (fc_rotation c) (fc_translation c) a = tapply (fc_rotation c) (vsub a (fc_translation c)).
Proof.
  intros PF H. apply to_plane_tapply. pose proof (pf_points c PF) as A. rewrite Forall_forall in A. apply A. by apply elem_of_list_lookup_2 in H.
Qed.
Lemma vertex_back c k a p : proper_face c -> side c p = 0 -> fc_points c !! k = Some a ->
  to_plane (fc_rotation c) (fc_translation c) p = corner (fc_plane c) k -> p = a.
Proof.
  intros PF S H E. rewrite (plane_lookup c k a PF H), (point_plane c k a PF H), to_plane_tapply in E by (by apply in_plane).
  exact (tapply_inj _ _ _ _ (pf_rotation c PF) E).
Qed.
Lemma edge_back c k a b t p : proper_face c -> side c p = 0 -> fc_points c !! k = Some a ->
  fc_points c !! ((k + 1) mod length (fc_points c))%nat = Some b ->
  on_line (corner (fc_plane c) k) (corner (fc_plane c) (S k)) t (to_plane (fc_rotation c) (fc_translation c) p) -> on_line a b t p.
Proof.
  intros PF S A B E.
  assert (corner (fc_plane c) (Datatypes.S k) = corner (fc_plane c) ((k + 1) mod length (fc_points c))) as EB.
  { rewrite <- (corner_mod (fc_plane c) (Datatypes.S k)). rewrite (pf_plane c PF), fmap_length. by rewrite Nat.add_1_r. }
  rewrite EB, (plane_lookup c _ _ PF A), (plane_lookup c _ _ PF B), (point_plane c _ _ PF A), (point_plane c _ _ PF B), to_plane_tapply in E
    by (by apply in_plane).
  unfold on_line in *. apply (tapply_inj _ (fc_translation c) _ _ (pf_rotation c PF)). rewrite E.
  unfold tapply, vdot, vsub. cbn. f_equal; [f_equal|]; ring.
Qed.

Section Position.
Context (g : geo_config) (p : vec3) (fs : list face).
Hypothesis G : exact g.
Hypothesis PS : proper_solid fs.

Lemma solid_loop_ok todo : forall done count, fs = done ++ todo -> (count <= length done)%nat ->
  (count = length done -> forall c, c ∈ done -> side c p < 0) -> ((count < length done)%nat -> ~ in_solid fs p) ->
  exists r, solid_loop g p (length fs) todo (length done) count = Ok r /\ solid_position_spec p fs r /\
    (r = SOutside \/ r = SInside \/ exists c, c ∈ fs /\ on_face c p).
Proof.
  induction todo as [|c todo IH]; intros done count E LC ALL NOT.
  - rewrite app_nil_r in E. subst done. cbn [solid_loop]. destruct (Nat.eqb_spec count (length fs)) as [Q|Q].
    + exists SInside. split; [reflexivity|]. split; [exact (ALL Q)|]. right. left. reflexivity.
    + exists SOutside. split; [reflexivity|]. split; [|left; reflexivity]. cbn. destruct (solid_dec fs p) as [?|C]; [done|].
      exfalso. apply NOT; [lia|done].
  - assert (c ∈ fs) as CF by (rewrite E; apply elem_of_app; right; constructor).
    destruct PS as [PF FACE]. rewrite Forall_forall in PF. pose proof (PF c CF) as P. pose proof (pf_many c P) as MANY.
    cbn [solid_loop].
    assert (vget (fc_points c) 0 = Ok (first_point c)) as ->.
    { unfold first_point. destruct (fc_points c) as [|a l]; [cbn in MANY; lia|done]. }
    cbn [mbind outcome_bind]. pose proof (plane_position_exact g p _ (first_point c) G (normal_pos c P)) as PP. rewrite side_vscale in PP.
    assert (fs = (done ++ [c]) ++ todo) as E' by (rewrite <- app_assoc; exact E).
    assert (length (done ++ [c]) = S (length done)) as L' by (rewrite app_length; cbn; lia).
    assert (~ in_solid fs p -> exists r, solid_loop g p (length fs) todo (S (length done)) count = Ok r /\ solid_position_spec p fs r /\
      (r = SOutside \/ r = SInside \/ exists c, c ∈ fs /\ on_face c p)) as SKIP.
    { intros NS. rewrite <- L'. apply (IH (done ++ [c]) count E'); [lia|intros; lia|intros _; exact NS]. }
    destruct (PointPlanePosition g p _ (first_point c)).
    + (* on the plane *)
      assert (2 < length (fc_plane c))%nat as LP by (rewrite (pf_plane c P), fmap_length; exact MANY).
      destruct (polygon_convex g (to_plane (fc_rotation c) (fc_translation c) p) (fc_plane c) G eq_refl LP (pf_turns c P) (pf_convex c P))
        as (r & -> & SP & OU & _). cbn [mbind outcome_bind].
      assert (r <> Outside -> on_face c p) as ON.
      { intros NO. split; [exact PP|]. intros k. destruct (Qclt_le_dec (orient (corner (fc_plane c) k) (corner (fc_plane c) (S k))
          (to_plane (fc_rotation c) (fc_translation c) p)) 0) as [X|]; [|done]. exfalso. apply NO, OU. exists k. exact X. }
      assert (length (fc_plane c) = length (fc_points c)) as LE by (rewrite (pf_plane c P); apply fmap_length).
      destruct r as [|k|k|].
      * apply SKIP. intros IS. apply (FACE c p CF PP) in IS as [_ H]. destruct (proj1 OU eq_refl) as [k K]. specialize (H k).
        revert H. apply Qclt_not_le. exact K.
      * destruct SP as (LK & t & T0 & T1 & OL). rewrite LE in LK.
        destruct (lookup_lt_is_Some_2 (fc_columns c) k) as [[v e] C]; [rewrite (pf_columns c P); exact LK|].
        destruct (lookup_lt_is_Some_2 (fc_points c) k LK) as [a A].
        destruct (lookup_lt_is_Some_2 (fc_points c) ((k + 1) mod length (fc_points c))) as [b B]; [apply Nat.mod_upper_bound; lia|].
        unfold vget. rewrite C. cbn [mbind outcome_bind snd]. exists (SBorderEdge e). split; [reflexivity|]. split.
        -- exists c, k, v, a, b, t. split; [exact CF|]. split; [exact C|]. split; [exact A|]. split; [exact B|]. split; [exact T0|]. split; [exact T1|].
           exact (edge_back c k a b t p P PP A B OL).
        -- right. right. exists c. split; [exact CF|]. apply ON. discriminate.
      * destruct SP as (LK & EQ). rewrite LE in LK.
        destruct (lookup_lt_is_Some_2 (fc_columns c) k) as [[v e] C]; [rewrite (pf_columns c P); exact LK|].
        destruct (lookup_lt_is_Some_2 (fc_points c) k LK) as [a A].
        unfold vget. rewrite C. cbn [mbind outcome_bind fst]. exists (SBorderVertex v). split; [reflexivity|]. split.
        -- exists c, k, e. split; [exact CF|]. split; [exact C|]. rewrite A. f_equal. symmetry. exact (vertex_back c k a p P PP A EQ).
        -- right. right. exists c. split; [exact CF|]. apply ON. discriminate.
      * exists (SBorderFace (length done)). split; [reflexivity|]. split.
        -- exists c. split; [rewrite E; by apply list_lookup_middle|]. split; [exact PP|exact SP].
        -- right. right. exists c. split; [exact CF|]. apply ON. discriminate.
    + (* inner side *)
      rewrite <- L'. apply (IH (done ++ [c]) (S count) E'); [lia| |].
      * intros Q c' [C| ->%elem_of_list_singleton]%elem_of_app; [|exact PP]. apply ALL; [lia|exact C].
      * intros Q. apply NOT. lia.
    + (* outer side *)
      apply SKIP. intros IS. specialize (IS c CF). revert IS. apply Qclt_not_le. exact PP.
Qed.
Lemma solid_ok : exists r, PointPolyhedronPosition g p fs = Ok r /\ solid_position_spec p fs r /\
  (r = SOutside <-> ~ in_solid fs p) /\ (r = SInside <-> forall c, c ∈ fs -> side c p < 0).
Proof.
  destruct (solid_loop_ok fs [] 0 eq_refl) as (r & E & SP & K); [cbn; lia|intros _ c C%elem_of_nil; done|cbn; lia|].
  exists r. split; [exact E|]. split; [exact SP|].
  assert (r <> SOutside -> in_solid fs p) as IN.
  { intros NO. destruct K as [?|[-> |(c & C & ON)]]; [done| |].
    - intros c C. apply Qclt_le_weak, SP, C.
    - apply (proj2 PS c p C (proj1 ON)). exact ON. }
  split; split.
  - intros ->. destruct SP as (c & C & P). intros IS. specialize (IS c C). revert IS. apply Qclt_not_le. exact P.
  - intros NS. destruct r; [reflexivity|exfalso; apply NS, IN; discriminate..].
  - intros ->. exact SP.
  - intros ALL. destruct K as [-> |[-> |(c & C & ON)]]; [| reflexivity|].
    + exfalso. destruct SP as (c & C & P). pose proof (ALL c C). qlra.
    + exfalso. destruct ON as [Z _]. pose proof (ALL c C) as Y. rewrite Z in Y. discriminate.
Qed.
End Position.
