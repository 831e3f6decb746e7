From Coq Require Import QArith Qcanon.
From Verif Require Import Base QcTac FillModel GeoModel MapModel MapSpec MapProof.
Local Open Scope Qc_scope.

Lemma vadd_0 u : vadd u (0, 0, 0) = u.
Proof. vec. unfold vadd. cbn [fst snd]. triple; ring. Qed.
Lemma combine_scale vs ks : combine vs ks = foldr vadd (0, 0, 0) (zip_with vscale ks vs).
Proof.
  unfold combine. f_equal. revert ks. induction vs as [|v vs IH]; intros [|k ks]; [done..|]. cbn [zip_with]. f_equal. apply IH.
Qed.

(** ** Quadrilateral *)
Ltac quad_unfold :=
  unfold quad_F1, quad_J1, quad_psi, quad_dpsi, combine, vadd, vscale, column1, column2, column3, e1, e2, e3; cbn [zip_with foldr fst snd].

Lemma quad_corners a b c d : quad_F [a; b; c; d] reference_square = [a; b; c; d].
Proof.
  vec. unfold quad_F, reference_square. cbn [fmap list_fmap]. quad_unfold. repeat (apply f_equal2; [triple; ring|]). done.
Qed.
Lemma quad_partials a b c d : level a b -> level a c -> level a d ->
  partials (quad_F1 [a; b; c; d]) (quad_J1 [a; b; c; d]) [(e1, column1); (e2, column2)].
Proof.
  intros H1 H2 H3 e He x h. rewrite !elem_of_cons, elem_of_nil in He. unfold level in *.
  vec. cbn [fst snd] in *. subst.
  destruct He as [-> |[-> |[]]]; cbn [fst snd]; quad_unfold; triple; ring.
Qed.
Lemma quad_det a b c d x y z : mdet (quad_J1 [a; b; c; d] (x, y, z)) =
  (1 - x) * (1 - y) * twice_area [d; a; b] + x * (1 - y) * twice_area [a; b; c] + x * y * twice_area [b; c; d] + y * (1 - x) * twice_area [c; d; a].
Proof. vec. unfold mdet, twice_area, shoelace_from, shoelace_term. quad_unfold. ring. Qed.
Lemma quad_positive a b c d p : convex_quadrilateral a b c d -> in_reference_square p -> 0 < mdet (quad_J1 [a; b; c; d] p).
Proof.
  intros (H1 & H2 & H3 & H4) ([Hx Hx'] & [Hy Hy'] & _). destruct p as [[x y] z]. cbn [fst snd] in *. rewrite quad_det.
  generalize dependent (twice_area [d; a; b]). generalize dependent (twice_area [a; b; c]).
  generalize dependent (twice_area [b; c; d]). generalize dependent (twice_area [c; d; a]). intros t4 H4 t3 H3 t2 H2 t1 H1.
  assert (P1 : 0 <= (1 - x) * (1 - y)) by qnra. assert (P2 : 0 <= x * (1 - y)) by qnra.
  assert (P3 : 0 <= x * y) by qnra. assert (P4 : 0 <= y * (1 - x)) by qnra.
  assert (S : (1 - x) * (1 - y) + x * (1 - y) + x * y + y * (1 - x) = 1) by ring.
  generalize dependent ((1 - x) * (1 - y)). generalize dependent (x * (1 - y)). generalize dependent (x * y). generalize dependent (y * (1 - x)).
  intros k4 K4 k3 K3 k2 K2 k1 K1 S. clear Hx Hx' Hy Hy'.
  assert (0 <= k1 * t1) by qnra. assert (0 <= k2 * t2) by qnra. assert (0 <= k3 * t3) by qnra. assert (0 <= k4 * t4) by qnra.
  destruct (Qclt_le_dec 0 k1); [assert (0 < k1 * t1) by qnra; qlra|].
  destruct (Qclt_le_dec 0 k2); [assert (0 < k2 * t2) by qnra; qlra|].
  destruct (Qclt_le_dec 0 k3); [assert (0 < k3 * t3) by qnra; qlra|].
  assert (0 < k4) by qlra. assert (0 < k4 * t4) by qnra. qlra.
Qed.
Lemma quad_inverse a b c d p : mdet (quad_J1 [a; b; c; d] p) <> 0 -> inverses (quad_J1 [a; b; c; d] p) (quad_JInv1 [a; b; c; d] p).
Proof.
  intros Hn u. unfold quad_JInv1. unfold quad_J1 in *.
  set (dx := combine [a; b; c; d] (quad_dpsi p).1) in *. set (dy := combine [a; b; c; d] (quad_dpsi p).2) in *. cbv zeta in *.
  assert (Hd : dx.1.1 * dy.1.2 - dx.1.2 * dy.1.1 <> 0).
  { intros E. apply Hn. unfold mdet. trans (dx.1.1 * dy.1.2 - dx.1.2 * dy.1.1); [ring|exact E]. }
  clearbody dx dy. clear Hn. vec. cbn [fst snd] in *. unfold mapply, vadd, vscale. cbn [fst snd]. split; triple; field; exact Hd.
Qed.
Lemma quad_image a b c d p : in_reference_square p -> convex_point [a; b; c; d] (quad_F1 [a; b; c; d] p).
Proof.
  intros ([Hx Hx'] & [Hy Hy'] & _). exists (quad_psi p). destruct p as [[x y] z]. cbn [fst snd] in *. unfold quad_F1.
  split; [done|]. split; [|split; [|apply combine_scale]].
  - unfold quad_psi. rewrite !Forall_cons, Forall_nil. repeat split; qnra.
  - cbn. ring.
Qed.
Lemma quad_area a b c d : (1 + 1) * mdet (quad_J1 [a; b; c; d] (/ (1 + 1), / (1 + 1), 0)) = twice_area [a; b; c; d].
Proof.
  rewrite quad_det. assert (H : (1 + 1) * / (1 + 1) = 1) by (vm_compute; by apply Qc_is_canon).
  generalize dependent (/ (1 + 1)). intros h H.
  assert (E1 : 1 - h = h) by qlra. rewrite !E1.
  trans (((1 + 1) * h) * h * (twice_area [d; a; b] + twice_area [a; b; c] + twice_area [b; c; d] + twice_area [c; d; a])); [ring|].
  rewrite H.
  trans ((1 + 1) * h * twice_area [a; b; c; d]); [|rewrite H; ring].
  vec. unfold twice_area, shoelace_from, shoelace_term. cbn [fst snd]. ring.
Qed.

(** ** Hexahedron *)
Ltac hexa_unfold :=
  unfold hexa_F1, hexa_J1, hexa_psi, hexa_dpsi, combine, vadd, vscale, column1, column2, column3, e1, e2, e3; cbn [zip_with foldr fst snd].

Lemma hexa_corners a b c d e f g h : hexa_F [a; b; c; d; e; f; g; h] reference_cube = [a; b; c; d; e; f; g; h].
Proof.
  vec. unfold hexa_F, reference_cube. cbn [fmap list_fmap]. hexa_unfold. repeat (apply f_equal2; [triple; ring|]). done.
Qed.
Lemma hexa_partials a b c d e f g h :
  partials (hexa_F1 [a; b; c; d; e; f; g; h]) (hexa_J1 [a; b; c; d; e; f; g; h]) [(e1, column1); (e2, column2); (e3, column3)].
Proof.
  intros i Hi x k. rewrite !elem_of_cons, elem_of_nil in Hi. vec.
  destruct Hi as [-> |[-> |[-> |[]]]]; cbn [fst snd]; hexa_unfold; triple; ring.
Qed.
Lemma hexa_image a b c d e f g h p : in_reference_cube p ->
  convex_point [a; b; c; d; e; f; g; h] (hexa_F1 [a; b; c; d; e; f; g; h] p).
Proof.
  intros ([Hx Hx'] & [Hy Hy'] & [Hz Hz']). exists (hexa_psi p). destruct p as [[x y] z]. cbn [fst snd] in *. unfold hexa_F1.
  split; [done|]. split; [|split; [|apply combine_scale]].
  - unfold hexa_psi. assert (M : forall s t, 0 <= s -> 0 <= t -> 0 <= s * t) by (intros; qnra).
    assert (0 <= 1 - x) by qlra. assert (0 <= 1 - y) by qlra. assert (0 <= 1 - z) by qlra.
    rewrite !Forall_cons, Forall_nil. repeat split; auto.
  - cbn. ring.
Qed.
Lemma hexa_monomials a b c d e f g h p :
  combine (hexa_coefficients [a; b; c; d; e; f; g; h]) (monomials p) = hexa_F1 [a; b; c; d; e; f; g; h] p.
Proof.
  destruct p as [[x y] z]. unfold hexa_coefficients, hexa_A. cbn [fmap list_fmap seq lookup list_lookup from_option id monomials].
  vec. hexa_unfold. triple; ring.
Qed.
Lemma hexa_inverse vs p : mdet (hexa_J1 vs p) <> 0 -> inverses (hexa_J1 vs p) (minv (hexa_J1 vs p)).
Proof. apply mdet_minv. Qed.
Lemma hexa_box o u v w p : hexa_F1 (box_vertices o u v w) p = vadd (mapply (u, v, w) p) o /\ hexa_J1 (box_vertices o u v w) p = (u, v, w).
Proof.
  vec. unfold box_vertices, mapply. hexa_unfold. split; [triple; ring|]. triple; triple; ring.
Qed.
Lemma box_det u v w : mdet (u, v, w) = vdot (cross u v) w.
Proof. vec. unfold mdet, cross, vdot. cbn [fst snd]. ring. Qed.

(** The vertices put in order. *)
Definition rest (face : list nat) : list nat := filter (fun v => v ∉ face) (seq 0 8).
Definition order_check (a b c d : nat) : bool :=
  negb (bool_decide (NoDup [a; b; c; d])) ||
    (bool_decide (vertex_order [a; b; c; d] = zip ([a; b; c; d] ++ rest [a; b; c; d]) (seq 0 8)) && bool_decide (length (rest [a; b; c; d]) = 4%nat)).
Lemma order_checked :
  forallb (fun a => forallb (fun b => forallb (fun c => forallb (order_check a b c) (seq 0 8)) (seq 0 8)) (seq 0 8)) (seq 0 8) = true.
Proof. vm_cast_no_check (eq_refl true). Qed.
Lemma below8 n : (n < 8)%nat -> In n (seq 0 8).
Proof. intros H. apply in_seq. lia. Qed.
Lemma order_check_all a b c d : (a < 8)%nat -> (b < 8)%nat -> (c < 8)%nat -> (d < 8)%nat -> order_check a b c d = true.
Proof.
  intros Ha Hb Hc Hd. pose proof order_checked as B.
  pose proof (proj1 (forallb_forall _ _) B a (below8 a Ha)) as B1. cbv beta in B1. clear B.
  pose proof (proj1 (forallb_forall _ _) B1 b (below8 b Hb)) as B2. cbv beta in B2. clear B1.
  pose proof (proj1 (forallb_forall _ _) B2 c (below8 c Hc)) as B3. cbv beta in B3. clear B2.
  exact (proj1 (forallb_forall _ _) B3 d (below8 d Hd)).
Qed.
Lemma or_and (x y z : bool) : negb x || (y && z) = true -> x = true -> y = true /\ z = true.
Proof. destruct x, y, z; cbn; auto. Qed.
Lemma vertex_order_ok a b c d : NoDup [a; b; c; d] -> (a < 8)%nat -> (b < 8)%nat -> (c < 8)%nat -> (d < 8)%nat ->
  vertex_order [a; b; c; d] = zip ([a; b; c; d] ++ rest [a; b; c; d]) (seq 0 8) /\ length (rest [a; b; c; d]) = 4%nat.
Proof.
  intros N Ha Hb Hc Hd.
  destruct (or_and _ _ _ (order_check_all a b c d Ha Hb Hc Hd) (bool_decide_eq_true_2 _ N)) as [B1 B2].
  exact (conj (bool_decide_eq_true_1 _ B1) (bool_decide_eq_true_1 _ B2)).
Qed.
Lemma write_columns (vs : list vec3) ks ws : forall done_, mapM (fun k => vs !! k) ks = Some ws ->
  ofold (fun (cols : list (option vec3)) kv => v ← vget vs kv.1; vset cols kv.2 (Some v)) (zip ks (seq (length done_) (length ks)))
    (done_ ++ replicate (length ks) None) = Ok (done_ ++ (Some <$> ws)).
Proof.
  revert ws. induction ks as [|k ks IH]; intros ws dn H.
  { cbn in H. injection H as <-. done. }
  cbn [mapM] in H. destruct (vs !! k) as [v|] eqn:E; [|done]. cbn in H. destruct (mapM _ ks) as [ws'|] eqn:E'; [|done]. injection H as <-.
  cbn [length seq zip zip_with ofold]. cbn [fst snd].
  assert (Hg : vget vs k = Ok v) by (unfold vget; by rewrite E). rewrite Hg. cbn [mbind outcome_bind].
  assert (Hs : vset (dn ++ replicate (S (length ks)) None) (length dn) (Some v) = Ok (dn ++ Some v :: replicate (length ks) None)).
  { unfold vset. rewrite decide_True by (rewrite app_length, replicate_length; lia). cbn [replicate].
    rewrite insert_app_r_alt by done. by replace (length dn - length dn)%nat with 0%nat by lia. }
  rewrite Hs. cbn [mbind outcome_bind].
  replace (dn ++ Some v :: replicate (length ks) None) with ((dn ++ [Some v]) ++ replicate (length ks) None) by by rewrite <- app_assoc.
  specialize (IH ws' (dn ++ [Some v]) eq_refl). rewrite app_length in IH. cbn [length] in IH. rewrite Nat.add_1_r in IH. rewrite IH.
  rewrite <- app_assoc. done.
Qed.
Lemma omapM_some {A} (ws : list A) : omapM (fun c => match c with Some v => Ok v | None => UB end) (Some <$> ws) = Ok ws.
Proof. induction ws as [|w ws IH]; [done|]. cbn. rewrite IH. done. Qed.
Lemma hexahedron_vertices vs a b c d : length vs = 8%nat -> NoDup [a; b; c; d] -> (a < 8)%nat -> (b < 8)%nat -> (c < 8)%nat -> (d < 8)%nat ->
  exists ws, MapHexahedron vs [a; b; c; d] = Ok ws /\ mapM (fun k => vs !! k) ([a; b; c; d] ++ rest [a; b; c; d]) = Some ws.
Proof.
  intros L N Ha Hb Hc Hd. destruct (vertex_order_ok a b c d N Ha Hb Hc Hd) as [E R].
  destruct (mapM (fun k => vs !! k) ([a; b; c; d] ++ rest [a; b; c; d])) as [ws|] eqn:M.
  2:{ exfalso. apply mapM_None_1 in M. apply Exists_exists in M as (k & Hk & Hn). apply lookup_ge_None_1 in Hn.
      apply elem_of_app in Hk as [Hk|Hk].
      - rewrite !elem_of_cons, elem_of_nil in Hk. destruct Hk as [-> |[-> |[-> |[-> |[]]]]]; lia.
      - unfold rest in Hk. apply elem_of_list_filter in Hk as [_ Hk]. apply elem_of_seq in Hk. lia. }
  exists ws. split; [|done]. unfold MapHexahedron, hexa_vertices. rewrite !bool_decide_eq_true_2 by (cbn; lia). cbn [andb]. rewrite E.
  pose proof (write_columns vs _ ws [] M) as W. cbn [app length] in W. rewrite R in W. cbn [Nat.add] in W.
  cbn [app] in *. rewrite W. cbn [mbind outcome_bind]. apply omapM_some.
Qed.
Lemma rest_perm a b c d : NoDup [a; b; c; d] -> (a < 8)%nat -> (b < 8)%nat -> (c < 8)%nat -> (d < 8)%nat ->
  [a; b; c; d] ++ rest [a; b; c; d] ≡ₚ seq 0 8.
Proof.
  intros N Ha Hb Hc Hd. apply NoDup_Permutation.
  - apply NoDup_app. split; [done|]. split.
    + intros x Hx Hr. unfold rest in Hr. apply elem_of_list_filter in Hr as [Hr _]. done.
    + unfold rest. apply NoDup_filter, NoDup_seq.
  - apply NoDup_seq.
  - intros x. rewrite elem_of_app. unfold rest. rewrite elem_of_list_filter. split.
    + rewrite !elem_of_cons, elem_of_nil. intros [[-> |[-> |[-> |[-> |[]]]]]|[_ H]]; [apply elem_of_seq; lia..|done].
    + intros H. destruct (decide (x ∈ [a; b; c; d])); tauto.
Qed.
Lemma mapM_seq (vs : list vec3) : mapM (fun k => vs !! k) (seq 0 (length vs)) = Some vs.
Proof.
  apply mapM_Some. apply Forall2_same_length_lookup_2; [by rewrite seq_length|].
  intros i x y Hx Hy. apply lookup_seq in Hx as [-> _]. done.
Qed.
Lemma mapM_perm {A B} (f : A -> option B) l l' k k' : l ≡ₚ l' -> mapM f l = Some k -> mapM f l' = Some k' -> k ≡ₚ k'.
Proof.
  intros P. revert k k'. induction P as [|x l l' P IH|x y l|l1 l2 l3 P1 IH1 P2 IH2]; intros k k' H H'.
  - cbn in *. by injection H as <-; injection H' as <-.
  - cbn in *. destruct (f x) as [b|]; [|done]. cbn in *.
    destruct (mapM f l) as [r|]; [|done]. destruct (mapM f l') as [r'|]; [|done]. cbn in *. injection H as <-. injection H' as <-.
    constructor. by apply IH.
  - cbn in *. destruct (f x) as [b|]; [|destruct (f y); done]. destruct (f y) as [b'|]; [|done]. cbn in *.
    destruct (mapM f l) as [r|]; [|done]. cbn in *. injection H as <-. injection H' as <-. constructor.
  - destruct (mapM f l2) as [r|] eqn:E.
    + trans r; [by apply IH1|by apply IH2].
    + exfalso. apply mapM_None_1 in E. rewrite <- P1 in E. apply mapM_None_2 in E. rewrite H in E. discriminate E.
Qed.
Lemma hexahedron_ok vs a b c d : length vs = 8%nat -> NoDup [a; b; c; d] -> (a < 8)%nat -> (b < 8)%nat -> (c < 8)%nat -> (d < 8)%nat ->
  exists ws, MapHexahedron vs [a; b; c; d] = Ok ws /\ hexa_F ws reference_cube = ws /\ ws ≡ₚ vs /\
    ws !! 0%nat = vs !! a /\ ws !! 1%nat = vs !! b /\ ws !! 2%nat = vs !! c /\ ws !! 3%nat = vs !! d.
Proof.
  intros L N Ha Hb Hc Hd. destruct (hexahedron_vertices vs a b c d L N Ha Hb Hc Hd) as (ws & E & M). exists ws. split; [done|].
  destruct (vertex_order_ok a b c d N Ha Hb Hc Hd) as [_ R].
  assert (Lw : length ws = 8%nat) by (apply mapM_length in M; rewrite <- M, app_length, R; done).
  split.
  { do 8 (destruct ws as [|? ws]; [discriminate Lw|]). destruct ws; [|discriminate Lw]. apply hexa_corners. }
  split.
  { pose proof (mapM_seq vs) as Q. rewrite L in Q. exact (mapM_perm _ _ _ _ _ (rest_perm a b c d N Ha Hb Hc Hd) M Q). }
  apply mapM_Some_1 in M.
  assert (G : forall i k, ([a; b; c; d] ++ rest [a; b; c; d]) !! i = Some k -> ws !! i = vs !! k).
  { intros i k Hi. destruct (Forall2_lookup_l _ _ _ _ _ M Hi) as (y & Hy & Hk). rewrite Hk. exact Hy. }
  repeat split; apply G; reflexivity.
Qed.
Lemma hexahedron_straight vs : length vs = 8%nat -> MapHexahedron vs [0; 1; 2; 3]%nat = Ok vs.
Proof. intros L. do 8 (destruct vs as [|? vs]; [discriminate L|]). destruct vs; [|discriminate L]. reflexivity. Qed.
