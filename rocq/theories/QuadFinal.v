(** * The quadrature rules, order by order *)
From Coq Require Import QArith Qcanon.
From Verif Require Import Base QcTac QuadModel QuadSpec QuadProof QuadCheck QuadDouble QuadWord
  QuadGauss1D QuadLobatto1D QuadSquare QuadTriangle QuadHexahedron QuadTetrahedron QuadTetrahedronPositive
  QuadCheckGauss1D QuadCheckLobatto1D QuadCheckSquare QuadCheckTriangle QuadCheckHexahedron QuadCheckTetrahedron QuadCheckTetrahedronPositive.
Local Open Scope Z_scope.

Lemma and3 a b c : a && b && c = true -> a = true /\ b = true /\ c = true.
Proof. by intros [[? ?]%andb_prop ?]%andb_prop. Qed.

Lemma Gauss1D_ok order : (order <= 31)%nat -> exists r, Gauss1D_Fill order = Ok r /\
  determined 1 r /\ inside_cube r /\ positive_weights r /\ accurate integral_cube 1 order (/ ZQ (5 * 10 ^ 14)) r.
Proof.
  intros H. destruct (Gauss1D_cases order H) as (m & r & I & L & E). destruct (Gauss1D_entry m r I) as [B X]. exists r. split; [exact E|].
  destruct (and3 _ _ _ B) as (B1 & B2 & B3). split; [exact (check_determined_sound 1 r ltac:(lia) B1)|].
  split; [exact (check_inside_cube_sound r B2)|]. split; [exact (check_weights_sound r B3)|]. exact (check_cube 1 m (5 * 10 ^ 14) r eq_refl X order L).
Qed.
Lemma Square_ok order : (order <= 31)%nat -> exists r, Square_Fill order = Ok r /\
  determined 2 r /\ inside_cube r /\ positive_weights r /\ accurate integral_cube 2 order (/ ZQ (5 * 10 ^ 14)) r.
Proof.
  intros H. destruct (Square_cases order H) as (m & r & I & L & E). exists r. split; [exact E|].
  destruct (check_table_sound false true 2 m (5 * 10 ^ 14) r ltac:(lia) eq_refl (Square_entry m r I)) as (B1 & B2 & B3 & B4). split; [exact B1|]. split; [exact B2|]. split; [exact (B3 eq_refl)|]. exact (B4 order L).
Qed.
Lemma Hexahedron_ok order : (order <= 15)%nat -> exists r, Hexahedron_Fill order = Ok r /\
  determined 3 r /\ inside_cube r /\ positive_weights r /\ accurate integral_cube 3 order (/ ZQ (10 ^ 15)) r.
Proof.
  intros H. destruct (Hexahedron_cases order H) as (m & r & I & L & E). exists r. split; [exact E|].
  destruct (check_table_sound false true 3 m (10 ^ 15) r ltac:(lia) eq_refl (Hexahedron_entry m r I)) as (B1 & B2 & B3 & B4). split; [exact B1|]. split; [exact B2|]. split; [exact (B3 eq_refl)|]. exact (B4 order L).
Qed.
Lemma Triangle_ok order : (order <= 30)%nat -> order <> 21%nat -> exists r, Triangle_Fill order = Ok r /\
  determined 2 r /\ inside_simplex r /\ positive_weights r /\ accurate integral_simplex 2 order (/ ZQ (5 * 10 ^ 12)) r.
Proof.
  intros H H21. destruct (Triangle_cases order H) as (m & r & I & _ & E & L). exists r. split; [exact E|].
  destruct (check_table_sound true true 2 m (5 * 10 ^ 12) r ltac:(lia) eq_refl (Triangle_entry m r I)) as (B1 & B2 & B3 & B4). split; [exact B1|]. split; [exact B2|]. split; [exact (B3 eq_refl)|]. exact (B4 order (L H21)).
Qed.
Lemma Triangle_21_ok : exists r, Triangle_Fill 21 = Ok r /\
  determined 2 r /\ inside_simplex r /\ positive_weights r /\ accurate integral_simplex 2 20 (/ ZQ (5 * 10 ^ 12)) r.
Proof.
  destruct (Triangle_cases 21 ltac:(lia)) as (m & r & I & L & E & _). exists r. split; [exact E|].
  destruct (check_table_sound true true 2 m (5 * 10 ^ 12) r ltac:(lia) eq_refl (Triangle_entry m r I)) as (B1 & B2 & B3 & B4). split; [exact B1|]. split; [exact B2|]. split; [exact (B3 eq_refl)|]. apply B4. lia.
Qed.
Lemma Tetrahedron_ok order : (order <= 15)%nat -> exists r, Tetrahedron_Fill order = Ok r /\
  determined 3 r /\ inside_simplex r /\ accurate integral_simplex 3 order (/ ZQ (2 * 10 ^ 13)) r.
Proof.
  intros H. destruct (Tetrahedron_cases order H) as (m & r & I & L & E). exists r. split; [exact E|].
  destruct (check_table_sound true false 3 m (2 * 10 ^ 13) r ltac:(lia) eq_refl (Tetrahedron_entry m r I)) as (B1 & B2 & B3 & B4). split; [exact B1|]. split; [exact B2|]. exact (B4 order L).
Qed.
Lemma TetrahedronPositive_ok order : (order <= 14)%nat -> order <> 11%nat -> order <> 13%nat -> exists r, TetrahedronPositive_Fill order = Ok r /\
  determined 3 r /\ inside_simplex r /\ positive_weights r /\ accurate integral_simplex 3 order (/ ZQ (10 ^ 14)) r.
Proof.
  intros H H1 H2. destruct (TetrahedronPositive_cases order H H1 H2) as (m & r & I & L & E). exists r. split; [exact E|].
  destruct (check_table_sound true true 3 m (10 ^ 14) r ltac:(lia) eq_refl (TetrahedronPositive_entry m r I)) as (B1 & B2 & B3 & B4). split; [exact B1|]. split; [exact B2|]. split; [exact (B3 eq_refl)|]. exact (B4 order L).
Qed.
Lemma Lobatto1D_ok order : (order <= 43)%nat -> exists r, Lobatto1D_Fill order = Ok r /\
  inside_cube r /\ positive_weights r /\ accurate integral_cube 1 order (/ ZQ (3 * 10 ^ 14)) r.
Proof.
  intros H. destruct (Lobatto1D_cases order H) as (m & r & I & L & E). destruct (Lobatto1D_entry m r I) as [B X]. exists r. split; [exact E|].
  destruct (andb_prop _ _ B) as (B1 & B2).
  split; [exact (check_inside_cube_sound r B1)|]. split; [exact (check_weights_sound r B2)|]. exact (check_cube 1 m (3 * 10 ^ 14) r eq_refl X order L).
Qed.
(** The end points are among the points of the Gauss-Lobatto rules. *)
Lemma Lobatto1D_ends order : (order <= 43)%nat -> exists r, Lobatto1D_Fill order = Ok r /\
  (exists a, head (nodes r) = Some a /\ a.1 = [0%Qc]) /\ (exists b, last (nodes r) = Some b /\ b.1 = [1%Qc]).
Proof.
  intros H. do 44 (destruct order as [|order]; [eexists; split; [reflexivity|]; split; eexists; (split; [reflexivity|apply (f_equal (fun q => [q])), Qc_is_canon; vm_compute; reflexivity])|]). exfalso. lia.
Qed.
Lemma Lobatto1D_low order : (order <= 15)%nat -> exists r, Lobatto1D_Fill order = Ok r /\ determined 1 r.
Proof.
  intros H. do 16 (destruct order as [|order]; [eexists; split; [reflexivity|]; apply check_determined_sound; [lia|vm_compute; reflexivity]|]). exfalso. lia.
Qed.
Lemma not_zeroed r c cs : zeroed r = false -> columns r = c :: cs -> (length c.1 <= 1)%nat -> ~ determined 1 r.
Proof.
  intros Z C L D. destruct (D c ltac:(rewrite C; left)) as [_ H]. destruct (H 1%nat ltac:(lia)) as (x & E & _). unfold coordinate in E.
  rewrite Z in E. rewrite (proj2 (lookup_ge_None c.1 1) L) in E. discriminate E.
Qed.
Lemma Lobatto1D_high order : (16 <= order <= 43)%nat -> exists r, Lobatto1D_Fill order = Ok r /\ ~ determined 1 r /\
  points r = (fun c => [Some (double_of (hd (Dec 0 0) c.1)); None; None]) <$> columns r.
Proof.
  intros H. do 16 (destruct order as [|order]; [exfalso; lia|]).
  do 28 (destruct order as [|order]; [eexists; split; [reflexivity|]; split; [eapply not_zeroed; [reflexivity|reflexivity|cbn; lia]|reflexivity]|]). exfalso. lia.
Qed.

(** ** A moment which is certainly wrong *)
Definition powers (xs : list dyadic) (k : nat) (us : list Z) : list Z := Nat.iter k (fun us => zip_with mulx us xs) us.
Definition moment_wrong (r : rule) (a b : nat) (E : Z) : bool :=
  let '(num, den) := simplex_nd [a; b] in
  match heads 2 (rows r) with
  | [xs; ys] =>
      let S := foldr Z.add 0 (powers ys b (powers xs a (start r))) in
      forallb (fun c : list decimal * decimal => bool_decide (length c.1 = 2%nat)) (columns r) &&
      forallb smallb xs && forallb smallb ys && forallb (fun w => 0 <=? w.2) (weights r) &&
      (num * 2 ^ PREC <? (Z.abs (S * den - num * 2 ^ PREC) - slack_of r (a + b) * den) * E)
  | _ => false
  end.
Lemma forallb_small xs : forallb smallb xs = true -> Forall small xs.
Proof. intros H. rewrite forallb_forall in H. apply Forall_forall. intros x Hx. apply smallb_spec, H, elem_of_list_In, Hx. Qed.
Lemma moment_wrong_sound r a b n E : 0 < E -> (a + b <= n)%nat -> moment_wrong r a b E = true -> ~ accurate integral_simplex 2 n (/ ZQ E) r.
Proof.
  intros HE Hn H A. unfold moment_wrong in H. destruct (simplex_nd [a; b]) as [num den] eqn:M. destruct (heads_length 2 (rows r)) as [Lh _].
  destruct (heads 2 (rows r)) as [|xs [|ys [|]]] eqn:Eh; try discriminate H. apply Forall_cons in Lh as [Lx [Ly _]%Forall_cons].
  apply andb_prop in H as [[[[H1 H2]%andb_prop H3]%andb_prop H4]%andb_prop H5%Z.ltb_lt]. apply forallb_small in H2, H3.
  assert (Hr : Forall (fun r => length r = 2%nat) (rows r)).
  { unfold rows. apply Forall_fmap, Forall_forall. intros c Hc. cbn. rewrite fmap_length. rewrite forallb_forall in H1.
    apply elem_of_list_In, H1, bool_decide_eq_true_1 in Hc. done. }
  assert (Hw : Forall (fun w : dyadic => 0 <= w.2) (weights r)).
  { apply Forall_forall. intros w Hw. rewrite forallb_forall in H4. apply elem_of_list_In in Hw. apply Z.leb_le, H4, Hw. }
  assert (Lw : length (rows r) = length (dyq <$> weights r)) by (unfold rows, weights; by rewrite !fmap_length).
  rewrite Lw in Lx, Ly.
  pose proof (near_iter 1 _ _ xs a Lx ltac:(by vm_compute) H2 (start_near r Hw)) as N1. fold (powers xs a (start r)) in N1.
  assert (K1 : (0 <= 1 + ZQ (Z.of_nat a))%Qc) by (pose proof (ZQ_nat a); qlra).
  pose proof (near_iter _ (times_pow (dyq <$> weights r) xs a) (powers xs a (start r)) ys b ltac:(by rewrite times_pow_length) K1 H3 N1) as N2. fold (powers ys b (powers xs a (start r))) in N2.
  set (us := powers ys b _) in *. clearbody us. set (S := foldr Z.add 0 us) in *.
  assert (K2 : (0 <= 1 + ZQ (Z.of_nat a) + ZQ (Z.of_nat b))%Qc) by (pose proof (ZQ_nat b); qlra).
  pose proof (near_sum _ _ _ K2 N2) as N3. fold S in N3.
  assert (Em : times_pow (times_pow (dyq <$> weights r) xs a) ys b = zip_with (fun U r => U * monomial_at [a; b] (dyq <$> r))%Qc (dyq <$> weights r) (rows r)).
  { rewrite <- (times_mono_rows 2 (rows r)), Eh by done. reflexivity. }
  rewrite Em, <- approximate_mono in N3. rewrite zip_with_length, Lw, Nat.min_id, fmap_length in N3. unfold weights in N3. rewrite fmap_length in N3. clear N1 N2 Em.
  assert (Hp : of_degree 2 n [([a; b], 1%Qc)]) by (constructor; [split; [done|cbn; lia]|constructor]).
  specialize (A [([a; b], 1%Qc)] Hp). unfold integral, integral_abs in A. rewrite approximate_lin in A. cbn [fmap list_fmap fst snd] in A.
  rewrite !qsum_cons in A. cbn [qsum foldr] in A. rewrite <- simplex_nd_ok, M in A. cbn [fst snd] in A. change (qabs 1%Qc) with 1%Qc in A.
  assert (Hd : 0 < den). { pose proof (zfact_pos (length [a; b] + sum_list [a; b])) as P. unfold simplex_nd in M. injection M as _ <-. exact P. }
  set (V := approximate r (monomial_at [a; b])) in *. clearbody V. unfold near in N3. unfold slack_of in H5.
  assert (El : (ZQ (Z.of_nat (length (columns r))) * (1 + ZQ (Z.of_nat a) + ZQ (Z.of_nat b)) = ZQ (Z.of_nat (length (columns r)) * Z.of_nat (Datatypes.S (a + b))))%Qc).
  { rewrite <- ZQ_1, <- !ZQ_add, <- ZQ_mul. f_equal. lia. }
  rewrite El in N3. set (l := Z.of_nat (length (columns r)) * Z.of_nat (Datatypes.S (a + b))) in *. clearbody l S. clear - HE Hd H5 A N3.
  apply ZQ_lt in H5. rewrite !ZQ_mul, ZQ_sub, ZQ_abs, ZQ_sub, !ZQ_mul in H5.
  assert (P : 0 < 2 ^ PREC) by done. unfold ulp in N3.
  assert (Ip : (ZQ (2 ^ PREC) * / ZQ (2 ^ PREC) = 1)%Qc) by (apply Qcmult_inv_r, ZQ_neq; lia).
  assert (Id : (ZQ den * / ZQ den = 1)%Qc) by (apply Qcmult_inv_r, ZQ_neq; lia). assert (Ie : (ZQ E * / ZQ E = 1)%Qc) by (apply Qcmult_inv_r, ZQ_neq; lia).
  apply ZQ_pos in HE, Hd, P. apply qinv_pos in HE as HE', Hd as Hd', P as P'. unfold Qcdiv in A.
  set (ip := (/ ZQ (2 ^ PREC))%Qc) in *. set (id := (/ ZQ den)%Qc) in *. set (ie := (/ ZQ E)%Qc) in *.
  set (p := ZQ (2 ^ PREC)) in *. set (d := ZQ den) in *. set (e := ZQ E) in *. set (m := ZQ num) in *. set (s := ZQ S) in *. set (k := ZQ l) in *.
  clearbody ip id ie p d e m s k.
  assert (T : (qabs (s * ip - m * id) <= qabs (V - s * ip) + qabs (V - m * id))%Qc).
  { replace (s * ip - m * id)%Qc with (- (V - s * ip) + (V - m * id))%Qc by ring. eapply Qcle_trans; [apply qabs_triangle|]. apply Qcplus_le_compat; [|apply Qcle_refl].
    destruct (qabs_cases (V - s * ip)) as [[? ->]|[? ->]], (qabs_cases (- (V - s * ip))) as [[? ->]|[? ->]]; qlra. }
  assert (Q : (qabs (s * ip - m * id) = qabs (s * d - m * p) * (ip * id))%Qc).
  { rewrite <- (qabs_pos (ip * id)) by (apply Qclt_le_weak; qnra). rewrite <- qabs_mult. f_equal.
    trans (s * ip * (d * id) - m * id * (p * ip))%Qc; [rewrite Ip, Id; ring|ring]. }
  rewrite Q in T. clear Q. set (b0 := qabs (s * d - m * p)) in *. clearbody b0.
  replace (1 * V + 0 - (1 * (m * id) + 0))%Qc with (V - m * id)%Qc in A by ring. replace (ie * (1 * (m * id) + 0))%Qc with (ie * (m * id))%Qc in A by ring.
  assert (C : (b0 * (ip * id) <= k * ip + ie * (m * id))%Qc) by qlra.
  assert (C' : (b0 * (ip * id) * (p * d * e) <= (k * ip + ie * (m * id)) * (p * d * e))%Qc).
  { apply Qcmult_le_compat_r; [done|]. apply Qclt_le_weak. assert (0 < p * d)%Qc by qnra. qnra. }
  replace (b0 * (ip * id) * (p * d * e))%Qc with (b0 * e * ((p * ip) * (d * id)))%Qc in C' by ring.
  replace ((k * ip + ie * (m * id)) * (p * d * e))%Qc with (k * d * e * (p * ip) + m * p * ((d * id) * (e * ie)))%Qc in C' by ring.
  rewrite Ip, Id, Ie in C'. qlra.
Qed.
Lemma Triangle_21_wrong_check : moment_wrong Triangle_21 8 13 (10 ^ 7) = true.
Proof. vm_cast_no_check (eq_refl true). Qed.
Lemma Triangle_21_wrong : exists r, Triangle_Fill 21 = Ok r /\ ~ accurate integral_simplex 2 21 (/ ZQ (10 ^ 7)) r.
Proof. exists Triangle_21. split; [reflexivity|]. apply (moment_wrong_sound _ 8 13 21); [done|lia|exact Triangle_21_wrong_check]. Qed.
