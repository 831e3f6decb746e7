(** Structured rectangles and triangles: index arithmetic. *)
From Coq Require Import QArith Qcanon.
From Verif Require Import Base BaseProof CsrModel MeshModel MeshSpec MeshHist FillModel FillSpec FillProofA FillProofB GridModel GridSpec GridProofA.
From Coq Require Import ZifyBool ZifyNat ZifyN.
Local Open Scope nat_scope.

Lemma bind_uniform {A B} (f : A -> list B) n (l : list A) : (forall x, x ∈ l -> length (f x) = n) -> forall i y,
  (l ≫= f) !! i = Some y <-> exists h b x, l !! h = Some x /\ f x !! b = Some y /\ b < n /\ i = b + h * n.
Proof.
  induction l as [|x l IH]; intros Hn i y.
  - cbn. split; [done|]. intros (h & b & z & ? & _). done.
  - assert (Hx : length (f x) = n) by (apply Hn; by left).
    specialize (IH (fun z Hz => Hn z (elem_of_list_further _ _ _ Hz))).
    change ((x :: l) ≫= f) with (f x ++ (l ≫= f)). split.
    + intros [H|[Hl H]]%lookup_app_Some.
      * exists 0, i, x. split_and!; [done|done| |lia]. apply lookup_lt_Some in H. lia.
      * apply IH in H as (h & b & z & H1 & H2 & H3 & H4). exists (S h), b, z. split_and!; [done..|]. lia.
    + intros (h & b & z & H1 & H2 & H3 & ->). destruct h as [|h].
      * injection H1 as <-. rewrite Nat.mul_0_l, Nat.add_0_r. by rewrite lookup_app_l by lia.
      * rewrite lookup_app_r by lia. apply IH. exists h, b, z. split_and!; [done..|]. lia.
Qed.
Lemma bind_length {A B} (f : A -> list B) n (l : list A) : (forall x, x ∈ l -> length (f x) = n) ->
  length (l ≫= f) = length l * n.
Proof.
  induction l as [|x l IH]; intros Hn; [done|]. change ((x :: l) ≫= f) with (f x ++ (l ≫= f)).
  rewrite app_length, IH, (Hn x) by set_solver. cbn. lia.
Qed.

Lemma grid2_lookup nh nb i hb : grid2 nh nb !! i = Some hb <-> hb.1 < nh /\ hb.2 < nb /\ i = hb.2 + hb.1 * nb.
Proof.
  unfold grid2. rewrite (bind_uniform _ nb) by (intros; by rewrite fmap_length, seq_length). split.
  - intros (h & b & x & [-> ?]%lookup_seq & H2 & H3 & ->). apply list_lookup_fmap_inv in H2 as (b' & -> & [-> ?]%lookup_seq).
    cbn. done.
  - intros (? & ? & ->). exists hb.1, hb.2, hb.1. split_and!; [by apply lookup_seq|..|done|done].
    rewrite list_lookup_fmap, lookup_seq_lt by done. by destruct hb.
Qed.
Lemma grid2_length nh nb : length (grid2 nh nb) = nh * nb.
Proof. unfold grid2. rewrite (bind_length _ nb) by (intros; by rewrite fmap_length, seq_length). by rewrite seq_length. Qed.

Lemma pair_inj n b h b' h' : b < n -> b' < n -> b + h * n = b' + h' * n -> b = b' /\ h = h'.
Proof.
  intros Hb Hb' E. assert (h = h') as ->; [|lia].
  assert (X : (b + h * n) / n = (b' + h' * n) / n) by (by rewrite E).
  rewrite !Nat.div_add, !Nat.div_small in X by lia. lia.
Qed.
Lemma pair_of n m i : i < m * n -> exists h b, h < m /\ b < n /\ i = b + h * n.
Proof.
  intros Hi. assert (n <> 0) by lia. exists (i / n), (i mod n). split_and!.
  - apply Nat.div_lt_upper_bound; lia.
  - by apply Nat.mod_upper_bound.
  - pose proof (Nat.div_mod i n). lia.
Qed.

(** ** Points *)
Lemma rect_point_mark_spec nB nH h b : h < nH -> b < nB -> 2 <= nB -> 2 <= nH -> rect_point_mark nB nH h b = rect_marker nB nH h b.
Proof.
  intros Hh Hb H1 H2. unfold rect_point_mark, rect_marker, flag, first, final, inner.
  destruct (Nat.eqb_spec b 0), (Nat.eqb_spec h 0), (Nat.eqb_spec b (nB - 1)), (Nat.eqb_spec h (nH - 1)); cbn; try reflexivity; lia.
Qed.
Lemma rect_coordinate_spec o tb th x y : rect_coordinate o tb th x y = rect_point o tb th x y.
Proof. destruct o as [[? ?] ?], tb as [[? ?] ?], th as [[? ?] ?]. done. Qed.
Lemma rect_points_lookup o tb th bs hs i q : rect_points o tb th bs hs !! i = Some q <->
  exists h b x y, hs !! h = Some y /\ bs !! b = Some x /\ i = b + h * length bs /\
    q = (dbl3 (rect_coordinate o tb th x y), rect_point_mark (length bs) (length hs) h b).
Proof.
  unfold rect_points. rewrite (bind_uniform _ (length bs)) by (intros; by rewrite fmap_length, imap_length). split.
  - intros (h & b & [h' y] & H1 & H2 & H3 & ->). apply list_lookup_imap_Some in H1 as (y' & H1 & [= -> ->]).
    apply list_lookup_fmap_inv in H2 as ([b' x] & -> & H2). apply list_lookup_imap_Some in H2 as (x' & H2 & [= -> ->]).
    exists h, b, x', y'. done.
  - intros (h & b & x & y & H1 & H2 & -> & ->). exists h, b, (h, y). split_and!.
    + apply list_lookup_imap_Some. eauto.
    + rewrite list_lookup_fmap, list_lookup_imap, H2. done.
    + by eapply lookup_lt_Some.
    + done.
Qed.
Lemma rect_points_length o tb th bs hs : length (rect_points o tb th bs hs) = length bs * length hs.
Proof.
  unfold rect_points. rewrite (bind_length _ (length bs)) by (intros; by rewrite fmap_length, imap_length).
  rewrite imap_length. lia.
Qed.

(** ** Edges and cells of the rectangle; [w + 1] points along the base, [t + 1] along the height *)
Section rect.
  Context (w t : nat).
  Notation nB := (S w).
  Notation nH := (S t).
  Definition vtx (h b : nat) : nat := b + h * nB.
  Definition hor (h b : nat) : nat := b + h * w.
  Definition ver (h b : nat) : nat := nH * w + (b + h * nB).
  Definition obl (h b : nat) : nat := nH * w + t * nB + (b + h * w).
  Definition cel (h b : nat) : nat := b + h * w.

  Definition hmark (h : nat) : N := (flag 5 (first h) + flag 7 (final nH h))%N.
  Definition vmark (b : nat) : N := (flag 8 (first b) + flag 6 (final nB b))%N.

  Lemma hor_lookup h b : h <= t -> b < w ->
    rect_horizontal nB nH !! hor h b = Some (N.of_nat (vtx h b), N.of_nat (vtx h (S b)), hmark h).
  Proof.
    intros Hh Hb. unfold rect_horizontal. rewrite list_lookup_fmap. rewrite (proj2 (grid2_lookup nH (nB - 1) (hor h b) (h, b))).
    - cbn [fmap option_fmap option_map]. unfold vtx, hmark. do 3 f_equal. lia.
    - cbn [fst snd]. unfold hor. replace (S w - 1) with w by lia. lia.
  Qed.
  Lemma rect_horizontal_length : length (rect_horizontal nB nH) = nH * w.
  Proof. unfold rect_horizontal. rewrite fmap_length, grid2_length. f_equal. lia. Qed.
  Lemma rect_vertical_length : length (rect_vertical nB nH) = t * nB.
  Proof. unfold rect_vertical. rewrite fmap_length, grid2_length. f_equal. lia. Qed.
  Lemma tri_oblique_length : length (tri_oblique nB nH) = t * w.
  Proof. unfold tri_oblique. rewrite fmap_length, grid2_length. f_equal; lia. Qed.
  Lemma ver_lookup h b : h < t -> b <= w ->
    rect_vertical nB nH !! (b + h * nB) = Some (N.of_nat (vtx h b), N.of_nat (vtx (S h) b), vmark b).
  Proof.
    intros Hh Hb. unfold rect_vertical. rewrite list_lookup_fmap. rewrite (proj2 (grid2_lookup (nH - 1) nB (b + h * nB) (h, b))).
    - cbn [fmap option_fmap option_map]. unfold vtx, vmark. do 3 f_equal. lia.
    - cbn [fst snd]. lia.
  Qed.
  Lemma obl_lookup h b : h < t -> b < w ->
    tri_oblique nB nH !! (b + h * w) = Some (N.of_nat (vtx h b), N.of_nat (vtx (S h) (S b)), 0%N).
  Proof.
    intros Hh Hb. unfold tri_oblique. rewrite list_lookup_fmap. rewrite (proj2 (grid2_lookup (nH - 1) (nB - 1) (b + h * w) (h, b))).
    - cbn [fmap option_fmap option_map]. unfold vtx. do 3 f_equal. lia.
    - cbn [fst snd]. replace (S w - 1) with w by lia. lia.
  Qed.

  Definition redges := rect_horizontal nB nH ++ rect_vertical nB nH.
  Definition tedges := rect_horizontal nB nH ++ rect_vertical nB nH ++ tri_oblique nB nH.
  Lemma redges_length : length redges = nH * w + t * nB.
  Proof. unfold redges. by rewrite app_length, rect_horizontal_length, rect_vertical_length. Qed.
  Lemma tedges_length : length tedges = nH * w + t * nB + t * w.
  Proof. unfold tedges. rewrite !app_length, rect_horizontal_length, rect_vertical_length, tri_oblique_length. lia. Qed.

  Lemma hor_lt h b : h <= t -> b < w -> hor h b < nH * w.
  Proof. intros. unfold hor. nia. Qed.
  Lemma redges_hor h b : h <= t -> b < w -> redges !! hor h b = Some (N.of_nat (vtx h b), N.of_nat (vtx h (S b)), hmark h).
  Proof.
    intros Hh Hb. unfold redges. rewrite lookup_app_l; [by apply hor_lookup|]. rewrite rect_horizontal_length. by apply hor_lt.
  Qed.
  Lemma redges_ver h b : h < t -> b <= w -> redges !! ver h b = Some (N.of_nat (vtx h b), N.of_nat (vtx (S h) b), vmark b).
  Proof.
    intros Hh Hb. unfold redges. rewrite lookup_app_r; rewrite rect_horizontal_length; [|unfold ver; lia].
    unfold ver. rewrite Nat.add_comm, Nat.add_sub. by apply ver_lookup.
  Qed.
  Lemma tedges_old i : i < nH * w + t * nB -> tedges !! i = redges !! i.
  Proof. intros Hi. unfold tedges. rewrite app_assoc. fold redges. apply lookup_app_l. by rewrite redges_length. Qed.
  Lemma tedges_hor h b : h <= t -> b < w -> tedges !! hor h b = Some (N.of_nat (vtx h b), N.of_nat (vtx h (S b)), hmark h).
  Proof. intros Hh Hb. rewrite tedges_old; [by apply redges_hor|]. pose proof (hor_lt h b Hh Hb). lia. Qed.
  Lemma ver_lt h b : h < t -> b <= w -> ver h b < nH * w + t * nB.
  Proof. intros. unfold ver. nia. Qed.
  Lemma tedges_ver h b : h < t -> b <= w -> tedges !! ver h b = Some (N.of_nat (vtx h b), N.of_nat (vtx (S h) b), vmark b).
  Proof. intros Hh Hb. rewrite tedges_old; [by apply redges_ver|]. by apply ver_lt. Qed.
  Lemma tedges_obl h b : h < t -> b < w -> tedges !! obl h b = Some (N.of_nat (vtx h b), N.of_nat (vtx (S h) (S b)), 0%N).
  Proof.
    intros Hh Hb. unfold tedges. rewrite app_assoc. fold redges. rewrite lookup_app_r; rewrite redges_length; [|unfold obl; lia].
    unfold obl. rewrite Nat.add_comm, Nat.add_sub. by apply obl_lookup.
  Qed.

  (** Every edge is one of these. *)
  Lemma redges_cases i : i < nH * w + t * nB -> (exists h b, h <= t /\ b < w /\ i = hor h b) \/ (exists h b, h < t /\ b <= w /\ i = ver h b).
  Proof.
    intros Hi. destruct (decide (i < nH * w)) as [H|H].
    - left. destruct (pair_of _ _ _ H) as (h & b & ? & ? & ->). exists h, b. split_and!; [lia|done|done].
    - right. destruct (pair_of nB t (i - nH * w)) as (h & b & ? & ? & E); [lia|]. exists h, b. split_and!; [done|lia|unfold ver; lia].
  Qed.
  Lemma tedges_cases i : i < nH * w + t * nB + t * w -> (exists h b, h <= t /\ b < w /\ i = hor h b) \/
    (exists h b, h < t /\ b <= w /\ i = ver h b) \/ (exists h b, h < t /\ b < w /\ i = obl h b).
  Proof.
    intros Hi. destruct (decide (i < nH * w + t * nB)) as [H|H].
    - destruct (redges_cases i H); tauto.
    - right; right. destruct (pair_of w t (i - (nH * w + t * nB))) as (h & b & ? & ? & E); [lia|]. exists h, b. split_and!; [done|lia|unfold obl; lia].
  Qed.
  (** ... and only once. *)
  Lemma hor_inj h b h' b' : b < w -> b' < w -> hor h b = hor h' b' -> h = h' /\ b = b'.
  Proof. intros H1 H2 E. apply pair_inj in E; [tauto|done..]. Qed.
  Lemma ver_inj h b h' b' : b <= w -> b' <= w -> ver h b = ver h' b' -> h = h' /\ b = b'.
  Proof. intros H1 H2 E. unfold ver in E. apply Nat.add_cancel_l, pair_inj in E; [tauto|lia..]. Qed.
  Lemma obl_inj h b h' b' : b < w -> b' < w -> obl h b = obl h' b' -> h = h' /\ b = b'.
  Proof. intros H1 H2 E. unfold obl in E. apply Nat.add_cancel_l, pair_inj in E; [tauto|lia..]. Qed.
  Lemma vtx_inj h b h' b' : b <= w -> b' <= w -> vtx h b = vtx h' b' -> h = h' /\ b = b'.
  Proof. intros H1 H2 E. apply pair_inj in E; [tauto|lia..]. Qed.
  Lemma hor_ver h b h' b' : h <= t -> b < w -> hor h b <> ver h' b'.
  Proof. intros H1 H2. pose proof (hor_lt h b H1 H2). unfold ver. lia. Qed.
  Lemma hor_obl h b h' b' : h <= t -> b < w -> hor h b <> obl h' b'.
  Proof. intros H1 H2. pose proof (hor_lt h b H1 H2). unfold obl. lia. Qed.
  Lemma ver_obl h b h' b' : h < t -> b <= w -> ver h b <> obl h' b'.
  Proof. intros H1 H2. pose proof (ver_lt h b H1 H2). unfold obl. lia. Qed.

  (** Cells. *)
  Lemma rect_cells_length : length (rect_cells nB nH) = w * t.
  Proof. unfold rect_cells. rewrite fmap_length, grid2_length. rewrite !Nat.sub_1_r. cbn [Nat.pred]. lia. Qed.
  Definition rect_row (h b : nat) : list N * list N * N :=
    (N.of_nat <$> [vtx h b; vtx h (S b); vtx (S h) (S b); vtx (S h) b],
     N.of_nat <$> [hor h b; ver h (S b); hor (S h) b; ver h b], 0%N).
  Lemma rect_cells_lookup c q : rect_cells nB nH !! c = Some q <-> exists h b, h < t /\ b < w /\ c = cel h b /\ q = rect_row h b.
  Proof.
    assert (X : forall h b, (let v := b + h * nB in let eh := b + h * (nB - 1) in let ev := v + nH * (nB - 1) in
      (N.of_nat <$> [v; v + 1; v + nB + 1; v + nB], N.of_nat <$> [eh; ev + 1; eh + (nB - 1); ev], 0%N)) = rect_row h b).
    { intros h b. unfold rect_row, vtx, hor, ver. replace (nB - 1) with w by lia. cbv zeta. cbn [fmap list_fmap].
      repeat first [reflexivity | lia | f_equal]. }
    unfold rect_cells. split.
    - intros H. apply list_lookup_fmap_inv in H as ([h b] & -> & (H1 & H2 & ->)%grid2_lookup). cbn [fst snd] in *.
      exists h, b. rewrite X. unfold cel. split_and!; [lia|lia|do 2 f_equal; lia|done].
    - intros (h & b & Hh & Hb & -> & ->). rewrite list_lookup_fmap. rewrite (proj2 (grid2_lookup (nH - 1) (nB - 1) (cel h b) (h, b))).
      + cbn [fmap option_fmap option_map]. by rewrite <-(X h b).
      + cbn [fst snd]. unfold cel. replace (nB - 1) with w by lia. lia.
  Qed.
  Lemma cel_inj h b h' b' : b < w -> b' < w -> cel h b = cel h' b' -> h = h' /\ b = b'.
  Proof. intros H1 H2 E. apply pair_inj in E; [tauto|done..]. Qed.
End rect.
