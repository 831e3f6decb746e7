(** Writing and reading OFF files. *)
From Verif Require Import Base BaseProof StringsModel StringsProof CsvModel CsvSpec CsvText FillModel FillSpec FillProofB EdgesModel EdgesSpec EdgesProof OffModel OffSpec.
From Verif Require Import CsrModel MeshModel MeshSpec MeshHist MeshProof8 MeshProof9.
From Coq Require Import Ascii ZifyBool ZifyNat ZifyN.

Lemma omapM_build {A B} (f : A -> outcome B) (l : list A) (r : list B) :
  Forall2 (fun a b => f a = Ok b) l r -> omapM f l = Ok r.
Proof. induction 1 as [|a b l r E _ IH]; [done|]. cbn [omapM]. rewrite E. cbn [mbind outcome_bind]. by rewrite IH. Qed.

Lemma omapM_seq {B} (f : nat -> outcome B) n (r : list B) :
  length r = n -> (forall i b, r !! i = Some b -> f i = Ok b) -> omapM f (seq 0 n) = Ok r.
Proof.
  intros L H. apply omapM_build. apply Forall2_same_length_lookup_2; [by rewrite seq_length|].
  intros i a b Ha Hb. apply lookup_seq in Ha as [-> _]. by apply H.
Qed.

Lemma blank_ok : separator_ok blank_char.
Proof. split; [done|by left]. Qed.

Lemma ready_blank ts : Forall clean ts -> ready blank_char ts (rest blank_char ts).
Proof. intros H. pose proof (ready_rest blank_char ts blank_ok H) as R. unfold skip_sep in R. by rewrite decide_True in R by done. Qed.

(** ** The description *)

Lemma to_int_small v : (v < 2147483648)%N -> to_int v = Z.of_N v.
Proof. intros H. unfold to_int. by rewrite (proj2 (N.ltb_lt _ _) H). Qed.
Lemma to_uint_small v : (v < 2147483648)%N -> to_uint (Z.of_N v) = v.
Proof. intros H. unfold to_uint. rewrite Z.mod_small by lia. by rewrite N2Z.id. Qed.

Definition described (m : mesh) (points : list (N * N * N)) (rows : list (list N)) : off_mesh :=
  OffMesh (N.of_nat (num D0 m)) (N.of_nat (num D1 m)) (N.of_nat (num D2 m)) points (map (map Z.of_N) rows).

Lemma points_exist m : reachable m -> exists points : list (N * N * N),
  length points = num D0 m /\ forall i p, points !! i = Some p -> Cell0DCoordinates i m = Ok p.
Proof.
  intros H. destruct (reachable_rep m H) as [a R].
  assert (X : forall n, n <= num D0 m -> exists points : list (N * N * N), length points = n /\
     forall i p, points !! i = Some p -> Cell0DCoordinates i m = Ok p).
  { induction n as [|n IH]; intros Hn; [by exists []|]. destruct IH as (ps & L & P); [lia|].
    assert (exists p, Cell0DCoordinates n m = Ok p) as [p Hp].
    { rewrite (g_coord _ _ R). unfold look. rewrite (g_num _ _ R) in Hn. unfold anum in Hn.
      destruct (lookup_lt_is_Some_2 (am_cells a D0) n) as [c Hc]; [lia|]. rewrite Hc. eauto. }
    exists (ps ++ [p]). rewrite app_length. cbn. split; [lia|]. intros i q Hi.
    apply lookup_app_Some in Hi as [Hi|[Hi1 Hi]]; [by apply P|].
    destruct (i - length ps) as [|j] eqn:E; [|done]. injection Hi as <-. by replace i with n by lia. }
  by apply X.
Qed.

Lemma to_off finite m rows points : describable finite m rows ->
  length points = num D0 m -> (forall i p, points !! i = Some p -> Cell0DCoordinates i m = Ok p) ->
  MeshDAOToOFFMesh m = Ok (described m points rows).
Proof.
  intros D L P. unfold MeshDAOToOFFMesh. rewrite (omapM_seq _ _ points L P). cbn [mbind outcome_bind].
  destruct (de_polygons _ _ _ D) as [L2 P2].
  rewrite (omapM_seq _ _ (map (map Z.of_N) rows)); [done|by rewrite map_length|].
  intros f zs Hz. rewrite list_lookup_fmap in Hz. destruct (rows !! f) as [vs|] eqn:E; [|done]. injection Hz as <-.
  rewrite (P2 f vs E). cbn [mbind outcome_bind]. f_equal.
  pose proof (de_vertices _ _ _ D) as V. pose proof (de_points _ _ _ D) as B.
  unfold in_range in V. eapply Forall_lookup_1 in V; [|exact E].
  clear - V B. induction V as [|v vs Hv _ IH]; [done|]. cbn [map]. rewrite IH, to_int_small by lia. done.
Qed.

(** ** The lines *)

Definition point_fields (k : codec) (p : N * N * N) : list text := [put_double k p.1.1; put_double k p.1.2; put_double k p.2].
Definition off_fields (k : codec) (m : mesh) (points : list (N * N * N)) (rows : list (list N)) : list (list text) :=
  [txt "OFF"] :: [show_N (N.of_nat (num D0 m)); show_N (N.of_nat (num D2 m)); show_N (N.of_nat (num D1 m))]
  :: map (point_fields k) points ++ map list_fields rows.

Lemma show_Z_N v : show_Z (Z.of_N v) = show_N v.
Proof. unfold show_Z. rewrite (proj2 (Z.ltb_ge _ _)) by lia. by rewrite N2Z.id. Qed.

Lemma to_rows k m rows points : length points = num D0 m -> length rows = num D2 m ->
  off_rows k (described m points rows) = Ok (off_fields k m points rows).
Proof.
  intros L0 L2. unfold off_rows. cbn [described NumCell0Ds NumCell1Ds NumCell2Ds Points Polygons]. rewrite !Nat2N.id.
  rewrite (omapM_seq _ (num D0 m) (map (point_fields k) points)); [|by rewrite map_length|].
  2: { intros i b Hb. rewrite list_lookup_fmap in Hb. destruct (points !! i) as [[[x y] z]|] eqn:E; [|done]. injection Hb as <-.
       by rewrite (vget_Ok _ _ _ E). }
  cbn [mbind outcome_bind].
  rewrite (omapM_seq _ _ (map list_fields rows)); [done|by rewrite map_length|].
  intros i b Hb. rewrite list_lookup_fmap in Hb. destruct (rows !! i) as [vs|] eqn:E; [|done]. injection Hb as <-.
  assert (E' : map (map Z.of_N) rows !! i = Some (map Z.of_N vs)) by (by rewrite list_lookup_fmap, E).
  rewrite (vget_Ok _ _ _ E'). cbn [mbind outcome_bind]. f_equal. unfold list_fields. rewrite map_length, map_map. f_equal.
  apply map_ext. intros v. apply show_Z_N.
Qed.

Lemma finite_points finite m rows points : describable finite m rows ->
  (forall i p, points !! i = Some p -> Cell0DCoordinates i m = Ok p) ->
  Forall (fun p : N * N * N => finite p.1.1 /\ finite p.1.2 /\ finite p.2) points.
Proof. intros D P. apply Forall_lookup. intros i [[x y] z] H. apply P in H. by apply (de_finite _ _ _ D) in H. Qed.

Lemma point_clean k finite p : codec_ok k blank_char finite -> finite p.1.1 /\ finite p.1.2 /\ finite p.2 -> Forall clean (point_fields k p).
Proof. intros K (F1 & F2 & F3). repeat constructor; by eapply real_clean. Qed.

Lemma off_lines k finite m points rows : codec_ok k blank_char finite ->
  Forall (fun p : N * N * N => finite p.1.1 /\ finite p.1.2 /\ finite p.2) points ->
  Forall (fun fields => newline ∉ join blank_char fields) (off_fields k m points rows).
Proof.
  intros K F. assert (B : blank_char <> newline) by done.
  constructor; [set_solver|]. constructor.
  { apply join_line; [done|]. repeat constructor; apply show_line. }
  apply Forall_app. split; apply Forall_fmap.
  - eapply Forall_impl; [exact F|]. intros p (F1 & F2 & F3). apply join_line; [done|]. repeat constructor; by apply (co_line _ _ _ K).
  - apply Forall_forall. intros vs _. apply join_line; [done|]. apply list_fields_line.
Qed.

(** ** Reading *)

Lemma read_point k finite p : codec_ok k blank_char finite -> finite p.1.1 /\ finite p.1.2 /\ finite p.2 ->
  get_point k (join blank_char (point_fields k p)) = Ok p.
Proof.
  intros K F. pose proof (point_clean k finite p K F) as C. destruct F as (F1 & F2 & F3). destruct p as [[x y] z]. cbn [fst snd] in *.
  unfold get_point, point_fields in *. cbn [fst snd] in *.
  rewrite (real_ready k blank_char finite x _ _ K F1 (ready_start _ _ C)). cbn [mbind outcome_bind].
  inversion C as [|? ? _ C2]; subst.
  rewrite (real_ready k blank_char finite y [put_double k z] _ K F2 (ready_blank _ C2)). cbn [mbind outcome_bind].
  inversion C2 as [|? ? _ C3]; subst.
  rewrite (real_ready k blank_char finite z [] _ K F3 (ready_blank _ C3)). done.
Qed.

Lemma read_ints vs : Forall (fun v => (v < 2147483648)%N) vs -> forall s, ready blank_char (map show_N vs) s ->
  get_ints (length vs) s = Ok (map Z.of_N vs).
Proof.
  induction 1 as [|v vs Hv Hvs IH]; intros s H; [done|]. cbn [length get_ints map]. unfold get_int.
  cbn [map] in H. rewrite strtol_skip, H, join_cons.
  pose proof (strtol_N [] v (rest blank_char (map show_N vs)) (Forall_nil_2 _) (rest_digit _ _ blank_ok)) as E.
  cbn [Datatypes.app] in E. rewrite E.
  replace (int_range (Z.of_N v)) with true by (unfold int_range; lia).
  rewrite IH; [done|]. apply ready_blank.
  apply Forall_fmap, Forall_forall. intros w _. apply show_clean.
Qed.

Lemma read_polygon vs : Forall (fun v => (v < 2147483648)%N) vs -> CsvSpec.fits (N.of_nat (length vs)) ->
  get_polygon (join blank_char (list_fields vs)) = Ok (map Z.of_N vs).
Proof.
  intros Hv Hl. unfold get_polygon. pose proof (ready_start blank_char _ (list_fields_clean vs)) as R.
  unfold list_fields, show_nat in R.
  pose proof (uint_ready blank_char _ _ _ blank_ok Hl R) as E. unfold list_fields, show_nat.
  assert (exists z, strtol (join blank_char (show_N (N.of_nat (length vs)) :: map show_N vs)) = Some z) as [z ->].
  { unfold get_uint in E. destruct (strtol _) as [z|]; [eauto|done]. }
  rewrite E. cbn [mbind outcome_bind]. rewrite Nat2N.id. apply read_ints; [done|].
  apply ready_blank. apply Forall_fmap, Forall_forall. intros w _. apply show_clean.
Qed.

Lemma concat_bound {A} (rows : list (list A)) i vs : rows !! i = Some vs -> length vs <= length (concat rows).
Proof.
  revert i. induction rows as [|r rows IH]; intros [|i] H; [done..| |]; cbn [concat]; rewrite app_length.
  - injection H as ->. lia.
  - apply IH in H. lia.
Qed.

Lemma from_lines k finite m points rows : codec_ok k blank_char finite -> describable finite m rows ->
  length points = num D0 m -> Forall (fun p : N * N * N => finite p.1.1 /\ finite p.1.2 /\ finite p.2) points ->
  StringsToOFFMesh k (map (join blank_char) (off_fields k m points rows)) = Ok (described m points rows).
Proof.
  intros K D L0 F. destruct (de_polygons _ _ _ D) as [L2 _]. pose proof (de_size _ _ _ D) as S. unfold CsvSpec.fits, UINT_MAX in S.
  unfold StringsToOFFMesh.
  assert (LL : length (map (join blank_char) (off_fields k m points rows)) = 2 + num D0 m + num D2 m).
  { unfold off_fields. rewrite map_length. cbn [length]. rewrite app_length, !map_length. lia. }
  rewrite LL. rewrite (proj2 (N.leb_le _ _)) by lia. cbn [require mbind outcome_bind].
  assert (E1 : map (join blank_char) (off_fields k m points rows) !! 1 =
    Some (join blank_char [show_N (N.of_nat (num D0 m)); show_N (N.of_nat (num D2 m)); show_N (N.of_nat (num D1 m))])) by done.
  rewrite (vget_Ok _ _ _ E1). cbn [mbind outcome_bind].
  assert (C : forall ns, Forall clean (map show_N ns)) by (intros ns; apply Forall_fmap, Forall_forall; intros; apply show_clean).
  rewrite (uint_ready blank_char (N.of_nat (num D0 m)) [show_N (N.of_nat (num D2 m)); show_N (N.of_nat (num D1 m))]);
    [|apply blank_ok|unfold CsvSpec.fits, UINT_MAX; lia|apply (ready_start _ _ (C [_; _; _]))]. cbn [mbind outcome_bind].
  rewrite (uint_ready blank_char (N.of_nat (num D2 m)) [show_N (N.of_nat (num D1 m))]);
    [|apply blank_ok|unfold CsvSpec.fits, UINT_MAX; lia|apply (ready_blank _ (C [_; _]))]. cbn [mbind outcome_bind].
  rewrite (uint_ready blank_char (N.of_nat (num D1 m)) []);
    [|apply blank_ok|apply (de_edges _ _ _ D)|apply (ready_blank _ (C [_]))]. cbn [mbind outcome_bind].
  unfold u32. rewrite !N.mod_small by lia. rewrite (proj2 (N.leb_le _ _)) by lia. cbn [require mbind outcome_bind].
  rewrite !Nat2N.id.
  rewrite (omapM_seq _ _ points); [|done|].
  2: { intros i p Hp.
       assert (E : map (join blank_char) (off_fields k m points rows) !! (2 + i) = Some (join blank_char (point_fields k p))).
       { rewrite list_lookup_fmap.
         change (off_fields k m points rows !! (2 + i)) with ((map (point_fields k) points ++ map list_fields rows) !! i).
         rewrite lookup_app_l by (rewrite map_length; by eapply lookup_lt_Some). rewrite list_lookup_fmap, Hp. done. }
       rewrite (vget_Ok _ _ _ E). cbn [mbind outcome_bind]. eapply read_point; [exact K|]. by apply (Forall_lookup_1 _ _ _ _ F Hp). }
  cbn [mbind outcome_bind]. rewrite (proj2 (N.leb_le _ _)) by lia. cbn [require mbind outcome_bind].
  rewrite (omapM_seq _ _ (map (map Z.of_N) rows)); [done|by rewrite map_length|].
  intros i b Hb. rewrite list_lookup_fmap in Hb. destruct (rows !! i) as [vs|] eqn:E; [|done]. injection Hb as <-.
  assert (E' : map (join blank_char) (off_fields k m points rows) !! (2 + num D0 m + i) = Some (join blank_char (list_fields vs))).
  { rewrite list_lookup_fmap.
    change (off_fields k m points rows !! (2 + num D0 m + i)) with ((map (point_fields k) points ++ map list_fields rows) !! (num D0 m + i)).
    rewrite lookup_app_r by (rewrite map_length; lia). rewrite map_length. replace (num D0 m + i - length points) with i by lia.
    rewrite list_lookup_fmap, E. done. }
  rewrite (vget_Ok _ _ _ E'). cbn [mbind outcome_bind]. apply read_polygon.
  - pose proof (de_vertices _ _ _ D) as V. eapply Forall_lookup_1 in V; [|exact E]. pose proof (de_points _ _ _ D).
    eapply Forall_impl; [exact V|]. cbn. lia.
  - pose proof (de_sides _ _ _ D) as X. pose proof (concat_bound _ _ _ E). unfold CsvSpec.fits in *. lia.
Qed.

(** ** The mesh *)

Lemma uint_rows n rows : (N.of_nat n < 2147483648)%N -> in_range n rows -> map (map to_uint) (map (map Z.of_N) rows) = rows.
Proof.
  intros B V. induction V as [|vs rows Hv _ IH]; [done|]. cbn [map]. f_equal; [|exact IH].
  induction Hv as [|v vs Hv _ IH']; [done|]. cbn [map]. rewrite to_uint_small by lia. by rewrite IH'.
Qed.

Lemma seq_vget {A} (l : list A) n : length l = n -> omapM (fun f => vget l f) (seq 0 n) = Ok l.
Proof. intros L. apply omapM_seq; [done|]. intros i b H. by apply vget_Ok. Qed.

Lemma from_off finite m points rows new : describable finite m rows -> length points = num D0 m ->
  (forall i p, points !! i = Some p -> Cell0DCoordinates i m = Ok p) -> blank new ->
  exists m', OFFMeshToMeshDAO (described m points rows) new = Ok m' /\ reachable m' /\ same_shape m m' rows.
Proof.
  intros D L0 P B. destruct (de_polygons _ _ _ D) as [L2 P2]. pose proof (de_size _ _ _ D) as S. unfold CsvSpec.fits in S.
  destruct (edges_full new points rows B) as (es & lists & m' & E & E' & Hr & Hd & RB & ND & U & L & Q).
  { unfold few. lia. } { unfold few. lia. } { apply (de_sides _ _ _ D). }
  { rewrite L0. apply (de_vertices _ _ _ D). } { apply (de_proper _ _ _ D). }
  exists m'. split; [|split; [done|]].
  - unfold OFFMeshToMeshDAO. cbn [described NumCell0Ds NumCell1Ds NumCell2Ds Points Polygons]. rewrite !Nat2N.id.
    rewrite (uint_rows (num D0 m)) by (apply D).
    rewrite E. unfold FillMesh2D, fill_points in E'. rewrite L0 in E'.
    destruct (Cell0DsInsertCoordinates points _) as [m1| | | |]; cbn [mbind outcome_bind] in *; try done.
    destruct (activate D0 (num D0 m) m1) as [m2| | | |]; cbn [mbind outcome_bind] in *; try done.
    destruct (fill_edges es m2) as [m3| | | |]; cbn [mbind outcome_bind] in *; try done.
    rewrite seq_vget by lia. done.
  - destruct RB as ([N0 A0] & [N1 A1] & [N2 A2] & [N3 A3] & RP & RE & RF & _).
    assert (UE : forall a b, (a < b)%N -> joined rows a b -> exists j, es !! j = Some (a, b)).
    { intros a b H J. apply elem_of_list_lookup. apply U. done. }
    split.
    + done.
    + lia.
    + intros v Hv. destruct (lookup_lt_is_Some_2 points v) as [p Hp]; [lia|]. by rewrite (RP _ _ Hp), (P _ _ Hp).
    + lia.
    + intros f Hf. destruct (lookup_lt_is_Some_2 rows f) as [vs Hvs]; [lia|]. rewrite (P2 _ _ Hvs).
      destruct (Q f vs Hvs) as (row & H1 & H2 & _). destruct (RF _ _ H1) as (X & _). by rewrite X, H2.
    + done.
    + intros e He. rewrite N1 in He. destruct (lookup_lt_is_Some_2 es e He) as [[a b] Hab]. exists a, b.
      destruct (RE _ _ Hab) as [X Y]. split_and!; [done|done|..]; apply U, elem_of_list_lookup; eauto.
    + intros a b Hab J. destruct (UE a b Hab J) as [j Hj]. exists j. rewrite N1. split; [by eapply lookup_lt_Some|].
      intros e He. destruct (lookup_lt_is_Some_2 es e He) as [[c d] Hcd]. destruct (RE _ _ Hcd) as [X Y]. rewrite X, Y. cbn [fst snd].
      split.
      * intros [[= ->] [= ->]]. by eapply NoDup_lookup.
      * intros ->. rewrite Hj in Hcd. by injection Hcd as -> ->.
    + intros f vs v a b Hf Ha Hb. destruct (Q f vs Hf) as (row & H1 & H2 & H3). destruct (H3 v a b Ha Hb) as (e & He & Hx).
      destruct (RF _ _ H1) as (_ & X & _). exists (row.*2), e. split; [done|]. split; [by rewrite <- H2, !fmap_length|].
      split; [by rewrite list_lookup_fmap, He|]. apply (RE _ _ Hx).
    + intros [] i Hi; [apply A0|apply A1|apply A2|apply A3]; lia.
    + intros [] i Hi; [apply A0|apply A1|apply A2|apply A3]; lia.
Qed.

Lemma off_round_trip k finite m rows file fs new :
  codec_ok k blank_char finite -> reachable m -> describable finite m rows -> blank new ->
  exists fs' m', ExportMeshToFile k m file fs = Ok fs' /\ ImportMeshFromFile k file fs' new = Ok m' /\
    reachable m' /\ same_shape m m' rows.
Proof.
  intros K R D B. destruct (points_exist m R) as (points & L & P).
  pose proof (finite_points finite m rows points D P) as F.
  destruct (from_off finite m points rows new D L P B) as (m' & E & Hr & Hs).
  exists (<[file := content blank_char (off_fields k m points rows)]> fs), m'.
  split; [|split; [|done]].
  - unfold ExportMeshToFile. rewrite (to_off finite m rows points D L P). cbn [mbind outcome_bind].
    unfold OFFMeshToStrings. rewrite to_rows by (try done; apply (de_polygons _ _ _ D)). cbn [mbind outcome_bind].
    by rewrite map_map.
  - unfold ImportMeshFromFile. 
    assert (X : (<[file := content blank_char (off_fields k m points rows)]> fs) !! file = Some (content blank_char (off_fields k m points rows)))
      by apply (lookup_insert (M := gmap text)).
    rewrite X.
    rewrite split_content by (by eapply off_lines). rewrite (from_lines k finite m points rows K D L F). done.
Qed.
