(** Concrete meshes for the round trip, and those which are not read back. *)
From Verif Require Import Base BaseProof StringsModel StringsProof CsrModel CsrSpec MeshModel MeshSpec MeshRep MeshHist
  MeshProof MeshProof2 MeshProof3 MeshProof4 MeshProof5 MeshProof6 MeshProof7 MeshProof8 MeshProof9 MeshProg CsvModel CsvSpec CsvText CsvRows
  CsvLoop CsvConv CsvConv2 CsvFinal MeshWit.
From Coq Require Import Ascii ZifyBool ZifyNat ZifyN.

(** ** Histories of one generation *)

Section generation.
Context (m : mesh) (a : amesh) (Hm : rr m a).

Lemma replaced_cell d i j : replaced_by d m i j <->
  exists x s, am_cells a d !! i = Some x /\ ac_upd x = Some s /\ N.of_nat j ∈ s.
Proof.
  unfold replaced_by. split.
  - intros E.
    assert (Hij : i < anum d a /\ j < anum d a).
    { rewrite <- (g_num m a (proj2 Hm)). unfold HasUpdated in E. apply bind_ok in E as (u & H1%require_ok & E).
      apply bind_ok in E as (u' & H2%require_ok & _). lia. }
    rewrite (g_hasupdated m a (proj2 Hm)) in E by tauto. destruct (am_cells a d !! i) as [x|]; [|done].
    destruct (ac_upd x) as [s|] eqn:Es; [|done]. injection E as E%bool_decide_eq_true. by exists x, s.
  - intros (x & s & Hx & Hs & Hj). rewrite (g_hasupdated m a (proj2 Hm)).
    + rewrite Hx, Hs. f_equal. by apply bool_decide_true.
    + by eapply lookup_lt_Some.
    + assert (E : (ac_upd <$> am_cells a d) !! i = Some (Some s)) by (by rewrite list_lookup_fmap, Hx; cbn; rewrite Hs).
      destruct (rc_upd_ok _ _ _ _ _ _ _ _ _ (r_cells _ _ (proj2 Hm) d) i s E) as [_ Hb]. specialize (Hb _ Hj). unfold anum. lia.
Qed.

Lemma one_query fu d i b l : one_generation m -> UpdatedQuery fu d (N.of_nat i) m = Ok (b, l) ->
  forall j, replaced_by d m i j <-> b = false /\ N.of_nat j ∈ l.
Proof.
  intros Ho E j. destruct fu as [|fu]; [done|]. cbn [UpdatedQuery] in E.
  apply bind_ok in E as (u & Hu%require_ok & E). rewrite (g_num m a (proj2 Hm)) in Hu.
  destruct (lookup_lt_is_Some_2 (am_cells a d) i) as [x Hx]; [unfold anum in Hu; lia|].
  rewrite (upd_cell m a (proj2 Hm) d i x Hx) in E. rewrite replaced_cell. destruct (ac_upd x) as [s|] eqn:Es.
  - apply bind_ok in E as (l' & El & [= <- <-]).
    assert (G : forall ss acc l', (forall v, v ∈ ss -> v ∈ s) ->
              ofold (fun acc ch => bl ← UpdatedQuery fu d ch m; Ok (acc ++ bl.2)) ss acc = Ok l' -> l' = acc ++ ss).
    { clear El. induction ss as [|v ss IH]; intros acc l'' Hs El; cbn [ofold] in El; [injection El as <-; by rewrite app_nil_r|].
      apply bind_ok in El as (acc' & E & El). apply bind_ok in E as ([b' l1] & E & [= <-]). cbn [snd] in El.
      rewrite (IH _ _ ltac:(intros w Hw; apply Hs; by right) El).
      assert (Hr : replaced_by d m i (N.to_nat v)).
      { apply replaced_cell. exists x, s. split_and!; [done..|]. rewrite N2Nat.id. apply Hs. by left. }
      pose proof (og_leaf _ Ho d i _ Hr) as Hl. rewrite (g_hasupdateds m a (proj2 Hm)) in Hl. unfold look in Hl.
      destruct fu as [|fu']; [done|]. cbn [UpdatedQuery] in E. apply bind_ok in E as (u' & _ & E).
      rewrite <- (N2Nat.id v) in E. destruct (am_cells a d !! N.to_nat v) as [y|] eqn:Hy; [|done].
      rewrite (upd_cell m a (proj2 Hm) d _ y Hy) in E. injection Hl as Hl%bool_decide_eq_false.
      destruct (ac_upd y); [destruct Hl; eauto|]. injection E as <- <-. rewrite N2Nat.id. by rewrite <- app_assoc. }
    rewrite (G (elements s) [] l' ltac:(intros v; by rewrite elem_of_elements) El). cbn [Datatypes.app]. rewrite elem_of_elements. split.
    + intros (x' & s' & Hx' & Hs' & Hj). rewrite Hx in Hx'. injection Hx' as <-. rewrite Es in Hs'. by injection Hs' as <-.
    + intros [_ Hj]. by exists x, s.
  - injection E as <- <-. split; [|by intros [? _]]. intros (x' & s' & Hx' & Hs' & Hj). congruence.
Qed.
End generation.

Lemma same_history finite fuel m m' : reachable m -> complete finite fuel m -> one_generation m -> read_back fuel m m' ->
  (forall d i j, i < num d m -> replaced_by d m' i j <-> replaced_by d m i j) /\
  (forall d j, d <> D0 -> j < num d m -> Original d j m' = Original d j m).
Proof.
  intros Hr Hc Ho Hb. destruct (rr_of m Hr) as [a Hm].
  assert (Hrep : forall d i j, i < num d m -> replaced_by d m' i j <-> replaced_by d m i j).
  { intros d i j Hi. destruct (cp_history _ _ _ Hc d i Hi) as (b & l & E & _).
    rewrite (proj2 (rb_current _ _ _ Hb d i b l Hi E) j). symmetry. by apply (one_query m a Hm fuel). }
  assert (Hlt : forall d i j, replaced_by d m' i j -> i < num d m).
  { intros d i j E. unfold replaced_by, HasUpdated in E. apply bind_ok in E as (u & H1%require_ok & E).
    rewrite <- (rb_num _ _ _ Hb). lia. }
  split; [done|]. intros d j Hd Hj. destruct (rb_origin _ _ _ Hb d j Hd Hj) as [R1 R2].
  assert (Hor : exists v, Original d j m = Ok v).
  { rewrite (g_original m a (proj2 Hm) d j Hd). unfold look. rewrite (g_num m a (proj2 Hm)) in Hj.
    destruct (lookup_lt_is_Some_2 (am_cells a d) j Hj) as [x ->]. by eexists. }
  destruct Hor as [v Hv]. rewrite Hv. pose proof (cp_num _ _ _ Hc d) as Hn. unfold fits in Hn.
  destruct (og_none _ Ho d j v Hd Hv) as [Hlv| ->].
  - rewrite <- (N2Nat.id v). rewrite <- (N2Nat.id v) in Hv.
    assert (Hrv : replaced_by d m (N.to_nat v) j) by (apply (og_origin _ Ho); [done..|lia]).
    apply R1; [apply Hrep; [lia|done]|]. intros i' Hi'. pose proof (Hlt _ _ _ Hi') as Hl. apply Hrep in Hi'; [|done].
    rewrite (og_replaced _ Ho d i' j Hd Hi') in Hv. injection Hv as Hv. lia.
  - apply R2. intros i Hi. pose proof (Hlt _ _ _ Hi) as Hl. apply Hrep in Hi; [|done].
    rewrite (og_replaced _ Ho d i j Hd Hi) in Hv. injection Hv as Hv. lia.
Qed.

(** ** A codec *)

(** Doubles which are written and read like unsigned numbers. *)
Definition plain_codec : codec :=
  Codec show_N (fun s => match strtol s with Some (z, rest) => Some (Z.to_N z, rest) | None => None end).

Lemma plain_codec_ok sep : separator_ok sep -> codec_ok plain_codec sep fits.
Proof.
  intros Hs. split.
  - intros x rest _ Hr. cbn.
    assert (Hd : no_digit rest) by (destruct Hr as [->|[r ->]]; [done|]; cbn; apply Hs).
    pose proof (strtol_N [] x rest (Forall_nil_2 _) Hd) as E. cbn [Datatypes.app] in E. rewrite E. by rewrite N2Z.id.
  - intros x _. apply (show_clean x).
  - intros x _. apply show_line.
Qed.

(** ** Checking a mesh *)

Definition fitsb (v : N) : bool := (v <=? UINT_MAX)%N.
Lemma fitsb_spec v : fitsb v = true -> fits v.
Proof. intros H%N.leb_le. exact H. Qed.

Definition dims : list dim := [D0; D1; D2; D3].
Definition rels : list rel := [R01; R02; R03; R12; R13; R23; V2; E2; S2; V3; E3; F3].
Lemma in_dims d : d ∈ dims.
Proof. destruct d; unfold dims; set_solver. Qed.
Lemma in_rels r : r ∈ rels.
Proof. destruct r; unfold rels; set_solver. Qed.

Definition check (fuel : nat) (m : mesh) (a : amesh) : bool :=
  forallb (fun d => fitsb (N.of_nat (anum d a)) &&
    forallb (fun x => fitsb (ac_mark x) && forallb fitsb (ac_geo x) &&
                      forallb (fun l => fitsb (N.of_nat (length l)) && forallb fitsb l) (ac_prop x)) (am_cells a d) &&
    (bool_decide (am_names a d = []) || negb (anum d a =? 0)) &&
    forallb (fun i => match UpdatedQuery fuel d (N.of_nat i) m with Ok (_, l) => fitsb (N.of_nat (length l)) | _ => false end)
            (seq 0 (anum d a))) dims &&
  forallb (fun r => forallb (fun x => fitsb (N.of_nat (length (row_of r x))) && forallb fitsb (row_of r x) &&
                                      (is_neighbour r || bool_decide (all_below (anum (tgt r) a) (row_of r x)))) (am_cells a (src r))) rels &&
  forallb (fun x => length (row_of V2 x) =? length (row_of E2 x)) (am_cells a D2).

Lemma forallb_elem {A} (f : A -> bool) l x : forallb f l = true -> x ∈ l -> f x = true.
Proof. intros H Hx. rewrite forallb_forall in H. apply H. by apply elem_of_list_In. Qed.

Lemma check_complete fuel m a : represents m a -> check fuel m a = true -> complete fits fuel m.
Proof.
  intros H [[Hd Hr]%andb_prop Hs]%andb_prop.
  assert (Hd' : forall d, fitsb (N.of_nat (anum d a)) = true /\
    (forall i x, am_cells a d !! i = Some x -> fitsb (ac_mark x) = true /\ forallb fitsb (ac_geo x) = true /\
       forallb (fun l => fitsb (N.of_nat (length l)) && forallb fitsb l) (ac_prop x) = true) /\
    (bool_decide (am_names a d = []) || negb (anum d a =? 0)) = true /\
    (forall i, i < anum d a -> match UpdatedQuery fuel d (N.of_nat i) m with Ok (_, l) => fitsb (N.of_nat (length l)) | _ => false end = true)).
  { intros d. pose proof (forallb_elem _ _ d Hd (in_dims d)) as E. cbv beta in E.
    apply andb_prop in E as [[[E1 E2]%andb_prop E3]%andb_prop E4]. split_and!; [done| |done|].
    - intros i x Hx. apply elem_of_list_lookup_2 in Hx. pose proof (forallb_elem _ _ x E2 Hx) as E. cbv beta in E.
      apply andb_prop in E as [[? ?]%andb_prop ?]. done.
    - intros i Hi. apply (forallb_elem _ _ i E4). apply elem_of_seq. lia. }
  assert (Hr' : forall r i x, am_cells a (src r) !! i = Some x -> fitsb (N.of_nat (length (row_of r x))) = true /\ forallb fitsb (row_of r x) = true /\
     (is_neighbour r || bool_decide (all_below (anum (tgt r) a) (row_of r x))) = true).
  { intros r i x Hx. apply elem_of_list_lookup_2 in Hx. pose proof (forallb_elem _ _ r Hr (in_rels r)) as E. cbv beta in E.
    pose proof (forallb_elem _ _ x E Hx) as E'. cbv beta in E'. apply andb_prop in E' as [[? ?]%andb_prop ?]. done. }
  clear Hd Hr.
  assert (Hl : forall l, forallb fitsb l = true -> Forall fits l).
  { intros l Hl. apply Forall_forall. intros v Hv. apply fitsb_spec. by apply (forallb_elem _ _ v Hl). }
  split.
  - intros d. rewrite (g_num m a H). apply fitsb_spec, Hd'.
  - intros d i v Hv. rewrite (g_marker m a H) in Hv. unfold look in Hv. destruct (am_cells a d !! i) as [x|] eqn:Hx; [|done].
    injection Hv as <-. apply fitsb_spec. by apply (proj1 (proj2 (Hd' d)) i x).
  - intros e v Hv. rewrite (g_origin m a H) in Hv. unfold look in Hv. destruct (am_cells a D1 !! e) as [x|] eqn:Hx; [|done].
    injection Hv as <-. destruct (geo2 m a H e x Hx) as (o & t & E). unfold geo_pair. rewrite E. cbn.
    destruct (proj1 (proj2 (Hd' D1)) e x Hx) as (_ & Hg & _). rewrite E in Hg. apply Hl in Hg. by apply Forall_inv in Hg.
  - intros e v Hv. rewrite (g_end m a H) in Hv. unfold look in Hv. destruct (am_cells a D1 !! e) as [x|] eqn:Hx; [|done].
    injection Hv as <-. destruct (geo2 m a H e x Hx) as (o & t & E). unfold geo_pair. rewrite E. cbn.
    destruct (proj1 (proj2 (Hd' D1)) e x Hx) as (_ & Hg & _). rewrite E in Hg. apply Hl in Hg. apply Forall_inv_tail in Hg. by apply Forall_inv in Hg.
  - intros r i l El. rewrite (g_row m a H) in El. unfold look in El. destruct (am_cells a (src r) !! i) as [x|] eqn:Hx; [|done].
    injection El as <-. destruct (Hr' r i x Hx) as (H1 & H2 & _). split; [by apply fitsb_spec|by apply Hl].
  - intros r i l v Hnb El Hv. rewrite (g_row m a H) in El. unfold look in El. destruct (am_cells a (src r) !! i) as [x|] eqn:Hx; [|done].
    injection El as <-. destruct (Hr' r i x Hx) as (_ & _ & H3). rewrite Hnb in H3. apply bool_decide_eq_true in H3.
    rewrite (g_num m a H). unfold all_below in H3. rewrite Forall_forall in H3. by apply H3.
  - intros i vs es Ev Ee. rewrite (g_row m a H) in Ev, Ee. unfold look in Ev, Ee. cbn [src] in *.
    destruct (am_cells a D2 !! i) as [x|] eqn:Hx; [|done]. injection Ev as <-. injection Ee as <-.
    apply Nat.eqb_eq. apply elem_of_list_lookup_2 in Hx. by apply (forallb_elem _ _ x Hs).
  - intros i p q s E. rewrite (g_coord m a H) in E. unfold look in E. destruct (am_cells a D0 !! i) as [x|] eqn:Hx; [|done].
    injection E as E. destruct (geo3 m a H i x Hx) as (p' & q' & s' & Eg). unfold geo_triple in E. rewrite Eg in E. injection E as <- <- <-.
    destruct (proj1 (proj2 (Hd' D0)) i x Hx) as (_ & Hg & _). rewrite Eg in Hg. apply Hl in Hg.
    apply Forall_cons in Hg as [? Hg]. apply Forall_cons in Hg as [? Hg]. by apply Forall_cons in Hg as [? Hg].
  - intros d i p n E. rewrite (g_propsize m a H) in E. destruct (am_cells a d !! i) as [x|] eqn:Hx; [|done]. case_decide as Hp; [|done].
    injection E as <-. destruct (proj1 (proj2 (Hd' d)) i x Hx) as (_ & _ & Hg). unfold prop_of.
    destruct (ac_prop x !! p) as [l|] eqn:El; [|unfold fits; cbn; lia]. apply elem_of_list_lookup_2 in El.
    pose proof (forallb_elem _ _ l Hg El) as E. cbv beta in E. apply andb_prop in E as [E _]. by apply fitsb_spec.
  - intros d i p k v E. rewrite (g_propvalue m a H) in E. destruct (am_cells a d !! i) as [x|] eqn:Hx; [|done]. case_decide as Hp; [|done].
    destruct (proj1 (proj2 (Hd' d)) i x Hx) as (_ & _ & Hg). unfold prop_of in E.
    destruct (ac_prop x !! p) as [l|] eqn:El; [|done]. apply elem_of_list_lookup_2 in El. cbn in E.
    destruct (l !! k) as [w|] eqn:Ew; [|done]. injection E as <-.
    pose proof (forallb_elem _ _ l Hg El) as E. cbv beta in E. apply andb_prop in E as [_ E]. apply Hl in E.
    rewrite Forall_forall in E. apply E. by eapply elem_of_list_lookup_2.
  - intros d Hids Hn. rewrite (ids_names m a H) in Hids. rewrite (g_num m a H) in Hn. destruct (Hd' d) as (_ & _ & E & _).
    rewrite bool_decide_false in E by done. rewrite Hn in E. done.
  - intros d i Hi. rewrite (g_num m a H) in Hi. pose proof (proj2 (proj2 (proj2 (Hd' d))) i Hi) as E. cbv beta in E.
    destruct (UpdatedQuery fuel d (N.of_nat i) m) as [[b l]| | | |]; try done. exists b, l. split; [done|by apply fitsb_spec].
Qed.

(** ** A triangle split into two, with a property, sub-divisions and unknown neighbours *)

Definition w_csv : list op :=
  [OInitDimension 2;
   OAppend D0 4; OCoordinates 0 10 0 0; OCoordinates 1 30 0 0; OCoordinates 2 20 40 0; OCoordinates 3 20 0 0;
   OMarker D0 0 7; OState D0 0 true; OState D0 1 true; OState D0 2 true; OState D0 3 true;
   OAppend D1 6; OExtremes 0 0 1; OExtremes 1 1 2; OExtremes 2 2 0; OExtremes 3 0 3; OExtremes 4 3 1; OExtremes 5 3 2;
   OState D1 1 true; OState D1 2 true; OState D1 3 true; OState D1 4 true; OState D1 5 true; OMarker D1 2 3;
   OUpdated D1 0 3; OUpdated D1 0 4;
   OAppend D2 3; OAdd V2 0 [0; 1; 2]%N; OAdd E2 0 [0; 1; 2]%N; OAdd V2 1 [0; 3; 2]%N; OAdd E2 1 [3; 5; 2]%N;
   OAdd V2 2 [3; 1; 2]%N; OAdd E2 2 [4; 1; 5]%N; OState D2 1 true; OState D2 2 true; OUpdated D2 0 1; OUpdated D2 0 2;
   OAdd S2 0 [0; 1; 2]%N;
   OInitOne R12 5 2; OInsert R12 5 0 1; OInsert R12 5 1 2; OInitOne R12 1 2; OInsert R12 1 1 2;
   OAddProperty D2 "area"; OPropInitOne D2 0 0 2; OPropInitOne D2 1 0 1].

Definition a_csv : amesh := default aempty (arun w_csv aempty).

Lemma csv_reachable : reachable (after w_csv).
Proof. apply after_reachable, plain_allowed. done. Qed.

Lemma plain_safe ops : forall a, forallb MeshWit.plain ops = true -> safe ops a.
Proof.
  induction ops as [|o ops IH]; intros a Hp; [done|]. cbn in *. apply andb_true_iff in Hp as [Ho Hp]. split; [by destruct o|].
  destruct (astep a o); [by apply IH|done].
Qed.

Lemma after_represents ops a : forallb MeshWit.plain ops = true -> arun ops aempty = Some a -> represents (after ops) a.
Proof.
  intros Hp Ha. pose proof (run_sim ops empty_mesh aempty represents_empty (plain_safe ops _ Hp)) as Hs. rewrite Ha in Hs. unfold after.
  by destruct (run ops empty_mesh).
Qed.

Lemma csv_represents : represents (after w_csv) a_csv.
Proof.
  apply after_represents; [done|]. unfold a_csv. destruct (arun w_csv aempty) eqn:E; [done|].
  assert (F : bool_decide (is_Some (arun w_csv aempty)) = true) by (vm_compute; reflexivity). by rewrite E in F.
Qed.

Lemma csv_complete : complete fits 2 (after w_csv).
Proof. apply (check_complete _ _ a_csv csv_represents). vm_compute. reflexivity. Qed.

Definition regularb (m : mesh) : bool :=
  negb (num D0 m =? 0) && negb (num D1 m =? 0) &&
  ((mdim m =? 1) && (num D2 m =? 0) && (num D3 m =? 0) || (mdim m =? 2) && negb (num D2 m =? 0) && (num D3 m =? 0) ||
   (mdim m =? 3) && negb (num D2 m =? 0) && negb (num D3 m =? 0)).
Lemma regularb_spec m : regularb m = true -> regular m.
Proof.
  unfold regularb, regular. generalize (num D0 m) (num D1 m) (num D2 m) (num D3 m) (mdim m). intros a b c d e. lia.
Qed.

Lemma csv_regular : regular (after w_csv).
Proof. apply regularb_spec. vm_compute. reflexivity. Qed.

Definition plainb (sep : ascii) (t : text) : bool := forallb (fun x => negb (is_space x) && bool_decide (x <> sep)) t.
Lemma plainb_spec sep t : plainb sep t = true -> CsvSpec.plain sep t.
Proof.
  intros H. apply Forall_forall. intros x Hx. pose proof (forallb_elem _ _ x H Hx) as E. cbv beta in E. apply andb_prop in E as [E1 E2].
  apply bool_decide_eq_true in E2. split; [by destruct (is_space x)|done].
Qed.

Definition suitsb (c : configuration) (m : mesh) : bool :=
  negb (is_digit (Separator c)) && (bool_decide (Separator c = " "%char) || negb (is_space (Separator c))) &&
  bool_decide (NoDup (paths c m)) &&
  forallb (fun d => forallb (fun x => negb (is_slash x)) (FileProperties c d ++ txt "." ++ Extension c) &&
    forallb (fun id => bool_decide (id <> ""%string) && plainb (Separator c) (txt id) && plainb (Separator c) (values_name c d id)) (PropertyIds d m)) dims.

Lemma suitsb_spec c m : suitsb c m = true -> suits c m.
Proof.
  intros [[[H1 H2]%andb_prop H3]%andb_prop H4]%andb_prop. split.
  - split; [by destruct (is_digit _)|]. apply orb_prop in H2 as [H2|H2]; [left; by apply bool_decide_eq_true in H2|right; by destruct (is_space _)].
  - by apply bool_decide_eq_true in H3.
  - intros d. pose proof (forallb_elem _ _ d H4 (in_dims d)) as E. cbv beta in E. apply andb_prop in E as [E _].
    apply Forall_forall. intros x Hx. pose proof (forallb_elem _ _ x E Hx) as E'. cbv beta in E'. by destruct (is_slash x).
  - intros d id Hid. pose proof (forallb_elem _ _ d H4 (in_dims d)) as E. cbv beta in E. apply andb_prop in E as [_ E].
    pose proof (forallb_elem _ _ id E Hid) as E'. cbv beta in E'. apply andb_prop in E' as [[E1 E2]%andb_prop E3].
    apply bool_decide_eq_true in E1. split_and!; [done|by apply plainb_spec..].
Qed.

(** *** The default configuration suits every mesh with properties that have different, plain names *)

Lemma map_NoDup {A B} (f : A -> B) l : (forall x y, f x = f y -> x = y) -> NoDup l -> NoDup (map f l).
Proof.
  intros I. induction 1 as [|x l H N IH]; cbn; constructor; [|done]. intros (y & E & Hy)%elem_of_list_fmap. apply I in E as <-. done.
Qed.

Definition start (d : dim) : text := txt ".//Cell" ++ digit_of d ++ txt "DProperties_".
Definition starts (d : dim) (t : text) : bool := bool_decide (take (length (start d)) t = start d).
Definition fixed_paths : list text :=
  let c := default_configuration in
  map (fun d => path c (FileCells c d)) dims ++ map (fun d => path c (FileProperties c d)) dims
  ++ map (fun d => path c (FileNeighbours c d)) [D0; D1; D2] ++ [path c (FileSubDivisions c)] ++ map (fun d => path c (FileUpdated c d)) dims.
Definition value_paths (d : dim) (m : mesh) : list text :=
  map (fun id => Folder default_configuration ++ txt "/" ++ values_name default_configuration d id) (PropertyIds d m).

Lemma value_path d id : Folder default_configuration ++ txt "/" ++ values_name default_configuration d id = start d ++ txt id ++ txt ".csv".
Proof. destruct d; reflexivity. Qed.
Lemma value_starts d m t : t ∈ value_paths d m -> starts d t = true.
Proof.
  intros (id & -> & _)%elem_of_list_fmap. rewrite value_path. apply bool_decide_eq_true. apply take_app.
Qed.
Lemma starts_one d d' t : starts d t = true -> starts d' t = true -> d = d'.
Proof.
  intros H%bool_decide_eq_true H'%bool_decide_eq_true. assert (length (start d) = length (start d')) as L by (destruct d, d'; reflexivity).
  rewrite L in H. rewrite H in H'. destruct d, d'; try reflexivity; discriminate H'.
Qed.
Lemma txt_inj a b : txt a = txt b -> a = b.
Proof.
  revert b. induction a as [|x a IH]; intros [|y b] E; try done. cbn in E. injection E as -> E. f_equal. by apply IH.
Qed.
Lemma value_NoDup d m : NoDup (PropertyIds d m) -> NoDup (value_paths d m).
Proof.
  apply map_NoDup. intros a b E. rewrite !value_path in E. apply app_inv_head, app_inv_tail in E. by apply txt_inj.
Qed.
Lemma fixed_starts d t : t ∈ fixed_paths -> starts d t = true -> False.
Proof.
  intros H S. assert (F : forallb (fun t => negb (starts d t)) fixed_paths = true) by (destruct d; vm_compute; reflexivity).
  pose proof (forallb_elem _ _ t F H) as E. cbv beta in E. rewrite S in E. discriminate E.
Qed.
Lemma paths_perm m : paths default_configuration m ≡ₚ
  fixed_paths ++ value_paths D0 m ++ value_paths D1 m ++ value_paths D2 m ++ value_paths D3 m.
Proof.
  unfold paths, property_paths, fixed_paths, dims. cbn [map].
  change (map (fun id => Folder default_configuration ++ txt "/" ++ values_name default_configuration D0 id) (PropertyIds D0 m)) with (value_paths D0 m).
  change (map (fun id => Folder default_configuration ++ txt "/" ++ values_name default_configuration D1 id) (PropertyIds D1 m)) with (value_paths D1 m).
  change (map (fun id => Folder default_configuration ++ txt "/" ++ values_name default_configuration D2 id) (PropertyIds D2 m)) with (value_paths D2 m).
  change (map (fun id => Folder default_configuration ++ txt "/" ++ values_name default_configuration D3 id) (PropertyIds D3 m)) with (value_paths D3 m).
  generalize (value_paths D0 m), (value_paths D1 m), (value_paths D2 m), (value_paths D3 m). generalize (path default_configuration). intros pth l0 l1 l2 l3.
  solve_Permutation.
Qed.
Lemma default_paths m : (forall d, NoDup (PropertyIds d m)) -> NoDup (paths default_configuration m).
Proof.
  intros H. rewrite paths_perm.
  assert (Di : forall d d' t, d <> d' -> t ∈ value_paths d m -> t ∈ value_paths d' m -> False).
  { intros d d' t N A%value_starts B%value_starts. apply N. by eapply starts_one. }
  assert (Fi : forall d t, t ∈ fixed_paths -> t ∈ value_paths d m -> False).
  { intros d t A B%value_starts. by eapply fixed_starts. }
  assert (NF : NoDup fixed_paths).
  { apply (bool_decide_unpack _). vm_compute. exact I. }
  apply NoDup_app. split; [exact NF|]. split.
  { intros t A B. rewrite !elem_of_app in B. destruct B as [B|[B|[B|B]]]; by eapply Fi. }
  apply NoDup_app. split; [by apply value_NoDup|]. split.
  { intros t A B. rewrite !elem_of_app in B. destruct B as [B|[B|B]]; refine (Di _ _ t _ A B); discriminate. }
  apply NoDup_app. split; [by apply value_NoDup|]. split.
  { intros t A B. rewrite !elem_of_app in B. destruct B as [B|B]; refine (Di _ _ t _ A B); discriminate. }
  apply NoDup_app. split; [by apply value_NoDup|]. split; [|by apply value_NoDup].
  intros t A B. refine (Di _ _ t _ A B); discriminate.
Qed.
Lemma default_suits m :
  (forall d, NoDup (PropertyIds d m)) -> (forall d id, id ∈ PropertyIds d m -> id <> ""%string /\ CsvSpec.plain ";"%char (txt id)) ->
  suits default_configuration m.
Proof.
  intros N P. constructor.
  - split; [reflexivity|]. right. reflexivity.
  - by apply default_paths.
  - intros d. apply Forall_forall. intros x Hx.
    assert (F : forallb (fun x => negb (is_slash x)) (FileProperties default_configuration d ++ txt "." ++ Extension default_configuration) = true)
      by (destruct d; vm_compute; reflexivity).
    pose proof (forallb_elem _ _ x F Hx) as E. cbv beta in E. by destruct (is_slash x).
  - intros d id Hid. destruct (P d id Hid) as [P1 P2]. split; [exact P1|]. split; [exact P2|].
    assert (F : forall t, plainb ";"%char t = true -> CsvSpec.plain ";"%char t) by apply plainb_spec.
    unfold values_name. change (Separator default_configuration) with ";"%char.
    apply Forall_app. split; [apply F; destruct d; vm_compute; reflexivity|]. apply Forall_app. split; [apply F; vm_compute; reflexivity|].
    apply Forall_app. split; [exact P2|]. apply F. vm_compute. reflexivity.
Qed.

Lemma csv_suits : suits default_configuration (after w_csv).
Proof. apply suitsb_spec. vm_compute. reflexivity. Qed.

(** ** Checking that a history has one generation *)

Definition generation (a : amesh) : bool :=
  forallb (fun d => forallb (fun i =>
    match am_cells a d !! i with
    | Some x => match ac_upd x with
                | Some s => forallb (fun j => match am_cells a d !! N.to_nat j with
                                              | Some y => negb (bool_decide (is_Some (ac_upd y))) && (bool_decide (d = D0) || (ac_orig y =? N.of_nat i)%N)
                                              | None => false
                                              end) (elements s)
                | None => true
                end && (if bool_decide (d = D0) || (ac_orig x =? UINT_MAX)%N then true else
                          match am_cells a d !! N.to_nat (ac_orig x) with
                          | Some z => match ac_upd z with Some s => bool_decide (N.of_nat i ∈ s) | None => false end
                          | None => false
                          end)
    | None => false
    end) (seq 0 (anum d a))) dims && forallb (fun d => fitsb (N.of_nat (anum d a))) dims.

Lemma generation_spec m a : reachable m -> represents m a -> generation a = true -> one_generation m.
Proof.
  intros Hr H [Hg Hf]%andb_prop. destruct (rr_of m Hr) as [a' Hm'].
  assert (Hm : forall d i j, replaced_by d m i j <-> exists x s, am_cells a d !! i = Some x /\ ac_upd x = Some s /\ N.of_nat j ∈ s).
  { intros d i j. unfold replaced_by. split.
    - intros E.
      assert (Hij : i < anum d a /\ j < anum d a).
      { rewrite <- (g_num m a H). unfold HasUpdated in E. apply bind_ok in E as (u & H1%require_ok & E).
        apply bind_ok in E as (u' & H2%require_ok & _). lia. }
      rewrite (g_hasupdated m a H) in E by tauto. destruct (am_cells a d !! i) as [x|]; [|done].
      destruct (ac_upd x) as [s|] eqn:Es; [|done]. injection E as E%bool_decide_eq_true. by exists x, s.
    - intros (x & s & Hx & Hs & Hj). rewrite (g_hasupdated m a H).
      + rewrite Hx, Hs. f_equal. by apply bool_decide_true.
      + by eapply lookup_lt_Some.
      + assert (E : (ac_upd <$> am_cells a d) !! i = Some (Some s)) by (by rewrite list_lookup_fmap, Hx; cbn; rewrite Hs).
        destruct (rc_upd_ok _ _ _ _ _ _ _ _ _ (r_cells _ _ H d) i s E) as [_ Hb]. specialize (Hb _ Hj). unfold anum. lia. }
  assert (Hc : forall d i x, am_cells a d !! i = Some x ->
    (forall s j, ac_upd x = Some s -> j ∈ s -> exists y, am_cells a d !! N.to_nat j = Some y /\ ac_upd y = None /\ (d <> D0 -> ac_orig y = N.of_nat i)) /\
    (d <> D0 -> ac_orig x = UINT_MAX \/ exists z s, am_cells a d !! N.to_nat (ac_orig x) = Some z /\ ac_upd z = Some s /\ N.of_nat i ∈ s)).
  { intros d i x Hx. pose proof (forallb_elem _ _ d Hg (in_dims d)) as E. cbv beta in E.
    assert (Hi : i ∈ seq 0 (anum d a)) by (apply elem_of_seq; apply lookup_lt_Some in Hx; unfold anum; lia).
    pose proof (forallb_elem _ _ i E Hi) as E'. cbv beta in E'. rewrite Hx in E'. apply andb_prop in E' as [E1 E2]. split.
    - intros s j Hs Hj. rewrite Hs in E1. apply elem_of_elements in Hj. pose proof (forallb_elem _ _ j E1 Hj) as E3. cbv beta in E3.
      destruct (am_cells a d !! N.to_nat j) as [y|]; [|done]. exists y. split; [done|]. apply andb_prop in E3 as [E3 E4]. split.
      + destruct (ac_upd y) as [s'|]; [|done]. rewrite bool_decide_true in E3 by eauto. done.
      + intros Hd. rewrite bool_decide_false in E4 by done. by apply N.eqb_eq in E4.
    - intros Hd. rewrite bool_decide_false in E2 by done. cbn [orb] in E2. destruct (ac_orig x =? UINT_MAX)%N eqn:Eo; [left; by apply N.eqb_eq|]. right.
      destruct (am_cells a d !! N.to_nat (ac_orig x)) as [z|]; [|done]. destruct (ac_upd z) as [s|] eqn:Es; [|done].
      exists z, s. split_and!; [done..|]. by apply bool_decide_eq_true in E2. }
  assert (Hn : forall d, (N.of_nat (anum d a) <= UINT_MAX)%N).
  { intros d. apply fitsb_spec. apply (forallb_elem _ _ d Hf (in_dims d)). }
  split.
  - intros d i j (x & s & Hx & Hs & Hj)%Hm. destruct (proj1 (Hc d i x Hx) s _ Hs Hj) as (y & Hy & Hu & _).
    rewrite Nat2N.id in Hy. rewrite (g_hasupdateds m a H). unfold look. rewrite Hy, Hu. done.
  - intros d i j Hd Hj Ho Hi. rewrite (g_original m a H d j Hd) in Ho. unfold look in Ho.
    destruct (am_cells a d !! j) as [x|] eqn:Hx; [|done]. injection Ho as Ho. rewrite (g_num m a H) in Hi. apply Hm.
    destruct (proj2 (Hc d j x Hx) Hd) as [E|(z & s & Hz & Hs & Hjs)].
    + specialize (Hn d). rewrite Ho in E. lia.
    + rewrite Ho, Nat2N.id in Hz. by exists z, s.
  - intros d i j Hd (x & s & Hx & Hs & Hj)%Hm. destruct (proj1 (Hc d i x Hx) s _ Hs Hj) as (y & Hy & _ & Ho).
    rewrite Nat2N.id in Hy. rewrite (g_original m a H d j Hd). unfold look. rewrite Hy. by rewrite Ho.
  - intros d j v Hd Ho. rewrite (g_original m a H d j Hd) in Ho. unfold look in Ho.
    destruct (am_cells a d !! j) as [x|] eqn:Hx; [|done]. injection Ho as <-. rewrite (g_num m a H).
    destruct (proj2 (Hc d j x Hx) Hd) as [E|(z & s & Hz & Hs & Hjs)]; [by right|left].
    apply lookup_lt_Some in Hz. unfold anum. lia.
Qed.

Lemma csv_generation : one_generation (after w_csv).
Proof. apply (generation_spec _ a_csv csv_reachable csv_represents). vm_compute. reflexivity. Qed.

(** ** Meshes which are not read back *)

Definition trip (c : configuration) (fuel : nat) (m : mesh) : outcome mesh :=
  fs ← Export plain_codec fuel c m ∅; Import plain_codec c fs empty_mesh.

Definition exports (c : configuration) (fuel : nat) (m : mesh) : bool := match Export plain_codec fuel c m ∅ with Ok _ => true | _ => false end.
Lemma trip_case c fuel m (P : outcome mesh -> bool) : exports c fuel m = true -> P (trip c fuel m) = true ->
  exists fs, Export plain_codec fuel c m ∅ = Ok fs /\ P (Import plain_codec c fs empty_mesh) = true.
Proof.
  unfold exports, trip. destruct (Export plain_codec fuel c m ∅) as [fs| | | |]; intros E HP; try done. by exists fs.
Qed.

Definition a_of (ops : list op) : amesh := default aempty (arun ops aempty).
Lemma of_represents ops : forallb MeshWit.plain ops = true -> bool_decide (is_Some (arun ops aempty)) = true -> represents (after ops) (a_of ops).
Proof.
  intros Hp Hs. apply after_represents; [done|]. unfold a_of. destruct (arun ops aempty) eqn:E; [done|]. by rewrite bool_decide_false in Hs by (by intros [? ?]).
Qed.

(** An edge replaced by a second one, which was then replaced by a third one. *)
Definition w_generations : list op :=
  [OInitDimension 1; OAppend D0 2; OAppend D1 3; OExtremes 0 0 1; OExtremes 1 0 1; OExtremes 2 0 1; OUpdated D1 0 1; OUpdated D1 1 2].

Lemma generations_lost : exists m fs m', reachable m /\ complete fits 3 m /\ regular m /\ suits default_configuration m /\
  Export plain_codec 3 default_configuration m ∅ = Ok fs /\ Import plain_codec default_configuration fs empty_mesh = Ok m' /\
  replaced_by D1 m 0 1 /\ Original D1 1 m = Ok 0%N /\ ~ replaced_by D1 m' 0 1 /\ Original D1 1 m' = Ok UINT_MAX.
Proof.
  assert (Hr : reachable (after w_generations)) by (apply after_reachable, plain_allowed; reflexivity).
  assert (Hc : complete fits 3 (after w_generations)).
  { apply (check_complete _ _ (a_of w_generations)); [apply of_represents|]; vm_compute; reflexivity. }
  assert (Hg : regular (after w_generations)) by (apply regularb_spec; vm_compute; reflexivity).
  assert (Hs : suits default_configuration (after w_generations)) by (apply suitsb_spec; vm_compute; reflexivity).
  destruct (trip_case default_configuration 3 (after w_generations) (fun o => match o with
              | Ok m' => match HasUpdated D1 0 1 m', Original D1 1 m' with Ok b, Ok v => negb b && (v =? UINT_MAX)%N | _, _ => false end
              | _ => false end)) as (fs & Ef & T); [vm_compute; reflexivity..|].
  destruct (Import plain_codec default_configuration fs empty_mesh) as [m'| | | |] eqn:E; try discriminate T.
  destruct (HasUpdated D1 0 1 m') as [b| | | |] eqn:Eu; try discriminate T. destruct (Original D1 1 m') as [v| | | |] eqn:Eo; try discriminate T.
  apply andb_prop in T as [Tb Tv]. apply N.eqb_eq in Tv. subst v. destruct b; [discriminate Tb|].
  exists (after w_generations), fs, m'. split; [exact Hr|]. split; [exact Hc|]. split; [exact Hg|]. split; [exact Hs|]. split; [exact Ef|]. split; [exact E|].
  split; [unfold replaced_by; vm_compute; reflexivity|]. split; [vm_compute; reflexivity|].
  split; [unfold replaced_by; rewrite Eu; discriminate|exact Eo].
Qed.

(** Vertices without edges: the importer knows no such mesh. *)
Definition w_vertices : list op := [OInitDimension 0; OAppend D0 2; OCoordinates 0 5 0 0].

Lemma vertices_rejected : exists m fs, reachable m /\ complete fits 1 m /\ suits default_configuration m /\ num D0 m = 2 /\ mdim m = 0 /\
  Export plain_codec 1 default_configuration m ∅ = Ok fs /\ Import plain_codec default_configuration fs empty_mesh = Throw.
Proof.
  assert (Hr : reachable (after w_vertices)) by (apply after_reachable, plain_allowed; reflexivity).
  assert (Hc : complete fits 1 (after w_vertices)).
  { apply (check_complete _ _ (a_of w_vertices)); [apply of_represents|]; vm_compute; reflexivity. }
  assert (Hs : suits default_configuration (after w_vertices)) by (apply suitsb_spec; vm_compute; reflexivity).
  destruct (trip_case default_configuration 1 (after w_vertices) (fun o => match o with Throw => true | _ => false end)) as (fs & Ef & T); [vm_compute; reflexivity..|].
  destruct (Import plain_codec default_configuration fs empty_mesh) as [m'| | | |] eqn:E; try discriminate T.
  exists (after w_vertices), fs. split; [exact Hr|]. split; [exact Hc|]. split; [exact Hs|]. split; [vm_compute; reflexivity|].
  split; [vm_compute; reflexivity|]. split; [exact Ef|exact E].
Qed.

(** A property whose name has a blank in it. *)
Definition w_blank : list op := [OInitDimension 1; OAppend D0 2; OAppend D1 1; OExtremes 0 0 1; OAddProperty D1 "my length"].

Lemma blank_rejected : exists m fs, reachable m /\ complete fits 1 m /\ regular m /\ PropertyIds D1 m = ["my length"%string] /\
  Export plain_codec 1 default_configuration m ∅ = Ok fs /\ Import plain_codec default_configuration fs empty_mesh = Abort.
Proof.
  assert (Hr : reachable (after w_blank)) by (apply after_reachable, plain_allowed; reflexivity).
  assert (Hc : complete fits 1 (after w_blank)).
  { apply (check_complete _ _ (a_of w_blank)); [apply of_represents|]; vm_compute; reflexivity. }
  assert (Hg : regular (after w_blank)) by (apply regularb_spec; vm_compute; reflexivity).
  destruct (trip_case default_configuration 1 (after w_blank) (fun o => match o with Abort => true | _ => false end)) as (fs & Ef & T); [vm_compute; reflexivity..|].
  destruct (Import plain_codec default_configuration fs empty_mesh) as [m'| | | |] eqn:E; try discriminate T.
  exists (after w_blank), fs. split; [exact Hr|]. split; [exact Hc|]. split; [exact Hg|]. split; [vm_compute; reflexivity|]. split; [exact Ef|exact E].
Qed.

(** A property of the polygons of a mesh without polygons. *)
Definition w_cellless : list op := [OInitDimension 1; OAppend D0 2; OAppend D1 1; OExtremes 0 0 1; OAddProperty D2 "area"].

Lemma cellless_lost : exists m fs m', reachable m /\ regular m /\ suits default_configuration m /\ PropertyIds D2 m = ["area"%string] /\
  Export plain_codec 1 default_configuration m ∅ = Ok fs /\ Import plain_codec default_configuration fs empty_mesh = Ok m' /\ PropertyIds D2 m' = [].
Proof.
  assert (Hr : reachable (after w_cellless)) by (apply after_reachable, plain_allowed; reflexivity).
  assert (Hg : regular (after w_cellless)) by (apply regularb_spec; vm_compute; reflexivity).
  assert (Hs : suits default_configuration (after w_cellless)) by (apply suitsb_spec; vm_compute; reflexivity).
  destruct (trip_case default_configuration 1 (after w_cellless) (fun o => match o with Ok m' => match PropertyIds D2 m' with [] => true | _ => false end | _ => false end)) as (fs & Ef & T); [vm_compute; reflexivity..|].
  destruct (Import plain_codec default_configuration fs empty_mesh) as [m'| | | |] eqn:E; try discriminate T.
  destruct (PropertyIds D2 m') eqn:Ep; [|discriminate T].
  exists (after w_cellless), fs, m'. split; [exact Hr|]. split; [exact Hg|]. split; [exact Hs|]. split; [vm_compute; reflexivity|].
  split; [exact Ef|]. split; [exact E|exact Ep].
Qed.
