(** Sub-meshes: C19 and C52. *)
From Coq Require Import QArith Qcanon.
From Verif Require Import Base BaseProof CsrModel CsrSpec CsrProof MeshModel MeshSpec MeshRep MeshHist
  MeshProof MeshProof2 MeshProof3 MeshProof4 MeshProof5 MeshProof6 MeshProof7 MeshProof8 MeshProof9 MeshProofA MeshProofB
  MeshProg UtilModel UtilProofD FillModel FillSpec FillProofA FillProofB FillProofD.
From Coq Require Import ZifyBool ZifyNat ZifyN.
Local Open Scope nat_scope.

Section extract.
Context (old : mesh) (a : amesh) (R : represents old a) (F : dim -> list N).
Notation cell_at := (cell_at a).

Definition acts (d : dim) (i : nat) : bool := default true ((fun o => ac_act (cell_at d o)) <$> F d !! i).
Definition marks (d : dim) (i : nat) : N := default 0%N ((fun o => ac_mark (cell_at d o)) <$> F d !! i).

Lemma copy_does d b : good_filter d (F d) old -> anum d b = length (F d) ->
  does (copy_marks d (F d) old) b (amap (in_dim d (with_marks acts marks d)) b).
Proof.
  intros G Hn. unfold copy_marks. eapply does_aeq.
  - apply (does_each d (fun _ o x => with_act (ac_act (cell_at d o)) (with_mark (ac_mark (cell_at d o)) x)) _ (F d) b Hn).
    intros k o x H Hk Hx HF. cbn [fst snd].
    assert (Ho : (o < N.of_nat (num d old))%N) by (eapply filter_lt; [done|by eapply elem_of_list_lookup_2]).
    assert (Hlk : k < anum d b) by (rewrite Hn; by eapply lookup_lt_Some).
    pose proof (cell_at_ok old a R d o Ho) as Ec.
    rewrite (g_marker _ _ R), (g_active _ _ R). unfold look. rewrite Ec. cbn [mbind outcome_bind].
    eapply does_aeq; [eapply does_bind; [by apply does_Marker|by apply does_State]|].
    apply amap_ext. intros d' i z Hz. unfold also. destruct (decide (d' = d /\ i = k)); apply ceq_refl.
  - eapply aeq_trans; [|apply aeq_sym; apply amap_in_dim]. apply wc_aeq. apply Forall2_same_length_lookup. rewrite !imap_length. split; [done|].
    intros i x y. rewrite !list_lookup_imap. destruct (am_cells b d !! i) as [z|] eqn:Hz; [|done]. cbn. intros [= <-] [= <-].
    destruct (lookup_lt_is_Some_2 (F d) i) as [o Ho]; [rewrite <- Hn; by eapply lookup_lt_Some|].
    unfold with_marks, acts, marks. rewrite Ho. apply ceq_refl.
Qed.

Notation f0 := (F D0). Notation f1 := (F D1). Notation f2 := (F D2). Notation f3 := (F D3).
Context (G0 : good_filter D0 f0 old) (G1 : good_filter D1 f1 old) (C1 : closed_edges f0 f1 old).
Context (Few : forall d, few (num d old)).

Notation points := ((fun o => geo_triple (cell_at D0 o)) <$> f0).
Notation edges := (new_edge a f0 <$> f1).
Notation polygons := (new_polygon a f0 f1 <$> f2).
Notation polyhedra := (new_polyhedron a f0 f1 f2 <$> f3).

Lemma read_points : renumber_cells (num D0 old) f0 (fun i => Cell0DCoordinates i old) = Ok (table (num D0 old) f0, points).
Proof.
  apply renumber_ok; [apply G0..|]. apply Forall_forall. intros o Ho. apply (point_at _ _ R). by eapply filter_lt.
Qed.
Lemma read_edges : renumber_cells (num D1 old) f1 (read_edge (table (num D0 old) f0) old) = Ok (table (num D1 old) f1, edges).
Proof.
  apply renumber_ok; [apply G1..|]. apply Forall_forall. intros e He.
  by destruct (read_edge_ok old a R f0 f1 G0 G1 e C1 He) as (-> & _).
Qed.

Lemma edges_below : all_below (length f0) (edges.*1) /\ all_below (length f0) (edges.*2).
Proof.
  rewrite <- !list_fmap_compose. split; apply Forall_fmap, Forall_forall; intros e He; cbn; apply pos_below;
    by destruct (read_edge_ok old a R f0 f1 G0 G1 e C1 He) as (_ & ? & ?).
Qed.

Lemma filter_few d f : good_filter d f old -> few (length f).
Proof. intros G. pose proof (filter_length d f old G). specialize (Few d). unfold few in *. lia. Qed.

(** Reading the new mesh. *)
Lemma took_points c1 c2 c3 acts' marks' m' : reads_back points c1 c2 c3 acts' marks' m' -> taken_points f0 old m'.
Proof.
  intros (_ & _ & _ & _ & H & _) k o Ho. exists (geo_triple (cell_at D0 o)). split.
  - apply (point_at _ _ R). eapply filter_lt; [done|]. by eapply elem_of_list_lookup_2.
  - apply H. by rewrite list_lookup_fmap, Ho.
Qed.
Lemma took_edges c0 c2 c3 acts' marks' m' : reads_back c0 edges c2 c3 acts' marks' m' -> taken_edges f0 f1 old m'.
Proof.
  intros (_ & _ & _ & _ & _ & H & _) k e He. pose proof (elem_of_list_lookup_2 _ _ _ He) as Hin.
  destruct (edge_at _ _ R e (filter_lt _ _ _ _ G1 Hin)) as [Eo Et].
  destruct (read_edge_ok old a R f0 f1 G0 G1 e C1 Hin) as (_ & Ho & Ht).
  destruct (H k (new_edge a f0 e)) as [Eo' Et']; [by rewrite list_lookup_fmap, He|].
  do 4 eexists. split_and!; [exact Eo|exact Et|exact Eo'|exact Et'|by apply pos_named..].
Qed.

Lemma named_rows f l : Forall (fun v => v ∈ f) l -> Forall2 (named f) (pos f <$> l) l.
Proof. intros H. apply Forall2_fmap_l, Forall_Forall2_diag. eapply Forall_impl; [exact H|]. intros v. apply pos_named. Qed.

Section polygons.
Context (G2 : good_filter D2 f2 old) (C20 : closed_rows V2 f2 f0 old) (C21 : closed_rows E2 f2 f1 old) (S2 : same_numbers f2 old).

Lemma read_polygons : renumber_cells (num D2 old) f2 (read_polygon (table (num D0 old) f0) (table (num D1 old) f1) old) =
  Ok (table (num D2 old) f2, polygons).
Proof. apply renumber_ok; [apply G2..|]. apply Forall_forall. intros c Hc. by apply (read_polygon_ok old a R f0 f1 f2). Qed.

Lemma polygon_rows c : c ∈ f2 -> (new_polygon a f0 f1 c).*1 = pos f0 <$> ac_rel (cell_at D2 c) V2 /\ (new_polygon a f0 f1 c).*2 = pos f1 <$> ac_rel (cell_at D2 c) E2.
Proof.
  intros Hc. pose proof (same_length old a R f2 c G2 S2 Hc) as E. unfold new_polygon.
  split; [rewrite fst_zip|rewrite snd_zip]; rewrite ?fmap_length; done || lia.
Qed.

Lemma polygons_below : Forall (fun p => all_below (length f0) (p.*1) /\ all_below (length f1) (p.*2)) polygons.
Proof.
  apply Forall_fmap, Forall_forall. intros c Hc. cbn. destruct (polygon_rows c Hc) as [-> ->]. split; apply Forall_fmap; cbn.
  - eapply Forall_impl; [by apply (closed_row old a R V2 f2 f0 c)|]. intros v. apply pos_below.
  - eapply Forall_impl; [by apply (closed_row old a R E2 f2 f1 c)|]. intros v. apply pos_below.
Qed.

Lemma took_polygons c0 c1 c3 acts' marks' m' : reads_back c0 c1 polygons c3 acts' marks' m' ->
  taken_rows V2 f2 f0 old m' /\ taken_rows E2 f2 f1 old m'.
Proof.
  intros (_ & _ & _ & _ & _ & _ & H & _).
  assert (K : forall k c, f2 !! k = Some c -> c ∈ f2 /\ RelRow V2 k m' = Ok (pos f0 <$> ac_rel (cell_at D2 c) V2) /\
     RelRow E2 k m' = Ok (pos f1 <$> ac_rel (cell_at D2 c) E2)).
  { intros k c Hc. pose proof (elem_of_list_lookup_2 _ _ _ Hc) as Hin. destruct (polygon_rows c Hin) as [E1 E2].
    destruct (H k (new_polygon a f0 f1 c)) as (H1 & H2 & _); [by rewrite list_lookup_fmap, Hc|]. rewrite E1 in H1. rewrite E2 in H2. done. }
  split; intros k c Hc; destruct (K k c Hc) as (Hin & H1 & H2); do 2 eexists; (split_and!; [apply (row_at _ _ R); by eapply filter_lt|done|apply named_rows]).
  - by apply (closed_row old a R V2 f2 f0 c).
  - by apply (closed_row old a R E2 f2 f1 c).
Qed.
End polygons.

Section polyhedra.
Context (G2 : good_filter D2 f2 old) (G3 : good_filter D3 f3 old).
Context (C30 : closed_rows V3 f3 f0 old) (C31 : closed_rows E3 f3 f1 old) (C32 : closed_rows F3 f3 f2 old).

Lemma read_polyhedra :
  renumber_cells (num D3 old) f3 (read_polyhedron (table (num D0 old) f0) (table (num D1 old) f1) (table (num D2 old) f2) old) =
  Ok (table (num D3 old) f3, polyhedra).
Proof. apply renumber_ok; [apply G3..|]. apply Forall_forall. intros c Hc. by apply (read_polyhedron_ok old a R f0 f1 f2 f3). Qed.

Lemma polyhedra_below : Forall (fun p => all_below (length f0) (ph_v p) /\ all_below (length f1) (ph_e p) /\ all_below (length f2) (ph_f p)) polyhedra.
Proof.
  apply Forall_fmap, Forall_forall. intros c Hc. cbn. split_and!; apply Forall_fmap; cbn.
  - eapply Forall_impl; [by apply (closed_row old a R V3 f3 f0 c)|]. intros v. apply pos_below.
  - eapply Forall_impl; [by apply (closed_row old a R E3 f3 f1 c)|]. intros v. apply pos_below.
  - eapply Forall_impl; [by apply (closed_row old a R F3 f3 f2 c)|]. intros v. apply pos_below.
Qed.

Lemma took_polyhedra c0 c1 c2 acts' marks' m' : reads_back c0 c1 c2 polyhedra acts' marks' m' ->
  taken_rows V3 f3 f0 old m' /\ taken_rows E3 f3 f1 old m' /\ taken_rows F3 f3 f2 old m'.
Proof.
  intros (_ & _ & _ & _ & _ & _ & _ & H & _).
  split_and!; intros k c Hc; pose proof (elem_of_list_lookup_2 _ _ _ Hc) as Hin;
    (destruct (H k (new_polyhedron a f0 f1 f2 c)) as (H1 & H2 & H3); [by rewrite list_lookup_fmap, Hc|]);
    do 2 eexists; (split_and!; [apply (row_at _ _ R); by eapply filter_lt|done|apply named_rows]).
  - by apply (closed_row old a R V3 f3 f0 c).
  - by apply (closed_row old a R E3 f3 f1 c).
  - by apply (closed_row old a R F3 f3 f2 c).
Qed.
End polyhedra.

Lemma took_marks d c0 c1 c2 c3 m' :
  good_filter d (F d) old ->
  match d with D0 => length c0 | D1 => length c1 | D2 => length c2 | D3 => length c3 end = length (F d) ->
  reads_back c0 c1 c2 c3 acts marks m' -> taken_marks d (F d) old m'.
Proof.
  intros G Hl (P0 & P1 & P2 & P3 & _) k c Hc.
  assert (Hlt : (c < N.of_nat (num d old))%N) by (eapply filter_lt; [done|by eapply elem_of_list_lookup_2]).
  rewrite (g_marker _ _ R), (g_active _ _ R). unfold look. rewrite (cell_at_ok old a R d c Hlt).
  assert (Hk : k < length (F d)) by (by eapply lookup_lt_Some).
  assert (E : IsActive d k m' = Ok (acts d k) /\ Marker d k m' = Ok (marks d k)).
  { destruct d; [destruct P0 as [_ P0]; destruct (P0 k) as (? & ? & _)|destruct P1 as [_ P1]; destruct (P1 k) as (? & ? & _)|
      destruct P2 as [_ P2]; destruct (P2 k) as (? & ? & _)|destruct P3 as [_ P3]; destruct (P3 k) as (? & ? & _)]; done || lia. }
  destruct E as [-> ->]. unfold acts, marks. by rewrite Hc.
Qed.
End extract.
