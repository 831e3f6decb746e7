(** Sub-meshes: the tables, and reading renamed cells. *)
From Coq Require Import QArith Qcanon.
From Verif Require Import Base BaseProof CsrModel CsrSpec CsrProof MeshModel MeshSpec MeshRep MeshHist
  MeshProof MeshProof2 MeshProof3 MeshProof4 MeshProof5 MeshProof6 MeshProof7 MeshProof8 MeshProof9 MeshProofA MeshProofB
  MeshProg UtilModel UtilProofD FillModel FillSpec FillProofA FillProofB.
From Coq Require Import ZifyBool ZifyNat ZifyN.
Local Open Scope nat_scope.

(** Position of an old number in a filter. *)
Definition pos (flt : list N) (v : N) : N :=
  match list_find (fun w => w = v) flt with Some (k, _) => N.of_nat k | None => UINT_MAX end.

Lemma pos_in flt v : v ∈ flt -> exists k, pos flt v = N.of_nat k /\ flt !! k = Some v.
Proof.
  intros Hv. unfold pos. destruct (list_find_elem_of (fun w => w = v) flt v Hv eq_refl) as [[k w] E]. rewrite E.
  apply list_find_Some in E as (H1 & -> & _). by exists k.
Qed.
Lemma pos_out flt v : v ∉ flt -> pos flt v = UINT_MAX.
Proof.
  intros Hv. unfold pos. destruct (list_find _ flt) as [[k w]|] eqn:E; [|done]. apply list_find_Some in E as (H1 & -> & _).
  exfalso. apply Hv. by eapply elem_of_list_lookup_2.
Qed.
Lemma pos_at flt k v : NoDup flt -> flt !! k = Some v -> pos flt v = N.of_nat k.
Proof.
  intros Hn Hk. destruct (pos_in flt v) as (j & -> & Hj); [by eapply elem_of_list_lookup_2|]. f_equal. by eapply NoDup_lookup.
Qed.
Lemma pos_named flt v : v ∈ flt -> named flt (pos flt v) v.
Proof. intros Hv. destruct (pos_in flt v Hv) as (k & -> & Hk). unfold named. by rewrite Nat2N.id. Qed.
Lemma pos_below flt v : v ∈ flt -> (pos flt v < N.of_nat (length flt))%N.
Proof. intros Hv. destruct (pos_in flt v Hv) as (k & -> & Hk). apply lookup_lt_Some in Hk. lia. Qed.

Definition table (total : nat) (flt : list N) : list N := (fun i => pos flt (N.of_nat i)) <$> seq 0 total.

Lemma table_at total flt v : (v < N.of_nat total)%N -> new_of (table total flt) v = Ok (pos flt v).
Proof.
  intros Hv. unfold new_of, table. rewrite (vat_Ok _ _ (pos flt v)); [done|].
  rewrite list_lookup_fmap, lookup_seq_lt by lia. cbn. by rewrite N2Nat.id.
Qed.

Lemma table_renumbering d flt m : good_filter d flt m -> renumbering (num d m) flt (table (num d m) flt).
Proof.
  intros [Hn Hf]. split_and!.
  - unfold table. by rewrite fmap_length, seq_length.
  - intros k o Ho. rewrite Forall_lookup in Hf. specialize (Hf k o Ho). unfold table.
    rewrite list_lookup_fmap, lookup_seq_lt by lia. cbn. rewrite N2Nat.id. f_equal. by apply pos_at.
  - intros i Hi Ho. unfold table. rewrite list_lookup_fmap, lookup_seq_lt by lia. cbn. by rewrite pos_out.
Qed.

Lemma table_snoc total flt o : o ∉ flt -> (o < N.of_nat total)%N ->
  table total (flt ++ [o]) = <[N.to_nat o := N.of_nat (length flt)]> (table total flt).
Proof.
  intros Ho Hlt. apply list_eq. intros i. unfold table. rewrite list_lookup_fmap. destruct (decide (i = N.to_nat o)) as [->|E].
  - rewrite list_lookup_insert by (rewrite fmap_length, seq_length; lia). rewrite lookup_seq_lt by lia. cbn. rewrite N2Nat.id. f_equal.
    unfold pos. rewrite list_find_app_r by (apply list_find_None, Forall_forall; intros x Hx ->; done). cbn. rewrite decide_True by done. cbn. by rewrite ?Nat.add_0_r.
  - rewrite list_lookup_insert_ne by congruence. rewrite list_lookup_fmap. destruct (decide (i < total)).
    + rewrite lookup_seq_lt by done. cbn. f_equal. destruct (decide (N.of_nat i ∈ flt)) as [Hi|Hi].
      * unfold pos. cbn [Nat.add]. destruct (list_find_elem_of (fun w => w = N.of_nat i) flt _ Hi eq_refl) as [[kw w] Ek].
        rewrite Ek. by erewrite list_find_app_l by exact Ek.
      * rewrite !pos_out; [done|done|]. rewrite elem_of_app, elem_of_list_singleton. intros [?|E2]; [done|]. apply E. rewrite <- E2. lia.
    + by rewrite lookup_seq_ge by lia.
Qed.

Lemma table_nil total : table total [] = replicate total UINT_MAX.
Proof.
  apply list_eq. intros i. unfold table. rewrite list_lookup_fmap. destruct (decide (i < total)).
  - rewrite lookup_seq_lt by done. by rewrite lookup_replicate_2.
  - rewrite lookup_seq_ge by lia. symmetry. apply lookup_ge_None. rewrite replicate_length. lia.
Qed.

Lemma renumber_ok {A} total flt (read : nat -> outcome A) g :
  NoDup flt -> Forall (fun o => (o < N.of_nat total)%N) flt -> Forall (fun o => read (N.to_nat o) = Ok (g o)) flt ->
  renumber_cells total flt read = Ok (table total flt, g <$> flt).
Proof.
  unfold renumber_cells. induction flt as [|o flt IH] using rev_ind; intros Hn Hf Hr.
  - cbn. by rewrite table_nil.
  - apply NoDup_app in Hn as (Hn & Hd & _). apply Forall_app in Hf as [Hf Ho]. apply Forall_app in Hr as [Hr Hro].
    rewrite Forall_singleton in Ho, Hro. cbn beta in Ho, Hro. rewrite imap_app, ofold_app, IH by done. cbn [mbind outcome_bind imap ofold fst snd compose].
    rewrite Nat.add_0_r. rewrite (vset_Ok (table total flt)); [|unfold table; rewrite fmap_length, seq_length; lia].
    cbn [mbind outcome_bind]. rewrite Hro. cbn [mbind outcome_bind]. rewrite fmap_app. rewrite table_snoc; [done| |done].
    intros ?. apply (Hd o); [done|apply elem_of_list_here].
Qed.

Lemma filter_length d flt m : good_filter d flt m -> length flt <= num d m.
Proof.
  intros [Hn Hf]. rewrite <- (seq_length (num d m) 0). rewrite <- (fmap_length N.of_nat (seq 0 (num d m))).
  apply submseteq_length, NoDup_submseteq; [done|]. intros v Hv. rewrite Forall_forall in Hf. specialize (Hf v Hv).
  apply elem_of_list_fmap. exists (N.to_nat v). split; [lia|]. apply elem_of_seq. lia.
Qed.

(** ** Reading old cells *)
Section old.
Context (old : mesh) (a : amesh) (R : represents old a).

Definition cell_at (d : dim) (o : N) : acell := default (new_cell d 0) (am_cells a d !! N.to_nat o).

Lemma cell_at_ok d o : (o < N.of_nat (num d old))%N -> am_cells a d !! N.to_nat o = Some (cell_at d o).
Proof.
  intros Ho. rewrite (g_num _ _ R) in Ho. unfold cell_at. destruct (lookup_lt_is_Some_2 (am_cells a d) (N.to_nat o)) as [x ->]; [unfold anum in Ho; lia|done].
Qed.

Lemma point_at o : (o < N.of_nat (num D0 old))%N -> Cell0DCoordinates (N.to_nat o) old = Ok (geo_triple (cell_at D0 o)).
Proof. intros Ho. rewrite (g_coord _ _ R). unfold look. by rewrite cell_at_ok. Qed.
Lemma row_at r o : (o < N.of_nat (num (src r) old))%N -> RelRow r (N.to_nat o) old = Ok (ac_rel (cell_at (src r) o) r).
Proof. intros Ho. rewrite (g_row _ _ R). unfold look. by rewrite cell_at_ok. Qed.
Lemma edge_at o : (o < N.of_nat (num D1 old))%N ->
  Cell1DOrigin (N.to_nat o) old = Ok (geo_pair (cell_at D1 o)).1 /\ Cell1DEnd (N.to_nat o) old = Ok (geo_pair (cell_at D1 o)).2.
Proof. intros Ho. rewrite (g_origin _ _ R), (g_end _ _ R). unfold look. by rewrite cell_at_ok. Qed.

Context (f0 f1 f2 f3 : list N).
Notation T d f := (table (num d old) f).
Context (G0 : good_filter D0 f0 old) (G1 : good_filter D1 f1 old).

Lemma filter_lt d f v : good_filter d f old -> v ∈ f -> (v < N.of_nat (num d old))%N.
Proof. intros [_ H] Hv. rewrite Forall_forall in H. by apply H. Qed.

Lemma new_of_ok d f v : good_filter d f old -> v ∈ f -> new_of (T d f) v = Ok (pos f v).
Proof. intros G Hv. apply table_at. by eapply filter_lt. Qed.
Lemma new_ofs_ok d f l : good_filter d f old -> Forall (fun v => v ∈ f) l -> omapM (new_of (T d f)) l = Ok (pos f <$> l).
Proof.
  intros G. induction l as [|v l IH]; intros Hl; [done|]. apply Forall_cons in Hl as [Hv Hl]. cbn [omapM fmap list_fmap].
  rewrite (new_of_ok d f v G Hv). cbn [mbind outcome_bind]. by rewrite (IH Hl).
Qed.

Definition new_edge (e : N) : N * N := let p := geo_pair (cell_at D1 e) in (pos f0 p.1, pos f0 p.2).
Lemma read_edge_ok e : closed_edges f0 f1 old -> e ∈ f1 ->
  read_edge (T D0 f0) old (N.to_nat e) = Ok (new_edge e) /\ (geo_pair (cell_at D1 e)).1 ∈ f0 /\ (geo_pair (cell_at D1 e)).2 ∈ f0.
Proof.
  intros C He. destruct (C e He) as (o & t & Eo & Et & Ho & Ht). destruct (edge_at e (filter_lt _ _ _ G1 He)) as [Eo' Et'].
  rewrite Eo in Eo'. rewrite Et in Et'. injection Eo' as ->. injection Et' as ->. split; [|done].
  unfold read_edge. rewrite Eo, Et. cbn [mbind outcome_bind]. rewrite (new_of_ok D0 f0 _ G0 Ho), (new_of_ok D0 f0 _ G0 Ht). done.
Qed.

Definition new_polygon (c : N) : list (N * N) :=
  zip (pos f0 <$> ac_rel (cell_at D2 c) V2) (pos f1 <$> ac_rel (cell_at D2 c) E2).
Lemma closed_row r fs ft c : good_filter (src r) fs old -> closed_rows r fs ft old -> c ∈ fs ->
  Forall (fun v => v ∈ ft) (ac_rel (cell_at (src r) c) r).
Proof.
  intros G C Hc. destruct (C c Hc) as (l & El & Hl). rewrite (row_at r c (filter_lt _ _ _ G Hc)) in El. by injection El as <-.
Qed.
Lemma same_length c : good_filter D2 f2 old -> same_numbers f2 old -> c ∈ f2 ->
  length (ac_rel (cell_at D2 c) V2) = length (ac_rel (cell_at D2 c) E2).
Proof.
  intros G S Hc. specialize (S c Hc). pose proof (cell_at_ok D2 c (filter_lt _ _ _ G Hc)) as Hx.
  rewrite !(g_count _ _ R) in S. unfold look in S. cbn [src] in S. rewrite Hx in S. unfold row_of in S. injection S as S. lia.
Qed.

Lemma omapM_zip {A B C D} (f : A -> outcome C) (g : B -> outcome D) (l : list A) (k : list B) l' k' :
  omapM f l = Ok l' -> omapM g k = Ok k' ->
  omapM (fun p => v ← f p.1; e ← g p.2; Ok (v, e)) (zip l k) = Ok (zip l' k').
Proof.
  revert k l' k'. induction l as [|x l IH]; intros k l' k' Hl Hk.
  { cbn in Hl. by injection Hl as <-. }
  destruct k as [|y k]; [cbn in Hk; injection Hk as <-; by destruct l'|].
  cbn [omapM] in Hl, Hk. apply bind_ok in Hl as (x' & Hx & Hl). apply bind_ok in Hl as (l2 & Hl & E1). injection E1 as <-.
  apply bind_ok in Hk as (y' & Hy & Hk). apply bind_ok in Hk as (k2 & Hk & E2). injection E2 as <-.
  cbn [zip zip_with omapM fst snd]. rewrite Hx, Hy. cbn [mbind outcome_bind]. by rewrite (IH k l2 k2 Hl Hk).
Qed.

Lemma read_polygon_ok c : good_filter D2 f2 old -> closed_rows V2 f2 f0 old -> closed_rows E2 f2 f1 old -> same_numbers f2 old -> c ∈ f2 ->
  read_polygon (T D0 f0) (T D1 f1) old (N.to_nat c) = Ok (new_polygon c).
Proof.
  intros G C0 C1 S Hc. unfold read_polygon.
  rewrite (row_at V2 c (filter_lt _ _ _ G Hc)), (row_at E2 c (filter_lt _ _ _ G Hc)). cbn [mbind outcome_bind src].
  rewrite (same_length c G S Hc), Nat.eqb_refl. cbn [require mbind outcome_bind].
  apply omapM_zip; [apply new_ofs_ok; [done|]|apply new_ofs_ok; [done|]].
  - by apply (closed_row V2 f2 f0 c).
  - by apply (closed_row E2 f2 f1 c).
Qed.

Definition new_polyhedron (c : N) : polyhedron :=
  Polyhedron (pos f0 <$> ac_rel (cell_at D3 c) V3) (pos f1 <$> ac_rel (cell_at D3 c) E3) (pos f2 <$> ac_rel (cell_at D3 c) F3).
Lemma read_polyhedron_ok c : good_filter D2 f2 old -> good_filter D3 f3 old ->
  closed_rows V3 f3 f0 old -> closed_rows E3 f3 f1 old -> closed_rows F3 f3 f2 old -> c ∈ f3 ->
  read_polyhedron (T D0 f0) (T D1 f1) (T D2 f2) old (N.to_nat c) = Ok (new_polyhedron c).
Proof.
  intros G2 G3 C0 C1 C2 Hc. unfold read_polyhedron.
  rewrite (row_at V3 c (filter_lt _ _ _ G3 Hc)), (row_at E3 c (filter_lt _ _ _ G3 Hc)), (row_at F3 c (filter_lt _ _ _ G3 Hc)).
  cbn [mbind outcome_bind src].
  rewrite (new_ofs_ok D0 f0) by (try done; by apply (closed_row V3 f3 f0 c)). cbn [mbind outcome_bind].
  rewrite (new_ofs_ok D1 f1) by (try done; by apply (closed_row E3 f3 f1 c)). cbn [mbind outcome_bind].
  rewrite (new_ofs_ok D2 f2) by (try done; by apply (closed_row F3 f3 f2 c)). done.
Qed.
End old.
