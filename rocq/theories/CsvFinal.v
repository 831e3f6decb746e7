(** Writing a mesh to its files and reading it back. *)
From Verif Require Import Base BaseProof StringsModel StringsProof CsrModel CsrSpec MeshModel MeshSpec MeshRep MeshHist
  MeshProof MeshProof2 MeshProof3 MeshProof4 MeshProof5 MeshProof6 MeshProof7 MeshProof8 MeshProof9 MeshProg CsvModel CsvSpec CsvText CsvRows
  CsvLoop CsvConv CsvConv2.
From Coq Require Import Ascii ZifyBool ZifyNat ZifyN.

(** ** The file system *)

Lemma write_other l : forall fs p, p ∉ map fst l -> write fs l !! p = fs !! p.
Proof.
  induction l as [|w l IH]; intros fs p Hp; [done|]. cbn [map] in Hp. apply not_elem_of_cons in Hp as [H1 H2].
  change (write fs (w :: l)) with (write (<[w.1 := w.2]> fs) l). rewrite IH by done. unfold files. by rewrite lookup_insert_ne.
Qed.

Lemma write_in l : forall fs p t, NoDup (map fst l) -> (p, t) ∈ l -> write fs l !! p = Some t.
Proof.
  induction l as [|w l IH]; intros fs p t Hn Hin; [by apply elem_of_nil in Hin|]. cbn in Hn. apply NoDup_cons in Hn as [H1 H2].
  apply elem_of_cons in Hin as [Hw|Hin].
  - subst w. change (write fs ((p, t) :: l)) with (write (<[p := t]> fs) l). rewrite write_other by done. unfold files. apply lookup_insert.
  - change (write fs (w :: l)) with (write (<[w.1 := w.2]> fs) l). by apply IH.
Qed.

(** ** The history *)

Section queries.
Context (m : mesh) (a : amesh) (H : represents m a).

Lemma query_leaves fu : forall d c b l, UpdatedQuery fu d c m = Ok (b, l) ->
  l <> [] /\ Forall (fun v => cupd (mcells m d) !! v = None) l /\
  (b = true -> l = [c] /\ cupd (mcells m d) !! c = None) /\ (b = false -> cupd (mcells m d) !! c <> None).
Proof.
  induction fu as [|fu IH]; intros d c b l E; [done|]. cbn [UpdatedQuery] in E.
  apply bind_ok in E as (u & Hu%require_ok & E). destruct (cupd (mcells m d) !! c) as [s|] eqn:Es.
  - apply bind_ok in E as (l' & Hl & [= <- <-]).
    assert (Hs : elements s <> []).
    { rewrite (rc_upd _ _ _ _ _ _ _ _ _ (r_cells _ _ H d)) in Es. destruct ((ac_upd <$> am_cells a d) !! N.to_nat c) as [o|] eqn:Eo; [|done].
      cbn in Es. subst o. destruct (rc_upd_ok _ _ _ _ _ _ _ _ _ (r_cells _ _ H d) _ _ Eo) as [Hn _].
      intros E. apply Hn. apply elements_empty_inv in E. by apply leibniz_equiv. }
    assert (G : forall ss acc l', ofold (fun acc ch => bl ← UpdatedQuery fu d ch m; Ok (acc ++ bl.2)) ss acc = Ok l' ->
                  Forall (fun v => cupd (mcells m d) !! v = None) acc ->
                  (acc <> [] \/ ss <> [] -> l' <> []) /\ Forall (fun v => cupd (mcells m d) !! v = None) l').
    { clear Hl. induction ss as [|ch ss IHs]; intros acc l'' E Ha; cbn [ofold] in E.
      - injection E as <-. split; [tauto|done].
      - apply bind_ok in E as (acc' & E & E'). apply bind_ok in E as ([b' l1] & E & [= <-]).
        destruct (IH d ch b' l1 E) as (Hn & Hf & _).
        destruct (IHs _ _ E') as [H1 H2]; [by apply Forall_app|]. split; [|done]. intros _. apply H1. left.
        cbn. intros Ex. by apply app_eq_nil in Ex as [_ ?]. }
    destruct (G _ _ _ Hl ltac:(constructor)) as [H1 H2]. split_and!; [tauto|done|done|done].
  - injection E as <- <-. split_and!; [done|by constructor|done|done].
Qed.
End queries.

Lemma last_of_some fin d n j i : i < n -> N.of_nat j ∈ fin d i -> (forall i', i' < n -> N.of_nat j ∈ fin d i' -> i' <= i) ->
  last_of fin d n j = N.of_nat i.
Proof.
  induction n as [|n IH]; intros Hi Hj Hm; [lia|]. cbn [last_of]. case_decide as E.
  - pose proof (Hm n ltac:(lia) E). f_equal. lia.
  - destruct (decide (i = n)) as [->|Hn]; [done|]. apply IH; [lia|done|]. intros i' Hi'. apply Hm. lia.
Qed.
Lemma last_of_none fin d n j : (forall i, i < n -> N.of_nat j ∉ fin d i) -> last_of fin d n j = UINT_MAX.
Proof.
  induction n as [|n IH]; intros Hn; [done|]. cbn [last_of]. rewrite decide_False by (apply Hn; lia). apply IH. intros i Hi. apply Hn. lia.
Qed.

Section final.
Context (finite : N -> Prop) (fuel : nat) (m : mesh) (a : amesh).
Context (Hm : rr m a) (Hc : complete finite fuel m).

Local Notation fin := (final fuel m).

(** The mesh that is read. *)
Definition read : amesh :=
  stage a (repl_of fin) (from_of a fin) (mdim m) (fun _ => true) (fun _ => true) (fun d => length (am_names a d)) (fun _ => true).

Lemma read_num d : anum d read = anum d a.
Proof. unfold read, stage. by rewrite amap_num. Qed.
Lemma read_lookup d i : am_cells read d !! i =
  view a (repl_of fin) (from_of a fin) (fun _ => true) (fun d => length (am_names a d)) (fun _ => true) d i <$> am_cells a d !! i.
Proof. unfold read, stage. by rewrite amap_lookup. Qed.

Lemma upd_final d i x : am_cells a d !! i = Some x -> repl_of fin d i = None <-> ac_upd x = None.
Proof.
  intros Hx. unfold repl_of, final. rewrite (g_hasupdateds m a (proj2 Hm)). unfold look. rewrite Hx.
  destruct (cp_history _ _ _ Hc d i) as (b & l & E & _); [rewrite (g_num m a (proj2 Hm)); by eapply lookup_lt_Some|].
  rewrite E. destruct (query_leaves m a (proj2 Hm) fuel d _ b l E) as (Hn & _).
  destruct (ac_upd x) as [s|] eqn:Es.
  - rewrite bool_decide_true by (eexists; done). rewrite decide_False by done. done.
  - rewrite bool_decide_false by (by intros [? ?]). done.
Qed.

Lemma query_final d i b l : i < anum d a -> UpdatedQuery fuel d (N.of_nat i) m = Ok (b, l) -> fin d i = if b then [] else l.
Proof.
  intros Hi E. destruct (lookup_lt_is_Some_2 (am_cells a d) i Hi) as [x Hx]. unfold final.
  rewrite (g_hasupdateds m a (proj2 Hm)). unfold look. rewrite Hx.
  destruct (query_leaves m a (proj2 Hm) fuel d _ b l E) as (_ & _ & Ht & Hf). rewrite (upd_cell m a (proj2 Hm) d i x Hx) in *.
  destruct b.
  - destruct (Ht eq_refl) as [_ ->]. done.
  - destruct (ac_upd x); [|by destruct (Hf eq_refl)]. rewrite bool_decide_true by (eexists; done). by rewrite E.
Qed.

Lemma read_replaced m' d i j : rr m' read -> replaced_by d m' i j <-> i < anum d a /\ N.of_nat j ∈ fin d i.
Proof.
  intros Hm'. unfold replaced_by. split.
  - intros E.
    assert (Hij : i < anum d a /\ j < anum d a).
    { rewrite <- read_num, <- (g_num m' read (proj2 Hm')). unfold HasUpdated in E. apply bind_ok in E as (u & H1%require_ok & E).
      apply bind_ok in E as (u' & H2%require_ok & _). lia. }
    destruct Hij as [Hi Hj]. split; [done|]. rewrite (g_hasupdated m' read (proj2 Hm')) in E by (by rewrite read_num).
    rewrite read_lookup in E. destruct (am_cells a d !! i) as [x|] eqn:Hx; [|done]. cbn in E. unfold repl_of in E.
    case_decide; [done|]. injection E as E. apply bool_decide_eq_true in E. by apply elem_of_list_to_set in E.
  - intros [Hi Hin].
    assert (Hj : j < anum d a).
    { destruct (final_below finite fuel m Hc d i) as [Hf _]; [by rewrite (g_num m a (proj2 Hm))|].
      rewrite Forall_forall in Hf. specialize (Hf _ Hin). cbn in Hf. rewrite (g_num m a (proj2 Hm)) in Hf. lia. }
    rewrite (g_hasupdated m' read (proj2 Hm')) by (by rewrite read_num). rewrite read_lookup.
    destruct (lookup_lt_is_Some_2 (am_cells a d) i Hi) as [x Hx]. rewrite Hx. cbn. unfold repl_of.
    rewrite decide_False by (intros E; rewrite E in Hin; by apply elem_of_nil in Hin). f_equal. apply bool_decide_true.
    by apply elem_of_list_to_set.
Qed.

Lemma query_leaf m' d v : rr m' read -> (v < N.of_nat (anum d a))%N -> cupd (mcells m d) !! v = None ->
  forall fu, UpdatedQuery (S fu) d v m' = Ok (true, [v]).
Proof.
  intros Hm' Hv Hu fu. cbn [UpdatedQuery]. rewrite require_true by (rewrite (g_num m' read (proj2 Hm')), read_num; lia). cbn [mbind outcome_bind].
  destruct (lookup_lt_is_Some_2 (am_cells a d) (N.to_nat v)) as [x Hx]; [unfold anum in Hv; lia|].
  rewrite <- (N2Nat.id v) in Hu |- *. rewrite (upd_cell m a (proj2 Hm) d _ x Hx) in Hu.
  erewrite (upd_cell m' read (proj2 Hm') d); [|rewrite read_lookup, Hx; reflexivity]. cbn.
  by rewrite (proj2 (upd_final d (N.to_nat v) x Hx) Hu).
Qed.

Lemma query_loop m' d fu : rr m' read -> forall ss acc, Forall (fun v => (v < N.of_nat (anum d a))%N /\ cupd (mcells m d) !! v = None) ss ->
  ofold (fun acc ch => bl ← UpdatedQuery (S fu) d ch m'; Ok (acc ++ bl.2)) ss acc = Ok (acc ++ ss).
Proof.
  intros Hm' ss. induction ss as [|v ss IH]; intros acc Hs; [by rewrite app_nil_r|]. apply Forall_cons in Hs as [[H1 H2] Hs].
  cbn [ofold]. rewrite (query_leaf m' d v Hm' H1 H2). cbn [mbind outcome_bind snd]. rewrite IH by done. by rewrite <- app_assoc.
Qed.

Lemma read_query m' d i b l : rr m' read -> i < anum d a -> UpdatedQuery fuel d (N.of_nat i) m = Ok (b, l) ->
  exists l', UpdatedQuery 2 d (N.of_nat i) m' = Ok (b, l') /\ forall v, v ∈ l' <-> v ∈ l.
Proof.
  intros Hm' Hi E. destruct (query_leaves m a (proj2 Hm) fuel d _ b l E) as (Hn & Hl & Ht & Hf).
  pose proof (query_below m fuel d _ b l E) as Hb. destruct b.
  - destruct (Ht eq_refl) as [-> Hu]. exists [N.of_nat i]. split; [|done]. apply query_leaf; [done|lia|done].
  - exists (elements (list_to_set l : gset N)). split.
    2: { intros v. rewrite elem_of_elements. apply elem_of_list_to_set. }
    cbn [UpdatedQuery]. rewrite require_true by (rewrite (g_num m' read (proj2 Hm')), read_num; lia). cbn [mbind outcome_bind].
    destruct (lookup_lt_is_Some_2 (am_cells a d) i Hi) as [x Hx].
    erewrite (upd_cell m' read (proj2 Hm') d i); [|rewrite read_lookup, Hx; reflexivity]. cbn [ac_upd view].
    unfold repl_of. rewrite (query_final d i false l Hi E). rewrite decide_False by done.
    rewrite (query_loop m' d 0 Hm' _ []); [done|].
    apply Forall_forall. intros v Hv. apply elem_of_elements, elem_of_list_to_set in Hv. rewrite Forall_forall in Hl, Hb. split; [|by apply Hl].
    rewrite <- (g_num m a (proj2 Hm)). by apply Hb.
Qed.

Lemma read_read_back m' : rr m' read -> read_back fuel m m'.
Proof.
  intros Hm'. pose proof (proj2 Hm) as H. pose proof (proj2 Hm') as H'. split.
  - rewrite (r_dim _ _ H'). done.
  - intros d. by rewrite (g_num m' read H'), (g_num m a H), read_num.
  - intros i. rewrite (g_coord m' read H'), (g_coord m a H). unfold look. rewrite read_lookup. by destruct (am_cells a D0 !! i).
  - intros e. rewrite (g_origin m' read H'), (g_origin m a H), (g_end m' read H'), (g_end m a H). unfold look. rewrite read_lookup.
    by destruct (am_cells a D1 !! e).
  - intros d i. rewrite (g_marker m' read H'), (g_marker m a H), (g_active m' read H'), (g_active m a H). unfold look. rewrite read_lookup.
    by destruct (am_cells a d !! i).
  - intros r i Hr. rewrite (g_row m' read H'), (g_row m a H). unfold look. rewrite read_lookup. destruct (am_cells a (src r) !! i); [|done].
    cbn. unfold row_of. cbn. rewrite decide_True by done. unfold kept. by rewrite Hr.
  - intros r i Hr. rewrite (g_row m' read H'), (g_row m a H), (g_num m a H). unfold look. rewrite read_lookup.
    destruct (am_cells a (src r) !! i); [|done].
    cbn. unfold row_of. cbn. rewrite decide_True by done. unfold kept. by rewrite Hr.
  - intros d. rewrite (ids_names m' read H'), (ids_names m a H). unfold read, stage. cbn. by rewrite take_ge by lia.
  - assert (En : forall d, length (am_names read d) = length (am_names a d)).
    { intros d. unfold read, stage. cbn. by rewrite take_ge by lia. }
    assert (Ep : forall d i p x, am_cells a d !! i = Some x ->
      prop_of p (view a (repl_of fin) (from_of a fin) (fun _ => true) (fun d => length (am_names a d)) (fun _ => true) d i x) = prop_of p x).
    { intros d i p x Hx. unfold prop_of. cbn. rewrite take_ge; [done|]. rewrite (prop_row_len m a d i x H Hx). lia. }
    intros d i p. split.
    + rewrite (g_propsize m' read H'), (g_propsize m a H), read_lookup. destruct (am_cells a d !! i) as [x|] eqn:Hx; [|done].
      cbn [fmap option_fmap option_map]. rewrite (Ep d i p x Hx). by rewrite En.
    + intros k. rewrite (g_propvalue m' read H'), (g_propvalue m a H), read_lookup. destruct (am_cells a d !! i) as [x|] eqn:Hx; [|done].
      cbn [fmap option_fmap option_map]. rewrite (Ep d i p x Hx). by rewrite En.
  - intros d i. rewrite (g_hasupdateds m' read H'), (g_hasupdateds m a H). unfold look. rewrite read_lookup.
    destruct (am_cells a d !! i) as [x|] eqn:Hx; [|done]. cbn. f_equal. apply bool_decide_ext.
    pose proof (upd_final d i x Hx) as Hu. destruct (repl_of fin d i), (ac_upd x); split; intros [y E]; try done; eauto;
      by (destruct Hu as [Hu1 Hu2]; first [discriminate (Hu1 eq_refl)|discriminate (Hu2 eq_refl)]).
  - intros d i b l Hi E. rewrite (g_num m a H) in Hi. split; [by apply read_query|]. intros j.
    rewrite (read_replaced m' d i j Hm'), (query_final d i b l Hi E). destruct b.
    + split; [intros [_ Hx]; by apply elem_of_nil in Hx|by intros [? _]].
    + tauto.
  - intros d j Hd Hj. rewrite (g_num m a H) in Hj. rewrite (g_original m' read H' d j Hd). unfold look. rewrite read_lookup.
    destruct (lookup_lt_is_Some_2 (am_cells a d) j Hj) as [x ->]. cbn. unfold from_of. rewrite decide_False by done. split.
    + intros i [Hi Hin]%(read_replaced m' d i j Hm') Hmax. f_equal. apply last_of_some; [done..|].
      intros i' Hi' Hin'. apply Hmax. by apply read_replaced.
    + intros Hn. f_equal. apply last_of_none. intros i Hi Hin. apply (Hn i). by apply read_replaced.
Qed.
End final.

(** ** Export and import *)

Section roundtrip.
Context (k : codec) (c : configuration) (finite : N -> Prop) (fuel : nat) (m : mesh) (a : amesh).
Context (Hm : rr m a) (Hc : complete finite fuel m) (Hu : suits c m) (Hk : codec_ok k (Separator c) finite) (Hr : regular m).

Local Notation sep := (Separator c).
Local Notation fin := (final fuel m).

Definition file0 : text := content sep (map txt ["Id"; "Marker"; "Active"; "X"; "Y"; "Z"] :: imap (fields0 k) (am_cells a D0)).
Definition file1 : text := content sep (map txt ["Id"; "Marker"; "Active"; "Origin"; "End"] :: imap fields1 (am_cells a D1)).
Definition file2 : text := content sep (map txt ["Id"; "Marker"; "Active"; "NumVertices"; "Vertices"; "NumEdges"; "Edges"] ::
                                        imap (fields2 [V2; E2]) (am_cells a D2)).
Definition file3 : text := content sep (map txt ["Id"; "Marker"; "Active"; "NumVertices"; "Vertices"; "NumEdges"; "Edges"; "NumFaces"; "Faces"] ::
                                        imap (fields2 [V3; E3; F3]) (am_cells a D3)).
Definition neigh0 : text := content sep (map txt ["Id"; "Num1DNeighbours"; "1DNeighbours"; "Num2DNeighbours"; "2DNeighbours"; "Num3DNeighbours"; "3DNeighbours"] ::
                                         imap (fields3 [R01; R02; R03]) (am_cells a D0)).
Definition neigh1 : text := content sep (map txt ["Id"; "Num2DNeighbours"; "2DNeighbours"; "Num3DNeighbours"; "3DNeighbours"] ::
                                         imap (fields3 [R12; R13]) (am_cells a D1)).
Definition neigh2 : text := content sep (map txt ["Id"; "Num3DNeighbours"; "3DNeighbours"] :: imap (fields3 [R23]) (am_cells a D2)).
Definition subdiv : text := content sep (map txt ["Id"; "NumSubDivision"; "SubDivisions"] :: imap (fields3 [S2]) (am_cells a D2)).
Definition updated (d : dim) : text := content sep (map txt ["Id"; "NumUpdatedCells"; "UpdatedCells"] ::
                   imap (fun i _ => show_nat i :: lists_fields [fin d i]) (am_cells a d)).
Definition props_of (d : dim) : list (text * text) :=
  (path c (FileProperties c d), list_file c a d) ::
  imap (fun p id => (Folder c ++ txt "/" ++ property_file c d id, value_file k c a d p)) (am_names a d).

Definition all_files : list (text * text) :=
  [(path c (FileCells c D0), file0); (path c (FileCells c D1), file1); (path c (FileCells c D2), file2); (path c (FileCells c D3), file3)]
  ++ props_of D0 ++ props_of D1 ++ props_of D2 ++ props_of D3 ++
  [(path c (FileNeighbours c D0), neigh0); (path c (FileNeighbours c D1), neigh1); (path c (FileNeighbours c D2), neigh2);
   (path c (FileSubDivisions c), subdiv);
   (path c (FileUpdated c D0), updated D0); (path c (FileUpdated c D1), updated D1); (path c (FileUpdated c D2), updated D2);
   (path c (FileUpdated c D3), updated D3)].

Lemma exported_files : exported k fuel c m = Ok all_files.
Proof.
  pose proof (proj2 Hm) as H. unfold exported.
  rewrite (export0 k sep m a H). cbn [mbind outcome_bind]. rewrite (export1 sep m a H). cbn [mbind outcome_bind].
  unfold ExportCell2Ds. rewrite (export2 sep m a H) by (by repeat constructor). cbn [mbind outcome_bind].
  unfold ExportCell3Ds. rewrite (export2 sep m a H) by (by repeat constructor). cbn [mbind outcome_bind].
  rewrite (export_properties k c m a H D0). cbn [mbind outcome_bind].
  rewrite (export_properties k c m a H D1). cbn [mbind outcome_bind].
  rewrite (export_properties k c m a H D2). cbn [mbind outcome_bind].
  rewrite (export_properties k c m a H D3). cbn [mbind outcome_bind].
  unfold ExportCell0DNeighbours. rewrite (export3 sep m a H) by (by repeat constructor). cbn [mbind outcome_bind].
  unfold ExportCell1DNeighbours. rewrite (export3 sep m a H) by (by repeat constructor). cbn [mbind outcome_bind].
  unfold ExportCell2DNeighbours. rewrite (export3 sep m a H) by (by repeat constructor). cbn [mbind outcome_bind].
  unfold ExportCell2DSubDivisions. rewrite (export3 sep m a H) by (by repeat constructor). cbn [mbind outcome_bind].
  rewrite !(export_updated sep finite fuel m a H Hc). reflexivity.
Qed.

Lemma paths_files : map fst all_files = paths c m.
Proof.
  assert (E : forall d, map fst (props_of d) = property_paths c d m).
  { intros d. unfold props_of, property_paths. cbn [map fst]. f_equal. rewrite map_imap, (ids_names m a (proj2 Hm)).
    apply (imap_const (fun id => Folder c ++ txt "/" ++ property_file c d id)). }
  unfold all_files, paths. rewrite !map_app, !E. reflexivity.
Qed.

Section import.
Context (fs : files).
Local Notation fs' := (write fs all_files).

Lemma found p t : (p, t) ∈ all_files -> fs' !! p = Some t.
Proof. apply write_in. rewrite paths_files. apply (su_paths _ _ Hu). Qed.

Lemma found_all :
  (fs' !! path c (FileCells c D0) = Some file0 /\ fs' !! path c (FileCells c D1) = Some file1 /\
   fs' !! path c (FileCells c D2) = Some file2 /\ fs' !! path c (FileCells c D3) = Some file3) /\
  (fs' !! path c (FileNeighbours c D0) = Some neigh0 /\ fs' !! path c (FileNeighbours c D1) = Some neigh1 /\
   fs' !! path c (FileNeighbours c D2) = Some neigh2 /\ fs' !! path c (FileSubDivisions c) = Some subdiv) /\
  (fs' !! path c (FileUpdated c D0) = Some (updated D0) /\ fs' !! path c (FileUpdated c D1) = Some (updated D1) /\
   fs' !! path c (FileUpdated c D2) = Some (updated D2) /\ fs' !! path c (FileUpdated c D3) = Some (updated D3)).
Proof. split_and!; apply found; unfold all_files; rewrite ?elem_of_app, ?elem_of_cons; tauto. Qed.

Lemma read_props d : ImportCellDoubleProperties k sep fs' (path c (FileProperties c d)) =
  Ok (imap (fun p id => (id, imap (fun i x => (N.of_nat i, prop_of p x)) (am_cells a d))) (am_names a d)).
Proof.
  assert (Hin : forall w, w ∈ props_of d -> w ∈ all_files).
  { intros w Hw. unfold all_files. rewrite !elem_of_app. destruct d; tauto. }
  apply (import_properties k c finite fuel m a (proj2 Hm) Hc Hu Hk).
  - apply found, Hin. apply elem_of_list_here.
  - intros p id Hp. apply found, Hin. apply elem_of_list_further. apply elem_of_list_lookup. exists p. by rewrite list_lookup_imap, Hp.
Qed.

Definition on0 : dim -> bool := upd_fun off D0 true.
Definition on1 : dim -> bool := upd_fun on0 D1 true.
Definition on2 : dim -> bool := upd_fun on1 D2 true.
Definition all_on : dim -> bool := upd_fun on2 D3 true.

Lemma Import_read : exists m', Import k c fs' empty_mesh = Ok m' /\ rr m' (read fuel m a).
Proof.
  pose proof (proj2 Hm) as H. pose proof (su_separator _ _ Hu) as Hs.
  pose proof (geo_len m a H) as Hgeo.
  assert (Hbelow : forall r i x, is_neighbour r = false -> am_cells a (src r) !! i = Some x -> all_below (anum (tgt r) a) (row_of r x)).
  { intros r i x. apply (below_row finite fuel m a H Hc). }
  pose proof (same_sides finite fuel m a H Hc) as Hsides.
  assert (Hprops : forall d i x, am_cells a d !! i = Some x -> length (ac_prop x) = length (am_names a d)).
  { intros d i x. apply (prop_row_len m a d i x H). }
  assert (Hnames : forall d, NoDup (am_names a d)).
  { intros d. apply (rp_nodup _ _ _ (rc_props _ _ _ _ _ _ _ _ _ (r_cells _ _ H d))). }
  assert (Hne : forall d, am_names a d <> [] -> am_cells a d <> []).
  { intros d Hd E. apply (cp_properties _ _ _ Hc d); [by rewrite (ids_names m a H)|]. rewrite (g_num m a H). unfold anum. by rewrite E. }
  assert (Hfin : forall d i v, i < anum d a -> v ∈ fin d i -> (v < N.of_nat (anum d a))%N).
  { intros d i v Hi Hv. rewrite <- (g_num m a H) in Hi |- *. destruct (final_below finite fuel m Hc d i Hi) as [Hf _].
    rewrite Forall_forall in Hf. by apply Hf. }
  set (repl := repl_of fin). set (from := from_of a fin).
  assert (H0 : rr empty_mesh (stage a repl from 0 off off none off)).
  { eapply rr_aeq; [split; [apply reach_empty|apply represents_empty]|]. apply aeq_intro; [done|done| |].
    - intros d. unfold stage. by rewrite amap_num.
    - intros d i x y. done. }
  unfold Import.
  destruct found_all as ((F1 & F2 & G3 & F4) & (F5 & F6 & F7 & F8) & (F9 & F10 & F11 & F12)).
  rewrite F1, F2, G3, F4, F5, F6, F7, F8, F9, F10, F11, F12, !read_props. clear F1 F2 G3 F4 F5 F6 F7 F8 F9 F10 F11 F12.
  unfold file0 at 1. rewrite (import0 k sep finite fuel m a H Hc Hs Hk). cbn [mbind outcome_bind].
  unfold file1 at 1. rewrite (import1 sep finite fuel m a H Hc Hs). cbn [mbind outcome_bind].
  unfold file2 at 1. rewrite (import2 sep finite fuel m a H Hc Hs D2 [V2; E2]) by (first [by repeat constructor|by apply header_line]). cbn [mbind outcome_bind].
  unfold file3 at 1. rewrite (import2 sep finite fuel m a H Hc Hs D3 [V3; E3; F3]) by (first [by repeat constructor|by apply header_line]). cbn [mbind outcome_bind].
  destruct (does_Cell0Ds a repl from Hgeo 0 off off eq_refl ltac:(done) _ H0) as (m1 & E1 & H1). rewrite E1. cbn [mbind outcome_bind]. clear E1.
  destruct (does_Cell1Ds a repl from Hgeo 0 on0 (plus off []) eq_refl ltac:(by intros []) _ H1) as (m2 & E2 & H2).
  rewrite E2. cbn [mbind outcome_bind]. clear E2.
  destruct (does_Cell2Ds a repl from Hgeo Hbelow Hsides 0 on1 (plus (plus off []) []) eq_refl eq_refl eq_refl ltac:(by intros []) _ H2) as (m3 & E3 & H3).
  rewrite E3. cbn [mbind outcome_bind]. clear E3.
  destruct (does_Cell3Ds a repl from Hgeo Hbelow Hsides 0 on2 (plus (plus (plus off []) []) [V2; E2]) eq_refl eq_refl eq_refl eq_refl ltac:(by intros [] ) _ H3) as (m4 & E4 & H4).
  rewrite E4. cbn [mbind outcome_bind]. clear E4.
  fold all_on in H4.
  assert (Hon : forall d, all_on d = true) by (by intros []).
  assert (Hnum : forall d, num d m4 = num d m).
  { intros d. rewrite (g_num _ _ (proj2 H4)), (g_num m a H). unfold stage. rewrite amap_num. unfold anum. by rewrite base_on. }
  assert (Ed : FindDimension m4 = Ok (mdim m)).
  { unfold FindDimension. rewrite !Hnum. clear - Hr. destruct Hr as (N0 & N1 & HN).
    destruct (num D0 m), (num D1 m), (num D2 m), (num D3 m); try done; destruct HN as [(-> & ? & ?)|[(-> & ? & ?)|(-> & ? & ?)]]; done. }
  rewrite Ed. cbn [mbind outcome_bind].
  destruct (does_InitDimension (mdim m) _ _ _ H4) as (m5 & E5 & H5). injection E5 as E5. rewrite E5. clear E5.
  set (rels5 := plus (plus (plus (plus off []) []) [V2; E2]) [V3; E3; F3]) in *.
  change (rr m5 (stage a repl from (mdim m) all_on rels5 none off)) in H5.
  destruct (does_Properties a repl from Hprops Hnames (mdim m) all_on rels5 none off D0 eq_refl eq_refl (Hne D0) _ H5) as (m6 & E6 & H6).
  rewrite E6. cbn [mbind outcome_bind]. clear E6.
  destruct (does_Properties a repl from Hprops Hnames _ _ _ _ _ D1 eq_refl eq_refl (Hne D1) _ H6) as (m7 & E7 & H7).
  rewrite E7. cbn [mbind outcome_bind]. clear E7.
  destruct (does_Properties a repl from Hprops Hnames _ _ _ _ _ D2 eq_refl eq_refl (Hne D2) _ H7) as (m8 & E8 & H8).
  rewrite E8. cbn [mbind outcome_bind]. clear E8.
  destruct (does_Properties a repl from Hprops Hnames _ _ _ _ _ D3 eq_refl eq_refl (Hne D3) _ H8) as (m9 & E9 & H9).
  rewrite E9. cbn [mbind outcome_bind]. clear E9.
  set (np := upd_fun (upd_fun (upd_fun (upd_fun none D0 _) D1 _) D2 _) D3 _) in H9.
  unfold neigh0. rewrite (import3 sep finite fuel m a H Hc Hs D0 [R01; R02; R03]) by (first [by repeat constructor|by apply header_line]). cbn [mbind outcome_bind].
  unfold neigh1. rewrite (import3 sep finite fuel m a H Hc Hs D1 [R12; R13]) by (first [by repeat constructor|by apply header_line]). cbn [mbind outcome_bind].
  unfold neigh2. rewrite (import3 sep finite fuel m a H Hc Hs D2 [R23]) by (first [by repeat constructor|by apply header_line]). cbn [mbind outcome_bind].
  destruct (does_Neighbours a repl from (mdim m) all_on rels5 np off D0 [R01; R02; R03] Hon) with (m := m9) as (m10 & E10 & H10); [|  |done|].
  { repeat constructor; set_solver. }
  { intros r Hin. rewrite !elem_of_cons, elem_of_nil in Hin. destruct Hin as [-> | [-> | [-> | []]]]; done. }
  rewrite E10. cbn [mbind outcome_bind]. clear E10.
  destruct (does_Neighbours a repl from (mdim m) all_on (plus rels5 [R01; R02; R03]) np off D1 [R12; R13] Hon) with (m := m10)
    as (m11 & E11 & H11); [|  |done|].
  { repeat constructor; set_solver. }
  { intros r Hin. rewrite !elem_of_cons, elem_of_nil in Hin. destruct Hin as [-> | [-> | []]]; done. }
  rewrite E11. cbn [mbind outcome_bind]. clear E11.
  destruct (does_Neighbours a repl from (mdim m) all_on (plus (plus rels5 [R01; R02; R03]) [R12; R13]) np off D2 [R23] Hon) with (m := m11)
    as (m12 & E12 & H12); [|  |done|].
  { repeat constructor; set_solver. }
  { intros r Hin. rewrite !elem_of_cons, elem_of_nil in Hin. destruct Hin as [-> | []]; done. }
  rewrite E12. cbn [mbind outcome_bind]. clear E12.
  unfold subdiv. rewrite (import3 sep finite fuel m a H Hc Hs D2 [S2]) by (first [by repeat constructor|by apply header_line]). cbn [mbind outcome_bind].
  destruct (does_SubDivisions a repl from Hbelow (mdim m) all_on (plus (plus (plus rels5 [R01; R02; R03]) [R12; R13]) [R23]) np off Hon eq_refl _ H12)
    as (m13 & E13 & H13).
  rewrite E13. cbn [mbind outcome_bind]. clear E13.
  unfold updated. rewrite !(import_updated sep finite fuel m a H Hc Hs). cbn [mbind outcome_bind].
  set (rels13 := plus _ [S2]) in H13.
  pose (up0 := upd_fun off D0 true : dim -> bool). pose (up1 := upd_fun up0 D1 true : dim -> bool). pose (up2 := upd_fun up1 D2 true : dim -> bool).
  destruct (does_Updateds a fin Hfin (mdim m) all_on rels13 np off D0 eq_refl eq_refl _ H13) as (m14 & E14 & H14).
  rewrite E14. cbn [mbind outcome_bind]. clear E14.
  destruct (does_Updateds a fin Hfin (mdim m) all_on rels13 np up0 D1 eq_refl eq_refl _ H14) as (m15 & E15 & H15).
  rewrite E15. cbn [mbind outcome_bind]. clear E15.
  destruct (does_Updateds a fin Hfin (mdim m) all_on rels13 np up1 D2 eq_refl eq_refl _ H15) as (m16 & E16 & H16).
  rewrite E16. cbn [mbind outcome_bind]. clear E16.
  destruct (does_Updateds a fin Hfin (mdim m) all_on rels13 np up2 D3 eq_refl eq_refl _ H16) as (m17 & E17 & H17).
  rewrite E17. cbn [mbind outcome_bind]. clear E17.
  exists m17. split; [done|]. eapply rr_aeq; [exact H17|]. apply (stage_ext a (repl_of fin) (from_of a fin) Hprops).
  - by intros [].
  - by intros [].
  - by intros [].
  - by intros [].
  - by intros [].
Qed.
End import.

Lemma round_trip fs : exists fs' m', Export k fuel c m fs = Ok fs' /\ Import k c fs' empty_mesh = Ok m' /\ read_back fuel m m'.
Proof.
  destruct (Import_read fs) as (m' & E & H'). exists (write fs all_files), m'. split_and!.
  - unfold Export. by rewrite exported_files.
  - done.
  - by apply (read_read_back finite fuel m a Hm Hc).
Qed.
End roundtrip.

Theorem csv_round_trip k c finite fuel m fs :
  reachable m -> complete finite fuel m -> regular m -> suits c m -> codec_ok k (Separator c) finite ->
  exists fs' m', Export k fuel c m fs = Ok fs' /\ Import k c fs' empty_mesh = Ok m' /\ read_back fuel m m'.
Proof.
  intros Hm Hc Hr Hu Hk. destruct (rr_of m Hm) as [a Ha]. by apply (round_trip k c finite fuel m a).
Qed.
