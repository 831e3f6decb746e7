(** What the files of a mesh hold, and that they are read back row by row. *)
From Verif Require Import Base BaseProof StringsModel StringsProof CsrModel CsrSpec MeshModel MeshSpec MeshRep MeshHist
  MeshProof MeshProof2 MeshProof3 MeshProof4 MeshProof5 MeshProof6 MeshProof7 MeshProof8 MeshProg CsvModel CsvSpec CsvText.
From Coq Require Import Ascii ZifyBool ZifyNat ZifyN.

Lemma omapM_seq {A B} (f : nat -> outcome B) (g : nat -> A -> B) (l : list A) :
  (forall i x, l !! i = Some x -> f i = Ok (g i x)) -> omapM f (seq 0 (length l)) = Ok (imap g l).
Proof.
  intros Hf. apply omapM_ok. apply Forall2_same_length_lookup. split; [by rewrite seq_length, imap_length|].
  intros i k v Hk Hv. apply lookup_seq in Hk as [-> _]. rewrite list_lookup_imap in Hv. cbn [Nat.add].
  destruct (l !! i) as [x|] eqn:E; [|done]. injection Hv as <-. by apply Hf.
Qed.

Lemma omapM_imap {A B C} (f : B -> outcome C) (h : nat -> A -> B) (g : nat -> A -> C) (l : list A) :
  (forall i x, l !! i = Some x -> f (h i x) = Ok (g i x)) -> omapM f (imap h l) = Ok (imap g l).
Proof.
  intros Hf. apply omapM_ok. apply Forall2_same_length_lookup. split; [by rewrite !imap_length|].
  intros i k v Hk Hv. rewrite list_lookup_imap in Hk. rewrite list_lookup_imap in Hv. destruct (l !! i) as [x|] eqn:E; [|done].
  injection Hk as <-. injection Hv as <-. by apply Hf.
Qed.

Lemma map_imap {A B C} (f : B -> C) (h : nat -> A -> B) (l : list A) : map f (imap h l) = imap (fun i x => f (h i x)) l.
Proof. change (map f (imap h l)) with (f <$> imap h l). by rewrite fmap_imap. Qed.

Lemma Forall_imap_intro {A B} (P : B -> Prop) (h : nat -> A -> B) (l : list A) :
  (forall i x, l !! i = Some x -> P (h i x)) -> Forall P (imap h l).
Proof.
  intros H. apply Forall_forall. intros y [i Hi]%elem_of_list_lookup. rewrite list_lookup_imap in Hi.
  destruct (l !! i) as [x|] eqn:E; [|done]. injection Hi as <-. by apply H.
Qed.

(** A file of one line for each element of [l]. *)
Lemma import_file {A B} (parse : text -> outcome B) sep header (h : nat -> A -> list text) (g : nat -> A -> B) (l : list A) :
  separator_ok sep -> Forall (fun t => newline ∉ t) header ->
  (forall i x, l !! i = Some x -> Forall (fun t => newline ∉ t) (h i x)) ->
  (forall i x, l !! i = Some x -> parse (join sep (h i x)) = Ok (g i x)) ->
  import_rows parse (Some (content sep (header :: imap h l))) = Ok (imap g l).
Proof.
  intros Hs Hh Hl Hp.
  assert (Hn : sep <> newline) by (destruct Hs as [_ [->|Hs]]; [done|intros ->; done]).
  rewrite import_content; [|by apply join_line|apply Forall_imap_intro; intros i x Hx; by apply join_line, (Hl i x)].
  rewrite map_imap. by apply (omapM_imap parse (fun i x => join sep (h i x))).
Qed.

Section rows.
Context (k : codec) (sep : ascii) (finite : N -> Prop) (fuel : nat) (m : mesh) (a : amesh).
Context (H : represents m a) (Hc : complete finite fuel m) (Hs : separator_ok sep) (Hk : codec_ok k sep finite).

(** ** The facts of [complete], on the abstract mesh *)

Lemma fits_index d i x : am_cells a d !! i = Some x -> fits (N.of_nat i).
Proof.
  intros Hx. pose proof (cp_num _ _ _ Hc d) as Hn. rewrite (g_num m a H) in Hn. apply lookup_lt_Some in Hx.
  unfold fits, anum in *. lia.
Qed.
Lemma fits_mark d i x : am_cells a d !! i = Some x -> fits (ac_mark x).
Proof. intros Hx. apply (cp_marker _ _ _ Hc d i). rewrite (g_marker m a H). unfold look. by rewrite Hx. Qed.
Lemma fits_row r i x : am_cells a (src r) !! i = Some x -> Forall fits (row_of r x) /\ fits (N.of_nat (length (row_of r x))).
Proof. intros Hx. destruct (cp_entries _ _ _ Hc r i (row_of r x)); [|done]. rewrite (g_row m a H). unfold look. by rewrite Hx. Qed.
Lemma below_row r i x : is_neighbour r = false -> am_cells a (src r) !! i = Some x -> all_below (anum (tgt r) a) (row_of r x).
Proof.
  intros Hr Hx. apply Forall_forall. intros v Hv. rewrite <- (g_num m a H). apply (cp_cells _ _ _ Hc r i (row_of r x) v Hr); [|done].
  rewrite (g_row m a H). unfold look. by rewrite Hx.
Qed.
Lemma same_sides i x : am_cells a D2 !! i = Some x -> length (row_of V2 x) = length (row_of E2 x).
Proof. intros Hx. apply (cp_polygons _ _ _ Hc i); rewrite (g_row m a H); unfold look; cbn [src]; by rewrite Hx. Qed.
Lemma geo_finite i x : am_cells a D0 !! i = Some x ->
  exists p q s, ac_geo x = [p; q; s] /\ geo_triple x = (p, q, s) /\ finite p /\ finite q /\ finite s.
Proof.
  intros Hx. destruct (geo3 m a H i x Hx) as (p & q & s & E). exists p, q, s.
  assert (Et : geo_triple x = (p, q, s)) by (unfold geo_triple; by rewrite E). split_and!; [done..| | |].
  all: destruct (cp_coordinates _ _ _ Hc i p q s) as (? & ? & ?); try done; rewrite (g_coord m a H); unfold look; by rewrite Hx, Et.
Qed.
Lemma geo_fits i x : am_cells a D1 !! i = Some x ->
  exists o t, ac_geo x = [o; t] /\ geo_pair x = (o, t) /\ fits o /\ fits t.
Proof.
  intros Hx. destruct (geo2 m a H i x Hx) as (o & t & E). exists o, t.
  assert (Et : geo_pair x = (o, t)) by (unfold geo_pair; by rewrite E). split_and!; [done..| |].
  - apply (cp_origin _ _ _ Hc i). rewrite (g_origin m a H). unfold look. by rewrite Hx, Et.
  - apply (cp_end _ _ _ Hc i). rewrite (g_end m a H). unfold look. by rewrite Hx, Et.
Qed.
Lemma prop_fits d i x p : am_cells a d !! i = Some x -> p < length (am_names a d) ->
  fits (N.of_nat (length (prop_of p x))) /\ Forall finite (prop_of p x).
Proof.
  intros Hx Hp. split.
  - apply (cp_sizes _ _ _ Hc d i p). rewrite (g_propsize m a H), Hx. by rewrite decide_True.
  - apply Forall_lookup. intros j v Hv. apply (cp_values _ _ _ Hc d i p j). rewrite (g_propvalue m a H), Hx.
    rewrite decide_True by done. by rewrite Hv.
Qed.
Lemma ids_names d : PropertyIds d m = am_names a d.
Proof. apply (rp_ids _ _ _ (rc_props _ _ _ _ _ _ _ _ _ (r_cells _ _ H d))). Qed.

Lemma seq_cells d : seq 0 (num d m) = seq 0 (length (am_cells a d)).
Proof. by rewrite (g_num m a H). Qed.

(** ** Vertices *)

Definition fields0 (i : nat) (x : acell) : list text :=
  let '(p, q, s) := geo_triple x in
  [show_nat i; show_N (ac_mark x); show_bool (ac_act x); put_double k p; put_double k q; put_double k s].

Lemma header_line (l : list string) : forallb (fun s => forallb (fun c => negb (code c =? 10)%N) (txt s)) l = true ->
  Forall (fun t => newline ∉ t) (map txt l).
Proof.
  intros Hf. apply Forall_forall. intros t (s & <- & Hin)%elem_of_list_In%in_map_iff.
  rewrite forallb_forall in Hf. specialize (Hf s Hin). rewrite forallb_forall in Hf.
  intros Hn%elem_of_list_In. by apply Hf in Hn.
Qed.

Lemma export0 : ExportCell0Ds k sep m =
  Ok (content sep (map txt ["Id"; "Marker"; "Active"; "X"; "Y"; "Z"] :: imap fields0 (am_cells a D0))).
Proof.
  unfold ExportCell0Ds. rewrite seq_cells. rewrite (omapM_seq _ fields0); [done|].
  intros i x Hx. rewrite (g_marker m a H), (g_active m a H), (g_coord m a H). unfold look. rewrite Hx.
  cbn [mbind outcome_bind]. unfold fields0. by destruct (geo_triple x) as [[p q] s].
Qed.

(* to read the next value of a row *)
Ltac ready := first [apply ready_start|apply ready_rest; [done|]];
  repeat (constructor; [solve [auto using show_clean, show_bool_clean, lists_fields_clean]|]); auto using lists_fields_clean.
Ltac uint H := erewrite (uint_ready sep _ _ _ Hs); [|exact H|ready]; cbn [mbind outcome_bind].
Ltac flag := erewrite (bool_ready sep _ _ _ Hs); [|ready]; cbn [mbind outcome_bind].
Ltac real H := erewrite (real_ready k sep finite _ _ _ Hk); [|exact H|ready]; cbn [mbind outcome_bind].

Lemma import0 :
  ImportCell0Ds k sep (Some (content sep (map txt ["Id"; "Marker"; "Active"; "X"; "Y"; "Z"] :: imap fields0 (am_cells a D0)))) =
  Ok (imap (fun i x => (N.of_nat i, ac_mark x, ac_act x, geo_triple x)) (am_cells a D0)).
Proof.
  unfold ImportCell0Ds. apply import_file; [done|by apply header_line| |].
  - intros i x Hx. destruct (geo_finite i x Hx) as (p & q & s & _ & E & Hp & Hq & Hz). unfold fields0. rewrite E.
    repeat constructor; try apply show_line; try apply show_bool_line; by apply (co_line _ _ _ Hk).
  - intros i x Hx. destruct (geo_finite i x Hx) as (p & q & s & _ & E & Hp & Hq & Hz). unfold fields0. rewrite E.
    pose proof (fun v Hv => real_clean k sep finite v Hk Hv) as Hcl. pose proof (fits_index _ _ _ Hx) as Hi. pose proof (fits_mark _ _ _ Hx) as Hm.
    unfold show_nat.
    uint Hi.
    uint Hm.
    flag.
    real Hp.
    real Hq.
    real Hz. done.
Qed.

(** ** Edges *)

Definition fields1 (i : nat) (x : acell) : list text :=
  let '(o, t) := geo_pair x in [show_nat i; show_N (ac_mark x); show_bool (ac_act x); show_N o; show_N t].

Lemma export1 : ExportCell1Ds sep m =
  Ok (content sep (map txt ["Id"; "Marker"; "Active"; "Origin"; "End"] :: imap fields1 (am_cells a D1))).
Proof.
  unfold ExportCell1Ds. rewrite seq_cells. rewrite (omapM_seq _ fields1); [done|].
  intros i x Hx. rewrite (g_marker m a H), (g_active m a H), (g_origin m a H), (g_end m a H). unfold look. rewrite Hx.
  cbn [mbind outcome_bind]. unfold fields1. by destruct (geo_pair x) as [o t].
Qed.

Lemma import1 :
  ImportCell1Ds sep (Some (content sep (map txt ["Id"; "Marker"; "Active"; "Origin"; "End"] :: imap fields1 (am_cells a D1)))) =
  Ok (imap (fun i x => (N.of_nat i, ac_mark x, ac_act x, geo_pair x)) (am_cells a D1)).
Proof.
  unfold ImportCell1Ds. apply import_file; [done|by apply header_line| |].
  - intros i x Hx. unfold fields1. destruct (geo_pair x) as [o t].
    repeat constructor; try apply show_line; try apply show_bool_line.
  - intros i x Hx. destruct (geo_fits i x Hx) as (o & t & _ & E & Ho & Ht). unfold fields1. rewrite E.
    pose proof (fits_index _ _ _ Hx) as Hi. pose proof (fits_mark _ _ _ Hx) as Hm. unfold show_nat.
    uint Hi.
    uint Hm.
    flag.
    uint Ho.
    uint Ht.
    done.
Qed.

(** ** Attributes *)

Lemma entry_ok r i x : am_cells a (src r) !! i = Some x -> entry_fields r i m = Ok (list_fields (row_of r x)).
Proof.
  intros Hx. unfold entry_fields. rewrite (g_count m a H). unfold look. rewrite Hx. cbn [mbind outcome_bind]. rewrite Nat2N.id.
  rewrite (omapM_seq_get _ (row_of r x)); [done|]. intros j v Hv. rewrite (g_get m a H), Hx. unfold row_of in Hv. by rewrite Hv.
Qed.

Definition lists_of (rs : list rel) (x : acell) : list (list N) := map (fun r => row_of r x) rs.

Lemma entries_ok d rs i x : am_cells a d !! i = Some x -> Forall (fun r => src r = d) rs ->
  entries_fields rs i m = Ok (lists_fields (lists_of rs x)).
Proof.
  intros Hx Hrs. unfold entries_fields, lists_fields, lists_of.
  assert (E : omapM (fun r => entry_fields r i m) rs = Ok (map list_fields (map (fun r => row_of r x) rs))).
  { apply omapM_ok. rewrite map_map. induction Hrs as [|r rs Hr _ IH]; [constructor|]. cbn. constructor; [|done].
    apply entry_ok. by rewrite Hr. }
  by rewrite E.
Qed.

Lemma lists_fits d rs i x : am_cells a d !! i = Some x -> Forall (fun r => src r = d) rs ->
  Forall (fun vs => Forall fits vs /\ fits (N.of_nat (length vs))) (lists_of rs x).
Proof.
  intros Hx Hrs. unfold lists_of. induction Hrs as [|r rs Hr _ IH]; [constructor|]. cbn. constructor; [|done].
  apply (fits_row r i). by rewrite Hr.
Qed.

Definition fields2 (rs : list rel) (i : nat) (x : acell) : list text :=
  [show_nat i; show_N (ac_mark x); show_bool (ac_act x)] ++ lists_fields (lists_of rs x).

Lemma export2 d rs header : Forall (fun r => src r = d) rs ->
  export_lists d rs sep header m = Ok (content sep (map txt header :: imap (fields2 rs) (am_cells a d))).
Proof.
  intros Hrs. unfold export_lists. rewrite seq_cells. rewrite (omapM_seq _ (fields2 rs)); [done|].
  intros i x Hx. rewrite (g_marker m a H), (g_active m a H), (entries_ok d rs i x Hx Hrs). unfold look. by rewrite Hx.
Qed.

Lemma import2 d rs header : Forall (fun r => src r = d) rs -> Forall (fun t => newline ∉ t) (map txt header) ->
  ImportLists sep (length rs) (Some (content sep (map txt header :: imap (fields2 rs) (am_cells a d)))) =
  Ok (imap (fun i x => (N.of_nat i, ac_mark x, ac_act x, lists_of rs x)) (am_cells a d)).
Proof.
  intros Hrs Hh. unfold ImportLists. apply import_file; [done..| |].
  - intros i x Hx. unfold fields2. apply Forall_app. split; [|apply lists_fields_line].
    repeat constructor; try apply show_line; try apply show_bool_line.
  - intros i x Hx. unfold fields2. cbn [Datatypes.app].
    pose proof (fits_index _ _ _ Hx) as Hi. pose proof (fits_mark _ _ _ Hx) as Hm. unfold show_nat.
    pose proof (lists_fields_clean (lists_of rs x)) as Hl.
    uint Hi.
    uint Hm.
    flag.
    pose proof (ready_rest sep _ Hs Hl) as Hr. rewrite <- (app_nil_r (lists_fields _)) in Hr at 1.
    destruct (lists_ready sep (lists_of rs x) Hs (lists_fits d rs i x Hx Hrs) [] _ (Forall_nil_2 _) Hr) as (s' & E & _).
    assert (Hn : length (lists_of rs x) = length rs) by (unfold lists_of; apply map_length). rewrite Hn in E. by rewrite E.
Qed.

Definition fields3 (rs : list rel) (i : nat) (x : acell) : list text := show_nat i :: lists_fields (lists_of rs x).

Lemma export3 d rs header : Forall (fun r => src r = d) rs ->
  export_entries d rs sep header m = Ok (content sep (map txt header :: imap (fields3 rs) (am_cells a d))).
Proof.
  intros Hrs. unfold export_entries. rewrite seq_cells. rewrite (omapM_seq _ (fields3 rs)); [done|].
  intros i x Hx. by rewrite (entries_ok d rs i x Hx Hrs).
Qed.

(** The rows which hold an identifier and [n] lists. *)
Lemma import_lists d n header (f : nat -> acell -> list (list N)) :
  Forall (fun t => newline ∉ t) (map txt header) ->
  (forall i x, am_cells a d !! i = Some x -> length (f i x) = n /\
     Forall (fun vs => Forall fits vs /\ fits (N.of_nat (length vs))) (f i x)) ->
  ImportEntries sep n (Some (content sep (map txt header :: imap (fun i x => show_nat i :: lists_fields (f i x)) (am_cells a d)))) =
  Ok (imap (fun i x => (N.of_nat i, f i x)) (am_cells a d)).
Proof.
  intros Hh Hf. unfold ImportEntries. apply import_file; [done..| |].
  - intros i x Hx. constructor; [apply show_line|apply lists_fields_line].
  - intros i x Hx. pose proof (fits_index _ _ _ Hx) as Hi. unfold show_nat. destruct (Hf i x Hx) as [Hn Hl].
    pose proof (lists_fields_clean (f i x)) as Hcl.
    uint Hi.
    pose proof (ready_rest sep _ Hs Hcl) as Hr. rewrite <- (app_nil_r (lists_fields _)) in Hr at 1.
    destruct (lists_ready sep (f i x) Hs Hl [] _ (Forall_nil_2 _) Hr) as (s' & E & _). rewrite Hn in E. by rewrite E.
Qed.

Lemma import3 d rs header : Forall (fun r => src r = d) rs -> Forall (fun t => newline ∉ t) (map txt header) ->
  ImportEntries sep (length rs) (Some (content sep (map txt header :: imap (fields3 rs) (am_cells a d)))) =
  Ok (imap (fun i x => (N.of_nat i, lists_of rs x)) (am_cells a d)).
Proof.
  intros Hrs Hh. apply (import_lists d (length rs) header (fun _ x => lists_of rs x)); [done|].
  intros i x Hx. split; [unfold lists_of; apply map_length|by eapply lists_fits].
Qed.

(** ** Replaced cells *)

(** The cells written for cell [i]. *)
Definition final (d : dim) (i : nat) : list N :=
  match HasUpdateds d i m, UpdatedQuery fuel d (N.of_nat i) m with
  | Ok true, Ok (_, l) => l
  | _, _ => []
  end.

Lemma export_updated d : ExportCellUpdatedCells fuel sep d m =
  Ok (content sep (map txt ["Id"; "NumUpdatedCells"; "UpdatedCells"] ::
                   imap (fun i _ => show_nat i :: lists_fields [final d i]) (am_cells a d))).
Proof.
  unfold ExportCellUpdatedCells. rewrite seq_cells.
  rewrite (omapM_seq _ (fun i _ => show_nat i :: lists_fields [final d i])); [done|].
  intros i x Hx. unfold final. rewrite (g_hasupdateds m a H). unfold look. rewrite Hx. cbn [mbind outcome_bind].
  destruct (bool_decide _); [|done].
  destruct (cp_history _ _ _ Hc d i) as (b & l & -> & _); [rewrite (g_num m a H); by eapply lookup_lt_Some|].
  cbn [mbind outcome_bind snd]. unfold lists_fields. cbn [map concat]. by rewrite app_nil_r.
Qed.

Lemma query_below fu : forall d c b l, UpdatedQuery fu d c m = Ok (b, l) -> Forall (fun v => (v < N.of_nat (num d m))%N) l.
Proof.
  induction fu as [|fu IH]; intros d c b l E; [done|]. cbn [UpdatedQuery] in E.
  apply bind_ok in E as (u & Hu%require_ok & E). destruct (cupd (mcells m d) !! c) as [s|].
  - apply bind_ok in E as (l' & Hl & [= <- <-]).
    assert (G : forall ss acc l', ofold (fun acc ch => bl ← UpdatedQuery fu d ch m; Ok (acc ++ bl.2)) ss acc = Ok l' ->
                  Forall (fun v => (v < N.of_nat (num d m))%N) acc -> Forall (fun v => (v < N.of_nat (num d m))%N) l').
    { clear Hl. induction ss as [|ch ss IHs]; intros acc l'' E Ha; cbn [ofold] in E; [by injection E as <-|].
      apply bind_ok in E as (acc' & E & E'). apply bind_ok in E as ([b' l1] & E & [= <-]).
      eapply IHs; [exact E'|]. apply Forall_app. split; [done|]. eapply IH, E. }
    eapply G; [exact Hl|constructor].
  - injection E as <- <-. constructor; [lia|constructor].
Qed.

Lemma final_below d i : i < num d m -> Forall (fun v => (v < N.of_nat (num d m))%N) (final d i) /\ fits (N.of_nat (length (final d i))).
Proof.
  intros Hi. unfold final. destruct (HasUpdateds d i m) as [[|]| | | |]; try (split; [constructor|unfold fits; cbn; lia]).
  destruct (cp_history _ _ _ Hc d i Hi) as (b & l & E & Hl). rewrite E. split; [by eapply query_below|done].
Qed.

Lemma import_updated d :
  ImportEntries sep 1 (Some (content sep (map txt ["Id"; "NumUpdatedCells"; "UpdatedCells"] ::
                   imap (fun i _ => show_nat i :: lists_fields [final d i]) (am_cells a d)))) =
  Ok (imap (fun i _ => (N.of_nat i, [final d i])) (am_cells a d)).
Proof.
  apply (import_lists d 1 _ (fun i _ => [final d i])); [by apply header_line|].
  intros i x Hx. split; [done|]. constructor; [|constructor].
  destruct (final_below d i) as [Hb Hl]; [rewrite (g_num m a H); by eapply lookup_lt_Some|]. split; [|done].
  eapply Forall_impl; [exact Hb|]. intros v Hv. pose proof (cp_num _ _ _ Hc d). unfold fits in *. cbn in *. lia.
Qed.

(** ** Properties *)

Definition fields4 (p i : nat) (x : acell) : list text :=
  [show_nat i; show_nat (length (prop_of p x))] ++ map (put_double k) (prop_of p x).

Lemma export_property d p : p < length (am_names a d) ->
  ExportCellProperty k sep d p m =
  Ok (content sep (map txt ["Id"; "PropertySize"; "PropertyValues"] :: imap (fields4 p) (am_cells a d))).
Proof.
  intros Hp. unfold ExportCellProperty. rewrite seq_cells. rewrite (omapM_seq _ (fields4 p)); [done|].
  intros i x Hx. rewrite (g_propsize m a H), Hx, decide_True by done. cbn [mbind outcome_bind]. rewrite Nat2N.id.
  rewrite (omapM_seq_get _ (prop_of p x)); [done|]. intros j v Hv. by rewrite (g_propvalue m a H), Hx, decide_True, Hv by done.
Qed.

Lemma import_property d p : p < length (am_names a d) ->
  ImportCellProperty k sep
    (Some (content sep (map txt ["Id"; "PropertySize"; "PropertyValues"] :: imap (fields4 p) (am_cells a d)))) =
  Ok (imap (fun i x => (N.of_nat i, prop_of p x)) (am_cells a d)).
Proof.
  intros Hp. unfold ImportCellProperty. apply import_file; [done|by apply header_line| |].
  - intros i x Hx. destruct (prop_fits d i x p Hx Hp) as [_ Hf]. unfold fields4. cbn [Datatypes.app].
    constructor; [apply show_line|]. constructor; [apply show_line|].
    apply Forall_forall. intros t (v & <- & Hv)%elem_of_list_In%in_map_iff. apply (co_line _ _ _ Hk).
    rewrite Forall_forall in Hf. by apply Hf, elem_of_list_In.
  - intros i x Hx. destruct (prop_fits d i x p Hx Hp) as [Hn Hf]. pose proof (fits_index _ _ _ Hx) as Hi.
    assert (Hcl : Forall clean (map (put_double k) (prop_of p x))).
    { apply Forall_forall. intros t (v & <- & Hv)%elem_of_list_In%in_map_iff. eapply real_clean; [done|].
      rewrite Forall_forall in Hf. by apply Hf, elem_of_list_In. }
    unfold fields4, show_nat. cbn [Datatypes.app].
    uint Hi.
    uint Hn.
    rewrite Nat2N.id. by rewrite (values_ready k sep finite (prop_of p x) Hs Hk Hf).
Qed.
End rows.

(** ** The list of the properties *)

Lemma take_plain sep t s : plain sep t -> take_word (t ++ s) = t ++ take_word s.
Proof. induction 1 as [|x t [Hx _] _ IH]; [done|]. cbn. by rewrite Hx, IH. Qed.
Lemma drop_plain sep t s : plain sep t -> drop_word (t ++ s) = drop_word s.
Proof. induction 1 as [|x t [Hx _] _ IH]; [done|]. cbn. by rewrite Hx, IH. Qed.
Lemma skip_plain sep t s : plain sep t -> t <> [] -> skip_spaces (t ++ s) = t ++ s.
Proof. intros H Hn. apply skip_clean. destruct H as [|x t [Hx _] _]; [done|]. exists x, t. done. Qed.
Lemma plain_sep sep t : plain sep t -> sep ∉ t.
Proof. intros H Hin. unfold plain in H. rewrite Forall_forall in H. by destruct (H sep Hin). Qed.
Lemma plain_line sep t : plain sep t -> newline ∉ t.
Proof. intros H Hin. unfold plain in H. rewrite Forall_forall in H. by destruct (H newline Hin). Qed.

Lemma split_last c t : forall acc, c ∉ t -> acc ++ t <> [] -> split_loop c acc t = [acc ++ t].
Proof.
  induction t as [|x t IH]; intros acc Hc Hn; cbn [split_loop].
  - rewrite app_nil_r in *. by destruct acc.
  - apply not_elem_of_cons in Hc as [H1 H2]. rewrite decide_False by done. rewrite IH; [by rewrite <- app_assoc|done|].
    by destruct acc.
Qed.

Lemma folder_tail t : Forall (fun x => is_slash x = false) t -> folder_of t = [].
Proof. induction 1 as [|x t Hx _ IH]; [done|]. cbn. rewrite IH. by rewrite Hx. Qed.
Lemma folder_path f t : Forall (fun x => is_slash x = false) t -> folder_of (f ++ txt "/" ++ t) = f ++ txt "/".
Proof.
  intros H. induction f as [|x f IH].
  - cbn. by rewrite folder_tail.
  - cbn [Datatypes.app folder_of]. rewrite IH. by destruct f.
Qed.

Lemma read_name sep id name : separator_ok sep -> id <> [] -> name <> [] -> plain sep id -> plain sep name ->
  (if decide (sep = " "%char)
   then let s1 := skip_spaces (join sep [id; name]) in Ok (take_word s1, take_word (skip_spaces (drop_word s1)))
   else match Split (take_word (skip_spaces (join sep [id; name]))) sep with
        | [id; name] => Ok (id, name)
        | _ => Abort
        end) = Ok (id, name).
Proof.
  intros Hs Hi Hn Pi Pn. change (join sep [id; name]) with (id ++ sep :: name). rewrite (skip_plain sep) by done.
  pose proof (take_plain sep name [] Pn) as Tn. rewrite app_nil_r in Tn. cbn [take_word] in Tn. rewrite app_nil_r in Tn.
  pose proof (skip_plain sep name [] Pn Hn) as Sn. rewrite app_nil_r in Sn.
  case_decide as E.
  - subst sep. cbv zeta. rewrite (take_plain _ id _ Pi), (drop_plain _ id _ Pi). cbn [take_word drop_word skip_spaces].
    change (is_space " ") with true. cbv iota. cbn [skip_spaces].
    change (is_space " ") with true. cbv iota. by rewrite app_nil_r, Sn, Tn.
  - destruct Hs as [_ [Hs|Hs]]; [done|]. rewrite (take_plain _ id _ Pi). cbn [take_word]. rewrite Hs, Tn. unfold Split.
    rewrite split_line by (by apply plain_sep). rewrite split_last; [done|by apply plain_sep|by destruct name].
Qed.

Lemma string_back s : String.string_of_list_ascii (txt s) = s.
Proof. apply String.string_of_list_ascii_of_string. Qed.

Section properties.
Context (k : codec) (c : configuration) (finite : N -> Prop) (fuel : nat) (m : mesh) (a : amesh).
Context (H : represents m a) (Hc : complete finite fuel m) (Hu : suits c m) (Hk : codec_ok k (Separator c) finite).

Definition list_file (d : dim) : text :=
  content (Separator c) (map txt ["Id"; "FilePath"] :: map (fun id => [txt id; property_file c d id]) (am_names a d)).
Definition value_file (d : dim) (p : nat) : text :=
  content (Separator c) (map txt ["Id"; "PropertySize"; "PropertyValues"] :: imap (fields4 k p) (am_cells a d)).

Lemma export_properties d : ExportCellProperties k c d m =
  Ok ((path c (FileProperties c d), list_file d) ::
      imap (fun p id => (Folder c ++ txt "/" ++ property_file c d id, value_file d p)) (am_names a d)).
Proof.
  unfold ExportCellProperties. rewrite (ids_names m a H). unfold list_file.
  rewrite (omapM_imap _ pair (fun p id => (Folder c ++ txt "/" ++ property_file c d id, value_file d p))); [done|].
  intros p id Hp. cbn [fst snd]. rewrite (export_property k (Separator c) m a H); [done|by eapply lookup_lt_Some].
Qed.

Lemma import_properties d fs :
  fs !! path c (FileProperties c d) = Some (list_file d) ->
  (forall p id, am_names a d !! p = Some id -> fs !! (Folder c ++ txt "/" ++ property_file c d id) = Some (value_file d p)) ->
  ImportCellDoubleProperties k (Separator c) fs (path c (FileProperties c d)) =
  Ok (imap (fun p id => (id, imap (fun i x => (N.of_nat i, prop_of p x)) (am_cells a d))) (am_names a d)).
Proof.
  intros Hl Hv. unfold ImportCellDoubleProperties. rewrite Hl. unfold list_file.
  assert (Hid : forall p id, am_names a d !! p = Some id -> id <> ""%string /\ plain (Separator c) (txt id) /\ plain (Separator c) (property_file c d id)).
  { intros p id Hp. apply (su_ids _ _ Hu). rewrite (ids_names m a H). by eapply elem_of_list_lookup_2. }
  replace (map (fun id => [txt id; property_file c d id]) (am_names a d))
    with (imap (fun (_ : nat) id => [txt id; property_file c d id]) (am_names a d))
    by (apply imap_const).
  apply import_file; [apply (su_separator _ _ Hu)|by apply header_line| |].
  - intros p id Hp. destruct (Hid p id Hp) as (_ & H1 & H2). repeat constructor; by eapply plain_line.
  - intros p id Hp. destruct (Hid p id Hp) as (H0 & H1 & H2).
    rewrite (read_name (Separator c)); [|apply (su_separator _ _ Hu)|intros E; apply (f_equal String.string_of_list_ascii) in E; by rewrite string_back in E| |done..].
    2: { unfold property_file. intros E. apply app_eq_nil in E as [_ E]. done. }
    cbn [mbind outcome_bind fst snd].
    unfold path at 1. rewrite folder_path by apply (su_folder _ _ Hu d). rewrite <- app_assoc, (Hv p id Hp).
    unfold value_file. rewrite (import_property k (Separator c) finite fuel m a H Hc (su_separator _ _ Hu) Hk) by (by eapply lookup_lt_Some).
    cbn [mbind outcome_bind]. by rewrite string_back.
Qed.
End properties.
