(** Export and import of the configuration. *)
From Verif Require Import BaseProof ConfigModel ConfigSpec ConfigProof StringsProof StringsProof2 StringsSpec.
Local Open Scope nat_scope.

Lemma bind_ok {A B} (c : call A) (f : A -> call B) s a s' : c s = (Ok a, s') -> (mbind f c) s = f a s'.
Proof. intros E. unfold mbind, call_bind. by rewrite E. Qed.

Definition csv_good (env : platform) (separator : ascii) (id : text) (v : cval) (d : text) : Prop :=
  type_of v <> Unknown /\ type_of v <> TMatrix /\ parse_value env (type_of v) (show_value env v) = Ok v /\
  Forall (fun t => separator ∉ t /\ newline ∉ t) [id; TypeToString (type_of v); show_value env v; d].

Definition ini_good (env : platform) (id : text) (v : cval) (d : text) : Prop :=
  type_of v <> Unknown /\ type_of v <> TMatrix /\ parse_value env (type_of v) (show_value env v) = Ok v /\
  id <> [] /\ head id <> Some "#"%char /\ show_value env v <> [] /\
  Forall (fun t => " "%char ∉ t /\ newline ∉ t) [id; show_value env v] /\ newline ∉ d.

(** ** Lines *)
Lemma lines_cons l rest : newline ∉ l -> lines (l ++ newline :: rest) = l :: lines rest.
Proof.
  unfold lines. assert (H : forall line, newline ∉ l -> lines_loop line (l ++ newline :: rest) = (line ++ l) :: lines_loop [] rest).
  { induction l as [|x l IH]; intros line Hl; cbn [Datatypes.app lines_loop].
    - by rewrite decide_True, app_nil_r.
    - rewrite decide_False by set_solver. rewrite IH by set_solver. by rewrite <- app_assoc. }
  apply H.
Qed.

(** ** What is exported *)
Definition entry_ok (m : config) (l : list (text * stype)) : Prop :=
  forall id t, (id, t) ∈ l -> exists v d, m !! id = Some (v, d) /\ type_of v = t /\ t <> Unknown.

Lemma export_one env m id v d : m !! id = Some (v, d) -> type_of v <> Unknown ->
  GetPropertyForExport env id (type_of v) (store_of m) = (Ok (show_value env v, d), store_of m).
Proof.
  intros E Hu. unfold GetPropertyForExport. rewrite decide_False by done. rewrite (bind_ok _ _ _ _ _ (get_property_store m id v d E)). done.
Qed.

Definition value_of (m : config) (id : text) : cval := match m !! id with Some (v, _) => v | None => VOther 0 end.
Definition description_of (m : config) (id : text) : text := match m !! id with Some (_, d) => d | None => [] end.

Definition csv_text (env : platform) (sep : ascii) (m : config) (id : text) : text :=
  join [sep] [id; TypeToString (type_of (value_of m id)); show_value env (value_of m id); description_of m id].
Definition body_text (f : text -> text) (l : list text) : text := concat (map f l).

Lemma export_csv_ok env sep m l : entry_ok m l ->
  export_csv env sep l (store_of m) = (Ok (body_text (fun id => csv_text env sep m id ++ [newline]) l.*1), store_of m).
Proof.
  induction l as [|[id t] l IH]; intros Hl; [done|]. cbn [export_csv].
  destruct (Hl id t) as (v & d & E & <- & Hu); [left|]. erewrite bind_ok by (by apply export_one). cbn beta iota.
  erewrite bind_ok by (apply IH; intros ? ? ?; apply Hl; by right). unfold mret, call_ret. do 2 f_equal.
  unfold body_text. cbn [fmap list_fmap fst map concat]. unfold csv_text at 2. cbn [join]. unfold value_of, description_of. rewrite E.
  rewrite <- !app_assoc. done.
Qed.

Lemma entry_ok_visit env m : visits_all env -> supported m -> entry_ok m (visit env (propertyTypes (store_of m))).
Proof.
  intros Hv Hm id t Hin. rewrite (Hv _) in Hin. apply elem_of_map_to_list in Hin. rewrite types_lookup in Hin.
  destruct (m !! id) as [[v d]|] eqn:E; [|done]. injection Hin as <-. exists v, d. split_and!; [done|done|]. by eapply Hm.
Qed.
Lemma visit_ids env m : visits_all env -> (visit env (propertyTypes (store_of m))).*1 ≡ₚ (map_to_list m).*1.
Proof.
  intros Hv. rewrite (Hv _). cbn [store_of propertyTypes]. rewrite map_to_list_fmap. rewrite <- list_fmap_compose. 
  apply reflexive_eq. apply list_fmap_ext. by intros ? [? [? ?]] _.
Qed.

(** ** Reading back *)
Definition restore (m : config) (describe : bool) (ids : list text) (start : config) : config :=
  foldl (fun acc id => <[id := (value_of m id, if describe then description_of m id else [])]> acc) start ids.

Lemma restore_lookup m b : forall ids start id, restore m b ids start !! id =
  if decide (id ∈ ids) then Some (value_of m id, if b then description_of m id else []) else start !! id.
Proof.
  induction ids as [|x ids IH]; intros start id; [by rewrite decide_False by apply not_elem_of_nil|].
  change (restore m b (x :: ids) start) with (restore m b ids (<[x := (value_of m x, if b then description_of m x else [])]> start)).
  rewrite IH. destruct (decide (id ∈ ids)) as [Hi|Hi].
  - by rewrite decide_True by (by right).
  - destruct (decide (id = x)) as [->|Hne].
    + rewrite decide_True by left. by rewrite lookup_insert.
    + rewrite decide_False by (rewrite elem_of_cons; tauto). by rewrite lookup_insert_ne.
Qed.

Lemma restore_all m b ids : ids ≡ₚ (map_to_list m).*1 -> restore m b ids ∅ = (fun e => (e.1, if b then e.2 else [])) <$> m.
Proof.
  intros Hp. apply map_eq. intros id. rewrite restore_lookup, lookup_fmap, lookup_empty. 
  assert (Hiff : id ∈ ids <-> is_Some (m !! id)).
  { rewrite Hp, elem_of_list_fmap. split.
    - intros ([id' e] & -> & Hin). apply elem_of_map_to_list in Hin. cbn. eauto.
    - intros [e He]. exists (id, e). split; [done|]. by apply elem_of_map_to_list. }
  unfold value_of, description_of. destruct (m !! id) as [[v d]|] eqn:E.
  - rewrite decide_True by (apply Hiff; eauto). by destruct b.
  - rewrite decide_False; [done|]. intros Hi. apply Hiff in Hi as [? [=]].
Qed.

Lemma run_lines_restore (env : platform) (f : text -> call unit) (show : text -> text) (m : config) (b : bool) :
  (forall (id : text) (start : config), is_Some (m !! id) -> supported start -> f (show id) (store_of start) = (Ok tt, store_of (<[id := (value_of m id, if b then description_of m id else [])]> start))) ->
  (forall id, is_Some (m !! id) -> type_of (value_of m id) <> Unknown) ->
  forall ids last (start : config), (forall id, id ∈ ids -> is_Some (m !! id)) -> supported start -> (forall s : store, f last s = (Ok tt, s)) ->
  run_lines f (map show ids ++ [last]) (store_of start) = (Ok tt, store_of (restore m b ids start)).
Proof.
  intros Hf Hu. induction ids as [|id ids IH]; intros last start Hids Hs Hlast.
  - cbn [map Datatypes.app run_lines]. erewrite bind_ok by apply Hlast. done.
  - cbn [map Datatypes.app run_lines]. assert (Hid : is_Some (m !! id)) by (apply Hids; left).
    erewrite bind_ok by (by apply Hf). rewrite IH; [done|intros ? ?; apply Hids; by right| |done].
    apply supported_insert; [done|]. by apply Hu.
Qed.

Lemma lines_body f l : Forall (fun id => newline ∉ (f id : text)) l -> lines (body_text (fun id => f id ++ [newline]) l) = map f l ++ [[]].
Proof.
  induction 1 as [|id l Hid _ IH]; [done|]. unfold body_text in *. cbn [map concat]. rewrite <- app_assoc. cbn [Datatypes.app].
  rewrite lines_cons by done. by rewrite IH.
Qed.

Lemma drop_trailing_4 (a b c d : text) : drop_trailing_empty [a; b; c; d] = match d with [] => [a; b; c] | _ => [a; b; c; d] end.
Proof. unfold drop_trailing_empty. cbn. by destruct d. Qed.

Lemma csv_line_ok env sep m id start : supported start -> is_Some (m !! id) ->
  csv_good env sep id (value_of m id) (description_of m id) ->
  csv_line env sep (csv_text env sep m id) (store_of start) = (Ok tt, store_of (<[id := (value_of m id, description_of m id)]> start)).
Proof.
  intros Hs Hid (Hu & Hx & Hp & Hf). unfold csv_line, csv_text. rewrite split_join.
  - rewrite drop_trailing_4. destruct (description_of m id) as [|c d].
    + apply convert_store; [done|]. by rewrite type_back.
    + apply convert_store; [done|]. by rewrite type_back.
  - eapply Forall_impl; [exact Hf|]. by intros t [? _].
Qed.

Lemma csv_text_no_newline env sep m id : sep <> newline -> csv_good env sep id (value_of m id) (description_of m id) -> newline ∉ csv_text env sep m id.
Proof.
  intros Hsep (_ & _ & _ & Hf). rewrite !Forall_cons in Hf. unfold csv_text. cbn [join]. set_solver.
Qed.

Lemma header_no_newline sep : sep <> newline ->
  newline ∉ (txt "Id" ++ [sep] ++ txt "Type" ++ [sep] ++ txt "Value" ++ [sep] ++ txt "Description").
Proof.
  intros Hsep. rewrite !not_elem_of_app, !elem_of_list_singleton. split_and!; try done.
  all: intros H; apply elem_of_list_In in H; cbn in H; repeat destruct H as [H|H]; done.
Qed.

Lemma csv_roundtrip env sep append m : visits_all env -> supported m -> sep <> newline ->
  (forall id v d, m !! id = Some (v, d) -> csv_good env sep id v d) ->
  exists content, ExportToCsv env append sep (store_of m) = (Ok content, store_of m) /\
    InitializeFromCsv env content (negb append) sep empty_store = (Ok tt, store_of m).
Proof.
  intros Hv Hm Hsep Hok. set (ids := (visit env (propertyTypes (store_of m))).*1).
  assert (Hperm : ids ≡ₚ (map_to_list m).*1) by (by apply visit_ids).
  assert (Hids : forall id, id ∈ ids -> is_Some (m !! id)).
  { intros id Hin. rewrite Hperm in Hin. apply elem_of_list_fmap in Hin as ([id' e] & -> & Hin). apply elem_of_map_to_list in Hin. cbn. eauto. }
  assert (Hok' : forall id, is_Some (m !! id) -> csv_good env sep id (value_of m id) (description_of m id)).
  { intros id [[v d] E]. unfold value_of, description_of. rewrite E. by apply Hok. }
  assert (Hrun : run_lines (csv_line env sep) (lines (body_text (fun id => csv_text env sep m id ++ [newline]) ids)) empty_store = (Ok tt, store_of m)).
  { rewrite lines_body.
    - rewrite empty_store_of. rewrite (run_lines_restore env (csv_line env sep) (csv_text env sep m) m true).
      + rewrite restore_all by done. do 2 f_equal. apply map_eq. intros id. rewrite lookup_fmap. by destruct (m !! id) as [[? ?]|].
      + intros id start Hid Hs. by apply csv_line_ok; [..|apply Hok'].
      + intros id [[v d] E]. unfold value_of. rewrite E. by eapply Hm.
      + done.
      + apply supported_empty.
      + done.
    - apply Forall_forall. intros id Hin. apply csv_text_no_newline; [done|]. apply Hok', Hids, Hin. }
  eexists. split.
  - unfold ExportToCsv, look. erewrite bind_ok by (apply export_csv_ok; by apply entry_ok_visit). unfold mret, call_ret. reflexivity.
  - unfold InitializeFromCsv. destruct append; [exact Hrun|]. cbn [negb].
    assert (E : lines ((txt "Id" ++ [sep] ++ txt "Type" ++ [sep] ++ txt "Value" ++ [sep] ++ txt "Description" ++ [newline]) ++ body_text (fun id => csv_text env sep m id ++ [newline]) ids) =
      (txt "Id" ++ [sep] ++ txt "Type" ++ [sep] ++ txt "Value" ++ [sep] ++ txt "Description") :: lines (body_text (fun id => csv_text env sep m id ++ [newline]) ids)).
    { rewrite <- lines_cons by (by apply header_no_newline). f_equal. }
    fold ids. rewrite E. exact Hrun.
Qed.

(** ** Values which are read back *)
Lemma show_list_gaps {T} (show : T -> text) x l : show_list (txt "[") (txt "]") show (x :: l) = txt "[" ++ with_gaps show x (map (pair (txt ",")) l) ++ txt "]".
Proof.
  unfold show_list. do 2 f_equal. unfold with_gaps. cbn [put_elements]. cbn [Datatypes.app]. f_equal.
  induction l as [|y l IH]; [done|]. cbn [put_elements map concat fst snd]. rewrite IH. by rewrite <- !app_assoc.
Qed.
Lemma comma_gap : gap_ok (txt ",").
Proof. split; [done|]. exists [], (txt ","). split_and!; [done|by left|]. constructor; [by left|constructor]. Qed.
Lemma map_pair_snd {T} (g : text) (l : list T) : map snd (map (pair g) l) = l.
Proof. rewrite map_map. apply map_id. Qed.

Lemma readable_parse env v : readable env v -> parse_value env (type_of v) (show_value env v) = Ok v.
Proof.
  destruct v as [z|c|s|d|l|l|b|l|n|l|m|x]; cbn [readable type_of parse_value show_value]; intros H; try done.
  - unfold ParseInt. by rewrite stoi_show.
  - by rewrite H.
  - destruct l as [|z l]; [done|]. rewrite show_list_gaps. rewrite Forall_cons in H. destruct H as [Hz Hl].
    rewrite parse_int_vector; [by rewrite map_pair_snd|done|]. apply Forall_map. eapply Forall_impl; [exact Hl|]. intros y Hy. split; [apply comma_gap|done].
  - destruct l as [|z l]; [done|]. rewrite show_list_gaps. rewrite Forall_cons in H. destruct H as [Hz Hl].
    rewrite (parse_vector_shown (show_double env) (parse_double env)); [by rewrite map_pair_snd|by destruct Hz as (_ & ? & ?)| |by destruct Hz as (? & _)|].
    + apply Forall_map. eapply Forall_impl; [exact Hl|]. intros y (_ & ? & ?). split; [apply comma_gap|by split].
    + apply Forall_map. eapply Forall_impl; [exact Hl|]. by intros y (? & _).
  - by destruct b.
  - by rewrite parse_uint_show.
  - destruct l as [|z l]; [done|]. rewrite show_list_gaps. rewrite Forall_cons in H. destruct H as [Hz Hl].
    rewrite parse_uint_vector; [by rewrite map_pair_snd|done|]. apply Forall_map. eapply Forall_impl; [exact Hl|]. intros y Hy. split; [apply comma_gap|done].
Qed.

Lemma readable_good env v : readable env v -> type_of v <> Unknown /\ type_of v <> TMatrix /\ parse_value env (type_of v) (show_value env v) = Ok v.
Proof. intros H. pose proof (readable_parse env v H). by destruct v. Qed.

(** ** Ini files *)
Definition ini_text (env : platform) (m : config) (id : text) : text :=
  join (txt " ") [id; TypeToString (type_of (value_of m id)); show_value env (value_of m id)].
Definition ini_lines (env : platform) (m : config) (id : text) : list text :=
  [txt "#####################################################"] ++ (if bool_decide (description_of m id = []) then [] else [txt "# " ++ description_of m id]) ++ [ini_text env m id].

Lemma type_text t : TypeToString t <> [] /\ " "%char ∉ TypeToString t /\ newline ∉ TypeToString t.
Proof. destruct t; split_and!; try done; intros H; apply elem_of_list_In in H; cbn in H; repeat destruct H as [H|H]; done. Qed.

Lemma export_ini_ok env m l : entry_ok m l -> (forall id v d, m !! id = Some (v, d) -> ini_good env id v d) ->
  export_ini env l (store_of m) = (Ok (body_text (fun id => concat (map (fun t => t ++ [newline]) (ini_lines env m id))) l.*1), store_of m).
Proof.
  intros Hl Hok. induction l as [|[id t] l IH]; [done|]. cbn [export_ini].
  destruct (Hl id t) as (v & d & E & <- & Hu); [left|]. erewrite bind_ok by (by apply export_one). cbn beta iota.
  erewrite bind_ok by (apply IH; intros ? ? ?; apply Hl; by right). unfold mret, call_ret. do 2 f_equal.
  unfold body_text. cbn [fmap list_fmap fst map concat]. f_equal. destruct (Hok id v d E) as (_ & _ & _ & Hid & _ & Hv & _).
  rewrite bool_decide_eq_false_2 by done. rewrite bool_decide_eq_false_2 by done. rewrite bool_decide_eq_false_2 by apply type_text. cbn [orb].
  unfold ini_lines, ini_text, value_of, description_of. rewrite E. case_bool_decide; cbn [Datatypes.app map concat join]; rewrite ?app_nil_r, <- ?app_assoc; done.
Qed.

Lemma lines_all (l : list text) rest : Forall (fun t => newline ∉ t) l -> lines (concat (map (fun t => t ++ [newline]) l) ++ rest) = l ++ lines rest.
Proof.
  induction 1 as [|t l Ht _ IH]; [done|]. cbn [map concat]. rewrite <- !app_assoc. cbn [Datatypes.app]. rewrite lines_cons by done. by rewrite IH.
Qed.

Lemma run_lines_app f l1 l2 s s' : run_lines f l1 s = (Ok tt, s') -> run_lines f (l1 ++ l2) s = run_lines f l2 s'.
Proof.
  revert s. induction l1 as [|x l1 IH]; intros s H; [by injection H as ->|]. cbn [Datatypes.app run_lines] in *. unfold mbind, call_bind in *.
  destruct (f x s) as [[[]| | | |] s1]; try done. by apply IH.
Qed.

Lemma ini_comment env t s : ini_line env ("#"%char :: t) s = (Ok tt, s).
Proof. cbn [ini_line]. by rewrite decide_True. Qed.

Lemma ini_line_ok env m id start : supported start -> ini_good env id (value_of m id) (description_of m id) ->
  ini_line env (ini_text env m id) (store_of start) = (Ok tt, store_of (<[id := (value_of m id, [])]> start)).
Proof.
  intros Hs (Hu & Hx & Hp & Hid & Hh & Hv & Hf & _).
  assert (Hcons : forall line c r, line = c :: r -> c <> "#"%char -> ini_line env line =
    match Split line " " with
    | [id; value] => ConvertPropertyFromString env id (txt "string") value []
    | [id; type; value] => ConvertPropertyFromString env id type value []
    | _ => skip
    end).
  { intros line c r -> Hc. cbn [ini_line]. by rewrite decide_False. }
  assert (E : exists c r, ini_text env m id = c :: r /\ c <> "#"%char).
  { unfold ini_text. destruct id as [|c id]; [done|]. cbn [join Datatypes.app]. eexists c, _. split; [done|]. intros ->. done. }
  destruct E as (c & r & E & Hc). rewrite (Hcons _ c r E Hc). clear E Hcons. unfold ini_text. change (txt " ") with [" "%char]. rewrite split_join.
  - unfold drop_trailing_empty. cbn [last]. destruct (show_value env (value_of m id)) eqn:Es; [done|]. rewrite <- Es in *.
    apply convert_store; [done|]. by rewrite type_back.
  - rewrite !Forall_cons in Hf. repeat constructor; try tauto. apply type_text.
Qed.

Lemma ini_lines_ok env m id start : supported start -> ini_good env id (value_of m id) (description_of m id) ->
  run_lines (ini_line env) (ini_lines env m id) (store_of start) = (Ok tt, store_of (<[id := (value_of m id, [])]> start)).
Proof.
  intros Hs Hok. unfold ini_lines. rewrite (run_lines_app _ _ _ _ (store_of start)).
  - rewrite (run_lines_app _ _ _ _ (store_of start)).
    + cbn [run_lines]. erewrite bind_ok by (by apply ini_line_ok). done.
    + case_bool_decide; [done|]. cbn [run_lines]. erewrite bind_ok by apply ini_comment. done.
  - cbn [run_lines]. erewrite bind_ok by apply ini_comment. done.
Qed.

Lemma ini_lines_no_newline env m id : ini_good env id (value_of m id) (description_of m id) -> Forall (fun t => newline ∉ t) (ini_lines env m id).
Proof.
  intros (_ & _ & _ & _ & _ & _ & Hf & Hd). rewrite !Forall_cons in Hf. destruct Hf as ([_ H1] & [_ H2] & _).
  unfold ini_lines. apply Forall_app. split; [constructor; [|constructor]; intros H; apply elem_of_list_In in H; cbn in H; repeat destruct H as [H|H]; done|].
  apply Forall_app. split.
  - case_bool_decide as Hb; [constructor|]. constructor; [|constructor]. rewrite not_elem_of_app. split; [|done].
    intros H; apply elem_of_list_In in H; cbn in H; repeat destruct H as [H|H]; done.
  - constructor; [|constructor]. unfold ini_text. cbn [join]. rewrite !not_elem_of_app. split_and!; try done; try apply type_text.
    all: intros H; apply elem_of_list_In in H; cbn in H; repeat destruct H as [H|H]; done.
Qed.

Lemma ini_run env m : (forall id v d, m !! id = Some (v, d) -> ini_good env id v d) ->
  forall ids start, (forall id, id ∈ ids -> is_Some (m !! id)) -> supported start ->
  run_lines (ini_line env) (lines (body_text (fun id => concat (map (fun t => t ++ [newline]) (ini_lines env m id))) ids)) (store_of start) =
    (Ok tt, store_of (restore m false ids start)).
Proof.
  intros Hok. assert (Hok' : forall id, is_Some (m !! id) -> ini_good env id (value_of m id) (description_of m id)).
  { intros id [[v d] E]. unfold value_of, description_of. rewrite E. by apply Hok. }
  induction ids as [|id ids IH]; intros start Hids Hs; [done|]. assert (Hid : is_Some (m !! id)) by (apply Hids; left).
  unfold body_text in *. cbn [map concat]. rewrite lines_all by (by apply ini_lines_no_newline, Hok').
  erewrite run_lines_app by (apply ini_lines_ok; [done|by apply Hok']). rewrite IH; [done|intros ? ?; apply Hids; by right|].
  apply supported_insert; [done|]. by destruct (Hok' id Hid).
Qed.

Lemma ini_roundtrip env section m : visits_all env -> supported m -> newline ∉ section ->
  (forall id v d, m !! id = Some (v, d) -> ini_good env id v d) ->
  exists content, ExportToIni env false section (store_of m) = (Ok content, store_of m) /\
    InitializeFromIni env content empty_store = (Ok tt, store_of ((fun e => (e.1, [])) <$> m)).
Proof.
  intros Hv Hm Hsec Hok. set (ids := (visit env (propertyTypes (store_of m))).*1).
  assert (Hperm : ids ≡ₚ (map_to_list m).*1) by (by apply visit_ids).
  assert (Hids : forall id, id ∈ ids -> is_Some (m !! id)).
  { intros id Hin. rewrite Hperm in Hin. apply elem_of_list_fmap in Hin as ([id' e] & -> & Hin). apply elem_of_map_to_list in Hin. cbn. eauto. }
  pose proof (ini_run env m Hok ids ∅ Hids supported_empty) as Hrun. rewrite <- empty_store_of in Hrun. rewrite restore_all in Hrun by done.
  eexists. split.
  - unfold ExportToIni, look. erewrite bind_ok by (apply export_ini_ok; [by apply entry_ok_visit|done]). unfold mret, call_ret. reflexivity.
  - unfold InitializeFromIni. fold ids. cbn [orb]. case_bool_decide as Hs; [exact Hrun|].
    rewrite <- app_assoc. rewrite <- app_assoc. cbn [Datatypes.app]. rewrite app_assoc. rewrite lines_cons.
    + cbn [txt String.list_ascii_of_string Datatypes.app run_lines]. erewrite bind_ok by apply ini_comment. exact Hrun.
    + rewrite not_elem_of_app. split; [|done]. intros H; apply elem_of_list_In in H; cbn in H; repeat destruct H as [H|H]; done.
Qed.

(** ** Command line *)
Lemma find_separators c d : 
  FindSeparator (txt "id" ++ [c] ++ txt "type" ++ [d] ++ txt "value") (txt "id") (txt "type") = Ok c /\
  FindSeparator (txt "id" ++ [c] ++ txt "type" ++ [d] ++ txt "value") (txt "type") (txt "value") = Ok d.
Proof.
  set (s := txt "id" ++ [c] ++ txt "type" ++ [d] ++ txt "value").
  assert (H1 : find_text (txt "id") s = Some 0) by done.
  assert (H2 : find_text (txt "type") s = Some 3).
  { subst s. cbn. repeat (rewrite decide_False by (intros [=])). done. }
  assert (H3 : find_text (txt "value") s = Some 8).
  { subst s. cbn. repeat (rewrite decide_False by (intros [=])). done. }
  unfold FindSeparator. rewrite H1, H2, H3. done.
Qed.

Lemma split_argument c d id t v : c <> d -> id <> [] -> v <> [] -> Forall (fun s : text => c ∉ s /\ d ∉ s) [id; t; v] ->
  SplitMany (id ++ [c] ++ t ++ [d] ++ v) [c; d] = [id; t; v].
Proof.
  intros Hcd Hid Hv Hf. rewrite !Forall_cons in Hf. destruct Hf as ([I1 I2] & [T1 T2] & [V1 V2] & _).
  unfold SplitMany. cbn [fold_left map concat]. rewrite app_nil_r.
  pose proof (split_join c [id; t ++ [d] ++ v]) as E1. cbn [join] in E1. rewrite E1.
  2:{ repeat constructor; [done|]. set_solver. }
  pose proof (split_join d [t; v]) as E2. cbn [join] in E2.
  pose proof (split_join d [id]) as E3. cbn [join] in E3.
  assert (E4 : drop_trailing_empty [id; t ++ [d] ++ v] = [id; t ++ [d] ++ v]).
  { unfold drop_trailing_empty. cbn [last]. by destruct t. }
  rewrite E4. cbn [map concat]. rewrite E3, E2.
  - unfold drop_trailing_empty. cbn [last]. destruct id; [done|]. destruct v; [done|]. done.
  - by repeat constructor.
  - by repeat constructor.
Qed.

Lemma initialize_ok env c d l s : c <> d ->
  Forall (fun e : text * text * text => e.1.1 <> [] /\ e.2 <> [] /\ Forall (fun s : text => c ∉ s /\ d ∉ s) [e.1.1; e.1.2; e.2]) l ->
  Initialize env (map (fun e => e.1.1 ++ [c] ++ e.1.2 ++ [d] ++ e.2) l) (txt "id" ++ [c] ++ txt "type" ++ [d] ++ txt "value") s =
  foldl (fun (r : outcome unit * store) e => match r with (Ok _, s) => ConvertPropertyFromString env e.1.1 e.1.2 e.2 [] s | _ => r end) (Ok tt, s) l.
Proof.
  intros Hcd Hl. unfold Initialize. destruct (find_separators c d) as [E1 E2]. rewrite E1, E2.
  erewrite bind_ok by reflexivity. cbn beta. erewrite bind_ok by reflexivity. cbn beta. clear E1 E2.
  revert s. induction Hl as [|[[id t] v] l (Hid & Hv & Hf) _ IH]; intros s; [done|]. cbn [fst snd] in *.
  cbn [map run_lines foldl fst snd]. 
  assert (E : argument env c d (id ++ [c] ++ t ++ [d] ++ v) = ConvertPropertyFromString env id t v []).
  { unfold argument. by rewrite split_argument by done. }
  rewrite E. unfold mbind, call_bind.
  destruct (ConvertPropertyFromString env id t v [] s) as [[[]| | | |] s']; [by rewrite IH|..].
  all: clear; induction l as [|e l IH]; [done|]; cbn [foldl]; done.
Qed.

(** ** On every history *)
Lemma csv_history env sep append ops : visits_all env -> all_allowed env ops ∅ -> sep <> newline ->
  (forall id v d, (spec_ops env ops ∅).2 !! id = Some (v, d) -> csv_ok env sep id v d) ->
  let s := (run_ops env ops empty_store).2 in
  exists content, ExportToCsv env append sep s = (Ok content, s) /\ InitializeFromCsv env content (negb append) sep empty_store = (Ok tt, s).
Proof.
  intros Hv Ha Hs Hok. cbn zeta. rewrite history_store by done. apply csv_roundtrip; [done|by apply history_supported|done|].
  intros id v d E. destruct (Hok id v d E) as [Hr Hf]. apply readable_good in Hr as (? & ? & ?). by split_and!.
Qed.
Lemma ini_history env section ops : visits_all env -> all_allowed env ops ∅ -> newline ∉ section ->
  let m := (spec_ops env ops ∅).2 in
  (forall id v d, m !! id = Some (v, d) -> ini_ok env id v d) ->
  let s := (run_ops env ops empty_store).2 in
  exists content, ExportToIni env false section s = (Ok content, s) /\
    InitializeFromIni env content empty_store = (Ok tt, store_of ((fun e => (e.1, [])) <$> m)).
Proof.
  intros Hv Ha Hs m Hok. cbn zeta. rewrite history_store by done. apply ini_roundtrip; [done|by apply history_supported|done|].
  intros id v d E. destruct (Hok id v d E) as (Hr & H1 & H2 & H3 & H4 & H5). apply readable_good in Hr as (? & ? & ?). split_and!; done.
Qed.
Lemma convert_history env ops id type value d r s : visits_all env -> all_allowed env ops ∅ ->
  ConvertPropertyFromString env id type value d (run_ops env ops empty_store).2 = (r, s) ->
  exists m', s = store_of m' /\ forall id', id' <> id -> m' !! id' = (spec_ops env ops ∅).2 !! id'.
Proof.
  intros Hv Ha E. rewrite history_store in E by done. apply convert_others in E as (m' & ? & ? & ?); [eauto|by apply history_supported].
Qed.
Lemma convert_unknown env id type value d s : StringToType type = Unknown -> ConvertPropertyFromString env id type value d s = (Throw, s).
Proof. intros H. unfold ConvertPropertyFromString. by rewrite decide_True by auto. Qed.
Lemma type_upper s s' : ToUpper s = ToUpper s' -> StringToType s = StringToType s'.
Proof.
  intros E. apply type_case. assert (H : forall s, ToLower (ToUpper s) = ToLower s).
  { clear. intros s. unfold ToLower, ToUpper. rewrite map_map. apply map_ext, lower_upper. }
  by rewrite <- (H s), <- (H s'), E.
Qed.
Lemma names_differ t t' : TypeToString t = TypeToString t' -> t = t'.
Proof. destruct t, t'; intros E; try done. Qed.
Lemma no_matrix : StringToType (TypeToString TMatrix) = Unknown /\ forall s, StringToType s <> TMatrix.
Proof.
  split; [done|]. intros s. unfold StringToType. repeat (case_decide as Hx; [done|clear Hx]). case_decide as H; [|done]. exfalso.
  destruct s as [|c s]; [done|]. cbn in H. injection H as H _. destruct c as [[] [] [] [] [] [] [] []]; vm_compute in H; discriminate.
Qed.
