(** Reading the lines of a file. *)
From Verif Require Import Base BaseProof StringsModel StringsProof CsrModel MeshModel MeshSpec MeshHist CsvModel CsvSpec.
From Coq Require Import Ascii ZifyBool ZifyNat ZifyN.

(** ** Lines *)

Lemma split_line c l : forall acc rest, c ∉ l -> split_loop c acc (l ++ c :: rest) = (acc ++ l) :: split_loop c [] rest.
Proof.
  induction l as [|x l IH]; intros acc rest H; cbn [Datatypes.app split_loop].
  - by rewrite decide_True, app_nil_r by done.
  - apply not_elem_of_cons in H as [H1 H2]. rewrite decide_False by done. rewrite IH by done. by rewrite <- app_assoc.
Qed.

Lemma split_content sep rows :
  Forall (fun fields => newline ∉ join sep fields) rows -> Split (content sep rows) newline = map (join sep) rows.
Proof.
  unfold Split. induction 1 as [|fields rows H _ IH]; [done|].
  unfold content. cbn [map concat]. rewrite <- app_assoc. cbn [Datatypes.app]. rewrite split_line by done. cbn. f_equal. exact IH.
Qed.

Lemma import_content {A} (parse : text -> outcome A) sep header rows :
  newline ∉ join sep header -> Forall (fun fields => newline ∉ join sep fields) rows ->
  import_rows parse (Some (content sep (header :: rows))) = omapM parse (map (join sep) rows).
Proof. intros H1 H2. unfold import_rows. by rewrite split_content by (by constructor). Qed.

Lemma join_line sep fields : sep <> newline -> Forall (fun t => newline ∉ t) fields -> newline ∉ join sep fields.
Proof.
  intros Hs H. induction H as [|t ts Ht Hts IH]; [set_solver|]. destruct ts as [|u ts]; [done|].
  change (join sep (t :: u :: ts)) with (t ++ [sep] ++ join sep (u :: ts)). rewrite !elem_of_app, elem_of_list_singleton. naive_solver.
Qed.

(** ** Fields *)

Definition clean (t : text) : Prop := exists c r, t = c :: r /\ is_space c = false.
Definition rest (sep : ascii) (ts : list text) : text := match ts with [] => [] | _ => sep :: join sep ts end.

Lemma join_cons sep t ts : join sep (t :: ts) = t ++ rest sep ts.
Proof. destruct ts; cbn; [by rewrite app_nil_r|done]. Qed.

Lemma skip_clean t s : clean t -> skip_spaces (t ++ s) = t ++ s.
Proof. intros (c & r & -> & H). cbn. by rewrite H. Qed.

Lemma skip_join sep ts : Forall clean ts -> skip_spaces (join sep ts) = join sep ts.
Proof. intros H. destruct ts as [|t ts]; [done|]. rewrite join_cons. apply skip_clean. by inversion H. Qed.

Lemma skip_skip s : skip_spaces (skip_spaces s) = skip_spaces s.
Proof. induction s as [|c s IH]; [done|]. cbn. destruct (is_space c) eqn:E; [done|]. cbn. by rewrite E. Qed.

Lemma skip_rest sep ts : separator_ok sep -> Forall clean ts -> skip_spaces (skip_sep sep (rest sep ts)) = join sep ts.
Proof.
  intros [Hd Hs] Ht. unfold skip_sep. case_decide as E.
  - subst sep. destruct ts as [|t ts]; [done|]. unfold rest. cbn [skip_spaces]. change (is_space " ") with true. cbv iota.
    by apply skip_join.
  - destruct Hs as [|Hs]; [done|]. destruct ts as [|t ts]; [done|]. unfold rest. cbn [skip_spaces]. rewrite Hs. by apply skip_join.
Qed.

Lemma rest_digit sep ts : separator_ok sep -> no_digit (rest sep ts).
Proof. intros [H _]. destruct ts; [done|]. cbn. done. Qed.

Lemma show_clean n : clean (show_N n).
Proof. destruct (show_N_cons n) as (c & r & E & H). exists c, r. split; [done|]. by apply digit_not. Qed.

Lemma show_line n : newline ∉ show_N n.
Proof.
  intros H. unfold show_N in H. pose proof (uint_text_digits (N.to_uint n)) as Hd. rewrite Forall_forall in Hd. by apply Hd in H.
Qed.

Lemma strtol_skip s : strtol s = strtol (skip_spaces s).
Proof. unfold strtol. by rewrite skip_skip. Qed.

(** The stream stands before the fields [ts]. *)
Definition ready (sep : ascii) (ts : list text) (s : text) : Prop := skip_spaces s = join sep ts.

Lemma ready_start sep ts : Forall clean ts -> ready sep ts (join sep ts).
Proof. apply skip_join. Qed.

Lemma ready_rest sep ts : separator_ok sep -> Forall clean ts -> ready sep ts (skip_sep sep (rest sep ts)).
Proof. apply skip_rest. Qed.

Lemma uint_ready sep v ts s : separator_ok sep -> fits v -> ready sep (show_N v :: ts) s -> get_uint s = Ok (v, rest sep ts).
Proof.
  intros Hs Hv H. unfold get_uint. rewrite strtol_skip, H, join_cons.
  pose proof (strtol_N [] v (rest sep ts) (Forall_nil_2 _) (rest_digit sep ts Hs)) as E. cbn [Datatypes.app] in E. rewrite E.
  unfold fits, UINT_MAX in Hv. rewrite (proj2 (Z.leb_le _ _)) by lia. rewrite Z.mod_small by lia. by rewrite N2Z.id.
Qed.

Lemma bool_ready sep b ts s : separator_ok sep -> ready sep (show_bool b :: ts) s -> get_bool s = Ok (b, rest sep ts).
Proof.
  intros Hs H. unfold get_bool.
  assert (E : show_bool b = show_N (if b then 1 else 0)%N) by (by destruct b). rewrite E in H.
  rewrite (uint_ready sep (if b then 1 else 0)%N ts s Hs); [by destruct b|by destruct b|done].
Qed.

Lemma show_bool_clean b : clean (show_bool b).
Proof. destruct b; eexists _, _; done. Qed.
Lemma show_bool_line b : newline ∉ show_bool b.
Proof. destruct b; cbn; rewrite elem_of_list_singleton; done. Qed.

Lemma real_ready k sep finite x ts s :
  codec_ok k sep finite -> finite x -> ready sep (put_double k x :: ts) s -> get_real k s = Ok (x, rest sep ts).
Proof.
  intros Hk Hx H. unfold get_real. rewrite H, join_cons.
  rewrite (co_read _ _ _ Hk x (rest sep ts) Hx); [done|]. destruct ts; [by left|right; eauto].
Qed.
Lemma real_clean k sep finite x : codec_ok k sep finite -> finite x -> clean (put_double k x).
Proof. intros Hk Hx. apply (co_start _ _ _ Hk x Hx). Qed.

(** ** Lists of numbers *)

Definition list_fields (vs : list N) : list text := show_nat (length vs) :: map show_N vs.
Definition lists_fields (ls : list (list N)) : list text := concat (map list_fields ls).

Lemma list_fields_clean vs : Forall clean (list_fields vs).
Proof. constructor; [apply show_clean|]. apply Forall_forall. intros t (v & <- & _)%elem_of_list_In%in_map_iff. apply show_clean. Qed.
Lemma lists_fields_clean ls : Forall clean (lists_fields ls).
Proof. unfold lists_fields. induction ls; cbn [map concat]; [constructor|]. apply Forall_app. split; [apply list_fields_clean|done]. Qed.
Lemma list_fields_line vs : Forall (fun t => newline ∉ t) (list_fields vs).
Proof. constructor; [apply show_line|]. apply Forall_forall. intros t (v & <- & _)%elem_of_list_In%in_map_iff. apply show_line. Qed.
Lemma lists_fields_line ls : Forall (fun t => newline ∉ t) (lists_fields ls).
Proof. unfold lists_fields. induction ls; cbn [map concat]; [constructor|]. apply Forall_app. split; [apply list_fields_line|done]. Qed.

Lemma entries_ready sep vs : separator_ok sep -> Forall fits vs ->
  forall ts s, Forall clean ts -> ready sep (map show_N vs ++ ts) s -> exists s', get_entries sep (length vs) s = Ok (vs, s') /\ ready sep ts s'.
Proof.
  intros Hs Hv. induction Hv as [|v vs Hv Hvs IH]; intros ts s Ht H; [by exists s|].
  cbn [length get_entries map Datatypes.app] in *. rewrite (uint_ready sep v _ s Hs Hv H). cbn [mbind outcome_bind].
  destruct (IH ts (skip_sep sep (rest sep (map show_N vs ++ ts))) Ht) as (s' & E & H').
  { apply ready_rest; [done|]. apply Forall_app. split; [|done]. by pose proof (list_fields_clean vs) as [_ ?]%Forall_cons. }
  exists s'. rewrite E. done.
Qed.

Lemma list_ready sep vs ts s : separator_ok sep -> Forall fits vs -> fits (N.of_nat (length vs)) -> Forall clean ts ->
  ready sep (list_fields vs ++ ts) s -> exists s', get_list sep s = Ok (vs, s') /\ ready sep ts s'.
Proof.
  intros Hs Hv Hl Ht H. unfold get_list. cbn [list_fields Datatypes.app] in H. unfold show_nat in H.
  rewrite (uint_ready sep _ _ s Hs Hl H). cbn [mbind outcome_bind]. rewrite Nat2N.id. apply entries_ready; [done..|].
  apply ready_rest; [done|]. apply Forall_app. split; [|done]. by pose proof (list_fields_clean vs) as [_ ?]%Forall_cons.
Qed.

Lemma lists_ready sep ls : separator_ok sep -> Forall (fun vs => Forall fits vs /\ fits (N.of_nat (length vs))) ls ->
  forall ts s, Forall clean ts -> ready sep (lists_fields ls ++ ts) s -> exists s', get_lists sep (length ls) s = Ok (ls, s') /\ ready sep ts s'.
Proof.
  intros Hs Hl. induction Hl as [|vs ls [Hv Hn] Hls IH]; intros ts s Ht H; [by exists s|].
  cbn [length get_lists]. unfold lists_fields in H. cbn [map concat] in H. rewrite <- app_assoc in H.
  assert (Hc : Forall clean (concat (map list_fields ls) ++ ts)) by (apply Forall_app; split; [apply lists_fields_clean|done]).
  destruct (list_ready sep vs _ s Hs Hv Hn Hc H) as (s1 & E1 & H1).
  rewrite E1. cbn [mbind outcome_bind]. destruct (IH ts s1 Ht H1) as (s2 & E2' & H2). exists s2. by rewrite E2'.
Qed.

Lemma values_ready k sep finite xs : separator_ok sep -> codec_ok k sep finite -> Forall finite xs ->
  get_values k sep (length xs) (rest sep (map (put_double k) xs)) = Ok (xs, []).
Proof.
  intros Hs Hk Hx. induction Hx as [|x xs Hx Hxs IH]; [done|]. cbn [length get_values map].
  rewrite (real_ready k sep finite x (map (put_double k) xs) _ Hk Hx).
  - cbn [mbind outcome_bind]. by rewrite IH.
  - apply ready_rest; [done|]. constructor; [by eapply real_clean|].
    apply Forall_forall. intros t (v & <- & Hv)%elem_of_list_In%in_map_iff. eapply real_clean; [done|].
    rewrite Forall_forall in Hxs. apply Hxs. by apply elem_of_list_In.
Qed.
