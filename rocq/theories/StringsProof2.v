(** Vectors as text, stream operators. *)
From Verif Require Import BaseProof StringsModel StringsSpec StringsProof.
Local Open Scope nat_scope.

(** ** Parsing a vector *)
Definition no_sep (t : text) : Prop := t <> [] /\ forall c, c ∈ t -> c ∉ vector_separators.

Lemma words_token t s word : (forall c, c ∈ t -> c ∉ vector_separators) -> words vector_separators word (t ++ s) = words vector_separators (word ++ t) s.
Proof.
  revert word. induction t as [|x t IH]; intros word Ht; [by rewrite app_nil_r|]. cbn [Datatypes.app words].
  rewrite decide_False by (apply Ht; left). rewrite IH by (intros; apply Ht; by right). by rewrite <- app_assoc.
Qed.
Lemma words_seps g s word : Forall (fun c => c ∈ vector_separators) g -> g <> [] \/ word = [] ->
  words vector_separators word (g ++ s) = (match word with [] => [] | _ => [word] end) ++ words vector_separators [] s.
Proof.
  intros Hg. revert word. induction Hg as [|x g Hx _ IH]; intros word Hw.
  - destruct Hw as [?| ->]; done.
  - cbn [Datatypes.app words]. rewrite decide_True by done. destruct word as [|y word]; rewrite IH by (by right); done.
Qed.

Lemma gap_separators g : gap_ok g -> g <> [] /\ Forall (fun c => c ∈ vector_separators) g.
Proof.
  intros (Hg & sp & rest & -> & Hsp & Hr). split; [done|]. apply Forall_app. split.
  - destruct Hsp as [->| ->]; repeat constructor.
  - eapply Forall_impl; [exact Hr|]. intros c [->| ->]; [right; left|right; right; left].
Qed.

Section elements.
Context {T : Type} (show : T -> text) (parse : text -> outcome T).

Lemma with_gaps_words x l : no_sep (show x) -> Forall (fun p : text * T => gap_ok p.1 /\ no_sep (show p.2)) l ->
  words vector_separators [] ("["%char :: with_gaps show x l ++ txt "]") = show x :: map (fun p => show p.2) l.
Proof.
  intros Hx Hl. change ("["%char :: with_gaps show x l ++ txt "]") with (txt "[" ++ (with_gaps show x l ++ txt "]")).
  rewrite words_seps; [|repeat constructor|by right]. unfold with_gaps.
  assert (H : forall l word, word <> [] -> Forall (fun p : text * T => gap_ok p.1 /\ no_sep (show p.2)) l ->
      words vector_separators word (concat (map (fun p => p.1 ++ show p.2) l) ++ txt "]") = word :: map (fun p => show p.2) l).
  { clear. induction l as [|[g y] l IH]; intros word Hw Hf; cbn [map concat fst snd].
    - cbn [Datatypes.app]. rewrite <- (app_nil_r (txt "]")). rewrite words_seps; [by destruct word| |by left].
      constructor; [|constructor]. apply elem_of_list_In; cbn; tauto.
    - rewrite Forall_cons in Hf. destruct Hf as [[Hg [Hy Hy']] Hf]. apply gap_separators in Hg as [Hg Hg'].
      rewrite <- !app_assoc. rewrite words_seps by (auto). rewrite words_token by done. rewrite IH; [by destruct word|by cbn|done]. }
  rewrite <- app_assoc. destruct Hx as [Hx Hx']. rewrite words_token by done. cbn [Datatypes.app]. by rewrite H.
Qed.

Lemma space_not_token t : no_sep t -> " "%char ∉ t.
Proof. intros [_ H] Hin. apply (H _ Hin). apply elem_of_list_In; cbn; tauto. Qed.

Lemma app_split {A} (u v a b : list A) (x : A) : u ++ v = a ++ x :: b ->
  (exists b', u = a ++ x :: b') \/ exists a', a = u ++ a' /\ v = a' ++ x :: b.
Proof.
  revert a. induction u as [|y u IH]; intros a E.
  - right. by exists a.
  - destruct a as [|z a]; [injection E as -> _; left; by exists u|]. injection E as -> E. destruct (IH a E) as [(b' & ->)|(a' & -> & ->)]; [left|right]; eauto.
Qed.

Definition front_separators : list ascii := ["["; ","; ";"; "]"]%char.
Lemma front_space c : c ∉ vector_separators -> c <> " "%char /\ c ∉ front_separators.
Proof. unfold vector_separators, front_separators. rewrite !not_elem_of_cons. intros (? & ? & ? & ? & ? & _). do 5 (split; [done|]). apply not_elem_of_nil. Qed.

Lemma with_gaps_follows x l : no_sep (show x) -> Forall (fun p : text * T => gap_ok p.1 /\ no_sep (show p.2)) l ->
  follows " "%char front_separators ("["%char :: with_gaps show x l ++ txt "]").
Proof.
  intros Hx Hl.
  assert (Hpart : forall l p t, no_sep t -> Forall (fun p : text * T => gap_ok p.1 /\ no_sep (show p.2)) l ->
     forall a b, t ++ concat (map (fun p => p.1 ++ show p.2) l) ++ txt "]" = a ++ " "%char :: b ->
     exists a' y, p ++ a = a' ++ [y] /\ y <> " "%char /\ y ∉ front_separators).
  { clear x l Hx Hl. induction l as [|[g y] l IH]; intros p t Ht Hf a b E.
    - exfalso. cbn [map concat Datatypes.app] in E.
      assert (Hin : " "%char ∈ t ++ txt "]"). { rewrite E. apply elem_of_app. right. left. }
      apply elem_of_app in Hin as [Hin|Hin]; [by apply (space_not_token t)|]. apply elem_of_list_singleton in Hin. done.
    - rewrite Forall_cons in Hf. destruct Hf as [[Hg Hy] Hf]. cbn [map concat fst snd] in *.
      apply app_split in E as [(b' & Et)|(a' & -> & E)].
      { exfalso. apply (space_not_token t Ht). rewrite Et. apply elem_of_app. right. left. }
      rewrite <- !app_assoc in E. apply app_split in E as [(b' & Eg)|(a'' & -> & E)].
      + destruct Hg as (Hg & sp & rest & E' & Hsp & Hr).
        assert (Ha : a' = []).
        { destruct a' as [|z a']; [done|]. exfalso. assert (Hin : " "%char ∈ rest).
          { destruct Hsp as [->| ->]; cbn in E'; rewrite E' in Eg; [rewrite Eg; apply elem_of_app; right; left|].
            injection Eg as _ Eg. rewrite Eg. apply elem_of_app; right; left. }
          rewrite Forall_forall in Hr. by destruct (Hr _ Hin). }
        subst a'. rewrite app_nil_r. destruct Ht as [Ht Ht']. destruct t as [|z t _] using rev_ind; [done|].
        exists (p ++ t), z. rewrite <- app_assoc. split; [done|]. apply front_space, Ht'. apply elem_of_app. right. left.
      + destruct (IH (p ++ t ++ g) (show y) Hy Hf a'' b E) as (a' & z & Ea & Hz). exists a', z. rewrite <- Ea. by rewrite <- !app_assoc. }
  intros a b E. unfold with_gaps in E. rewrite <- app_assoc in E. destruct a as [|z a]; [by injection E|]. injection E as <- E.
  destruct (Hpart l ["["%char] (show x) Hx Hl a b E) as (a' & y & Ea & Hy). by exists a', y.
Qed.

Lemma parse_vector_shown x l :
  no_sep (show x) -> Forall (fun p : text * T => gap_ok p.1 /\ no_sep (show p.2)) l ->
  parse (show x) = Ok x -> Forall (fun p : text * T => parse (show p.2) = Ok p.2) l ->
  ParseVector parse (txt "[" ++ with_gaps show x l ++ txt "]") = Ok (x :: map snd l).
Proof.
  intros Hx Hl Px Pl. unfold ParseVector. change vector_separators with (front_separators ++ [" "%char]).
  cbn [txt String.list_ascii_of_string Datatypes.app]. rewrite split_many_all by (by apply with_gaps_follows).
  change (front_separators ++ [" "%char]) with vector_separators. rewrite with_gaps_words by done. cbn [omapM]. rewrite Px. cbn [mbind outcome_bind].
  assert (H : omapM parse (map (fun p => show p.2) l) = Ok (map snd l)).
  { clear -Pl. induction Pl as [|p l Hp _ IH]; [done|]. cbn [map omapM]. rewrite Hp. cbn [mbind outcome_bind]. by rewrite IH. }
  by rewrite H.
Qed.
End elements.

Lemma parse_int_vector z l :
  int_range z = true -> Forall (fun p : text * Z => gap_ok p.1 /\ int_range p.2 = true) l ->
  ParseVector ParseInt (txt "[" ++ with_gaps show_Z z l ++ txt "]") = Ok (z :: map snd l).
Proof.
  intros Hz Hl. apply parse_vector_shown.
  - apply show_Z_token.
  - eapply Forall_impl; [exact Hl|]. intros p [Hp _]. split; [done|apply show_Z_token].
  - by apply stoi_show.
  - eapply Forall_impl; [exact Hl|]. intros p [_ Hp]. by apply stoi_show.
Qed.

Lemma parse_uint_show n : (n <= 2147483647)%N -> ParseUInt (show_N n) = Ok n.
Proof.
  intros Hn. unfold ParseUInt. pose proof (stoi_show (Z.of_N n)) as H. unfold show_Z in H.
  destruct (Z.ltb_spec (Z.of_N n) 0); [lia|]. rewrite N2Z.id in H. rewrite H.
  - cbn [mbind outcome_bind]. f_equal. rewrite Z.mod_small by lia. lia.
  - unfold int_range. apply andb_true_iff. split; apply Z.leb_le; lia.
Qed.
Lemma show_N_token n : no_sep (show_N n).
Proof.
  pose proof (show_Z_token (Z.of_N n)) as H. unfold show_Z in H. destruct (Z.ltb_spec (Z.of_N n) 0); [lia|]. rewrite N2Z.id in H. exact H.
Qed.

Lemma parse_uint_vector n l :
  (n <= 2147483647)%N -> Forall (fun p : text * N => gap_ok p.1 /\ (p.2 <= 2147483647)%N) l ->
  ParseVector ParseUInt (txt "[" ++ with_gaps show_N n l ++ txt "]") = Ok (n :: map snd l).
Proof.
  intros Hz Hl. apply parse_vector_shown.
  - apply show_N_token.
  - eapply Forall_impl; [exact Hl|]. intros p [Hp _]. split; [done|apply show_N_token].
  - by apply parse_uint_show.
  - eapply Forall_impl; [exact Hl|]. intros p [_ Hp]. by apply parse_uint_show.
Qed.

(** ** Streams *)
Lemma get_char_here c s : is_space c = false -> get_char (c :: s) = Some (c, s).
Proof. intros H. unfold get_char. cbn [skip_spaces]. by rewrite H. Qed.

Lemma no_digit_next rest : (exists rest' : text, rest = ","%char :: rest' \/ rest = "}"%char :: rest') -> no_digit rest.
Proof. by intros (r & [->| ->]). Qed.

Lemma int_reads_back z : int_range z = true -> reads_back show_Z get_int z.
Proof.
  intros Hz spaces rest Hs Hr. unfold get_int. rewrite strtol_Z by eauto using no_digit_next. by rewrite Hz.
Qed.

Lemma unsigned_reads_back n spaces rest : (N.of_nat n <= 4294967295)%N -> Forall (fun c => is_space c = true) spaces -> no_digit rest ->
  get_unsigned (spaces ++ show_N (N.of_nat n) ++ rest) = Some (n, rest).
Proof.
  intros Hn Hs Hr. unfold get_unsigned. rewrite strtol_N by done. rewrite (proj2 (Z.leb_le _ _)) by lia. do 2 f_equal.
  rewrite Z.mod_small by lia. lia.
Qed.

Section streams.
Context {T : Type} (put : T -> text) (get : text -> option (T * text)).

Lemma elements_read_back sep v spaces rest last : (sep = txt "," \/ sep = txt ", ") -> Forall (reads_back put get) v -> v <> [] ->
  Forall (fun c => is_space c = true) spaces -> last = "}"%char ->
  get_elements get (length v) (spaces ++ put_elements put sep true v ++ last :: rest) = Some (v, rest).
Proof.
  intros Hsep Hv Hne Hs ->. assert (H : forall x v spaces, Forall (fun c => is_space c = true) spaces -> reads_back put get x -> Forall (reads_back put get) v ->
    get_elements get (S (length v)) (spaces ++ (put x ++ put_elements put sep false v) ++ "}"%char :: rest) = Some (x :: v, rest)).
  { clear -Hsep. intros x v. revert x. induction v as [|y v IH]; intros x spaces Hs Hx Hv.
    - cbn [length put_elements]. rewrite app_nil_r. cbn [get_elements]. rewrite Hx by eauto. cbn [mbind option_bind].
      rewrite get_char_here by done. done.
    - rewrite Forall_cons in Hv. destruct Hv as [Hy Hv]. cbn [length put_elements].
      change (get_elements get (S (S (length v)))) with (fun s : text => '(x, s) ← get s; '(_, s) ← get_char s; '(v, s) ← get_elements get (S (length v)) s; Some (x :: v, s)).
      cbv beta. rewrite <- !app_assoc. rewrite Hx; [|done|destruct Hsep as [->| ->]; cbn; eauto]. cbn [mbind option_bind].
      destruct Hsep as [->| ->]; cbn [txt String.list_ascii_of_string Datatypes.app]; rewrite get_char_here by done; cbn [mbind option_bind].
      + specialize (IH y []). cbn [txt String.list_ascii_of_string Datatypes.app] in IH. rewrite <- app_assoc in IH. rewrite IH; auto.
      + specialize (IH y [" "%char]). cbn [txt String.list_ascii_of_string Datatypes.app] in IH. rewrite <- app_assoc in IH. rewrite IH; auto. }
  destruct v as [|x v]; [done|]. rewrite Forall_cons in Hv. cbn [length put_elements]. cbn [Datatypes.app]. apply H; tauto.
Qed.

Lemma vector_reads_back_any v spaces rest : (N.of_nat (length v) <= 4294967295)%N -> Forall (reads_back put get) v ->
  Forall (fun c => is_space c = true) spaces ->
  get_vector get (spaces ++ put_vector put v ++ rest) = Some (v, rest).
Proof.
  intros Hn Hv Hs. unfold get_vector, put_vector. rewrite <- !app_assoc. rewrite unsigned_reads_back by done. cbn [mbind option_bind].
  cbn [txt String.list_ascii_of_string Datatypes.app]. rewrite get_char_here by done. cbn [mbind option_bind]. rewrite get_char_here by done. cbn [mbind option_bind].
  destruct (decide (v = [])) as [->|Hne].
  - cbn [length put_elements get_elements Datatypes.app mbind option_bind Nat.eqb]. by rewrite get_char_here.
  - pose proof (elements_read_back [","%char] v [] rest "}"%char (or_introl eq_refl) Hv Hne (Forall_nil_2 _) eq_refl) as H.
    cbn [Datatypes.app] in H. rewrite H. cbn [mbind option_bind]. by destruct v.
Qed.

Lemma vector_reads_back v : (N.of_nat (length v) <= 4294967295)%N -> Forall (reads_back put get) v ->
  reads_back (put_vector put) (get_vector get) v.
Proof. intros Hn Hv spaces rest Hs _. by apply vector_reads_back_any. Qed.

Lemma columns_read_back rows l rest : rows <> 0 -> l <> [] ->
  Forall (fun c => length c = rows /\ Forall (reads_back put get) c) l ->
  get_columns get rows (length l) (put_columns put true l ++ "}"%char :: rest) = Some (l, rest).
Proof.
  intros Hrows Hne Hl.
  assert (Hcol : forall c tail, length c = rows -> Forall (reads_back put get) c ->
    get_elements get rows (put_elements put [","%char; " "%char] true c ++ "}"%char :: tail) = Some (c, tail)).
  { intros c tail Hc HF. pose proof (elements_read_back [","; " "]%char c [] tail "}"%char (or_intror eq_refl) HF) as H.
    cbn [Datatypes.app] in H. rewrite Hc in H. apply H; [by intros ->|constructor|done]. }
  assert (H : forall l c, length c = rows -> Forall (reads_back put get) c -> Forall (fun c => length c = rows /\ Forall (reads_back put get) c) l ->
     get_columns get rows (S (length l)) ("{"%char :: put_elements put [","%char; " "%char] true c ++ "}"%char :: put_columns put false l ++ "}"%char :: rest) = Some (c :: l, rest)).
  { clear -Hcol. induction l as [|d l IH]; intros c Hc HF Hl.
    - cbn [length get_columns put_columns Datatypes.app]. rewrite get_char_here by done. cbn [mbind option_bind]. rewrite Hcol by done. cbn [mbind option_bind].
      by rewrite get_char_here by done.
    - rewrite Forall_cons in Hl. destruct Hl as [[Hd HFd] Hl]. cbn [length].
      change (get_columns get rows (S (S (length l)))) with (fun s : text => '(_, s) ← get_char s; '(c, s) ← get_elements get rows s; '(_, s) ← get_char s;
         '(l, s) ← get_columns get rows (S (length l)) s; Some (c :: l, s)). cbv beta.
      rewrite get_char_here by done. cbn [mbind option_bind]. rewrite Hcol by done. cbn [mbind option_bind].
      cbn [put_columns txt String.list_ascii_of_string Datatypes.app]. rewrite get_char_here by done. cbn [mbind option_bind].
      specialize (IH d Hd HFd Hl). rewrite <- !app_assoc. cbn [Datatypes.app]. by rewrite IH. }
  destruct l as [|c l]; [done|]. rewrite Forall_cons in Hl. destruct Hl as [[Hc HF] Hl].
  cbn [length put_columns txt String.list_ascii_of_string Datatypes.app]. rewrite <- !app_assoc. cbn [Datatypes.app]. by apply H.
Qed.

Lemma matrix_reads_back_any m spaces rest : well_formed m -> (mrows m <> 0 \/ mcols m = 0) ->
  (N.of_nat (mrows m) <= 4294967295)%N -> (N.of_nat (mcols m) <= 4294967295)%N -> Forall (Forall (reads_back put get)) (mcolumns m) ->
  Forall (fun c => is_space c = true) spaces ->
  get_matrix get (spaces ++ put_matrix put m ++ rest) = Some (m, rest).
Proof.
  intros [Hc Hr] Hz Hbr Hbc HF Hs. destruct m as [rows cols l]. cbn [mrows mcols mcolumns] in *. subst cols.
  unfold get_matrix, put_matrix. cbn [mrows mcols mcolumns]. rewrite <- !app_assoc. rewrite unsigned_reads_back by done. cbn [mbind option_bind].
  cbn [txt String.list_ascii_of_string Datatypes.app]. rewrite get_char_here by done. cbn [mbind option_bind].
  pose proof (unsigned_reads_back (length l) [] (","%char :: "{"%char :: put_columns put true l ++ "}"%char :: rest) Hbc (Forall_nil_2 _) eq_refl) as H.
  cbn [Datatypes.app] in H. rewrite H. clear H. cbn [mbind option_bind].
  rewrite get_char_here by done. cbn [mbind option_bind]. rewrite get_char_here by done. cbn [mbind option_bind].
  destruct (decide (l = [])) as [->|Hne].
  - cbn [length get_columns put_columns Datatypes.app mbind option_bind Nat.eqb]. by rewrite get_char_here.
  - rewrite columns_read_back; [by destruct l|destruct Hz; [done|by destruct l]|done|].
    rewrite Forall_forall in Hr, HF. apply Forall_forall. intros c Hin. split; [by apply Hr|by apply HF].
Qed.

(** Without rows the value is restored, but not the position in the stream. *)
Lemma columns_no_rows cols s rest : Forall (fun c => is_space c = false) s -> 2 * cols <= length s ->
  get_columns get 0 cols (s ++ rest) = Some (replicate cols [], drop (2 * cols) s ++ rest).
Proof.
  revert s. induction cols as [|cols IH]; intros s Hs Hl; [by rewrite drop_0|]. destruct s as [|a [|b s]]; cbn [length] in Hl; [lia..|].
  rewrite !Forall_cons in Hs. destruct Hs as (Ha & Hb & Hs). cbn [get_columns Datatypes.app].
  rewrite get_char_here by done. cbn [mbind option_bind get_elements]. rewrite get_char_here by done. cbn [mbind option_bind].
  rewrite IH by (done || lia). cbn [mbind option_bind]. replace (2 * S cols) with (S (S (2 * cols))) by lia. done.
Qed.

Lemma empty_columns_text l first : Forall (fun c : list T => length c = 0) l ->
  Forall (fun c => is_space c = false) (put_columns put first l) /\ 2 * length l <= length (put_columns put first l).
Proof.
  intros H. revert first. induction H as [|c l Hc _ IH]; intros first; [split; [constructor|done]|].
  destruct c; [|done]. destruct (IH false) as [H1 H2]. cbn [put_columns put_elements length Datatypes.app].
  split; [|destruct first; cbn [txt String.list_ascii_of_string Datatypes.app length]; lia].
  destruct first; cbn [txt String.list_ascii_of_string Datatypes.app]; repeat constructor; done.
Qed.

Lemma matrix_no_rows m rest : well_formed m -> mrows m = 0 -> (N.of_nat (mcols m) <= 4294967295)%N ->
  exists rest', get_matrix get (put_matrix put m ++ rest) = Some (m, rest').
Proof.
  intros [Hc Hr] Hz Hbc. destruct m as [rows cols l]. cbn [mrows mcols mcolumns] in *. subst cols rows.
  unfold get_matrix, put_matrix. cbn [mrows mcols mcolumns]. rewrite <- !app_assoc.
  pose proof (unsigned_reads_back 0 [] (txt "," ++ show_N (N.of_nat (length l)) ++ txt "," ++ txt "{" ++ put_columns put true l ++ txt "}" ++ rest) ltac:(lia) (Forall_nil_2 _) eq_refl) as H.
  cbn [Datatypes.app] in H. rewrite H. clear H. cbn [mbind option_bind].
  cbn [txt String.list_ascii_of_string Datatypes.app]. rewrite get_char_here by done. cbn [mbind option_bind].
  pose proof (unsigned_reads_back (length l) [] (","%char :: "{"%char :: put_columns put true l ++ "}"%char :: rest) Hbc (Forall_nil_2 _) eq_refl) as H.
  cbn [Datatypes.app] in H. rewrite H. clear H. cbn [mbind option_bind].
  rewrite get_char_here by done. cbn [mbind option_bind]. rewrite get_char_here by done. cbn [mbind option_bind].
  destruct (empty_columns_text l true Hr) as [Ht Hlen]. rewrite columns_no_rows by done. cbn [mbind option_bind].
  assert (E : replicate (length l) [] = l).
  { clear -Hr. induction Hr as [|c l Hc _ IH]; [done|]. destruct c; [|done]. cbn. by rewrite IH. }
  rewrite E. destruct (decide (l = [])) as [->|Hne].
  - cbn [length Nat.eqb]. exists rest. cbn [put_columns drop Datatypes.app Nat.mul].
    change (drop (0 + (0 + 0)) [] ++ "}"%char :: rest) with ("}"%char :: rest). rewrite get_char_here by done. done.
  - destruct l; [done|]. cbn [length Nat.eqb]. eauto.
Qed.
End streams.

Lemma matrix_back {T} (put : T -> text) (get : text -> option (T * text)) m rest :
  well_formed m -> (N.of_nat (mrows m) <= 4294967295)%N -> (N.of_nat (mcols m) <= 4294967295)%N ->
  Forall (Forall (reads_back put get)) (mcolumns m) ->
  exists rest', get_matrix get (put_matrix put m ++ rest) = Some (m, rest') /\ (mrows m <> 0 \/ mcols m = 0 -> rest' = rest).
Proof.
  intros Hm Hr Hc HF. destruct (decide (mrows m <> 0 \/ mcols m = 0)) as [Hd|Hd].
  - exists rest. split; [|done]. apply (matrix_reads_back_any put get m [] rest); auto.
  - destruct (matrix_no_rows put get m rest) as (rest' & E); [done|lia|done|]. exists rest'. split; [done|]. intros ?. by destruct Hd.
Qed.

Lemma split_many_filter' s cs : List.filter (fun t => bool_decide (t <> [])) (SplitMany s cs) = words cs [] s.
Proof.
  rewrite <- split_many_filter. induction (SplitMany s cs) as [|t l IH]; [done|]. cbn [List.filter]. rewrite IH. by destruct t.
Qed.
