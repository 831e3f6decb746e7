(** Splitting texts, numbers as text. *)
From Verif Require Import BaseProof StringsModel StringsSpec.
From Coq Require Import Decimal DecimalN DecimalPos.
Local Open Scope nat_scope.

(** ** One separator *)
Lemma split_nonempty c s : split_loop c [] s = [] -> s = [].
Proof.
  destruct s as [|x s]; [done|]. cbn. case_decide; [done|].
  assert (H' : forall line, line <> [] -> split_loop c line s <> []).
  { clear. induction s as [|y s IH]; intros line Hl; cbn; [by destruct line|]. case_decide; [done|]. apply IH. by destruct line. }
  intros E. by apply H' in E.
Qed.

Lemma split_no_sep c : forall s line t, c ∉ line -> t ∈ split_loop c line s -> c ∉ t.
Proof.
  induction s as [|x s IH]; intros line t Hl Ht; cbn in Ht.
  - destruct line; [by apply elem_of_nil in Ht|]. apply elem_of_list_singleton in Ht as ->. done.
  - case_decide.
    + apply elem_of_cons in Ht as [->|Ht]; [done|]. apply (IH [] t); [apply not_elem_of_nil|done].
    + apply (IH (line ++ [x]) t); [set_solver|done].
Qed.

Lemma split_join c : forall tokens, Forall (fun t => c ∉ t) tokens -> Split (join [c] tokens) c = drop_trailing_empty tokens.
Proof.
  unfold Split. assert (Hone : forall t s, c ∉ t -> split_loop c [] (t ++ [c] ++ s) = t :: split_loop c [] s).
  { intros t s. assert (H : forall line, c ∉ t -> split_loop c line (t ++ [c] ++ s) = (line ++ t) :: split_loop c [] s).
    { induction t as [|x t IH]; intros line Ht; cbn.
      - by rewrite decide_True, app_nil_r.
      - rewrite decide_False by set_solver. rewrite IH by set_solver. by rewrite <- app_assoc. }
    apply H. }
  assert (Hlast : forall t line, c ∉ t -> split_loop c line t = match line ++ t with [] => [] | l => [l] end).
  { induction t as [|x t IH]; intros line Ht; cbn.
    - rewrite app_nil_r. by destruct line.
    - rewrite decide_False by set_solver. rewrite IH by set_solver. by rewrite <- app_assoc. }
  induction tokens as [|t [|t' tokens] IH]; intros Hf; [done|..].
  - cbn [join]. rewrite Forall_cons in Hf. rewrite Hlast by tauto. unfold drop_trailing_empty. cbn. by destruct t.
  - cbn [join]. rewrite Forall_cons in Hf. destruct Hf as [Ht Hf]. rewrite Hone by done. cbn [join] in IH. rewrite (IH Hf).
    unfold drop_trailing_empty. rewrite last_cons_cons. 
    destruct (last (t' :: tokens)) as [[|]|] eqn:E; done.
Qed.

(** Joining the parts gives the text back, without a separator at its end. *)
Lemma join_split c s : s = join [c] (Split s c) \/ s = join [c] (Split s c) ++ [c].
Proof.
  unfold Split. assert (H : forall s line, let r := split_loop c line s in line ++ s = join [c] r \/ line ++ s = join [c] r ++ [c]).
  { clear s. induction s as [|x s IH]; intros line; cbn zeta; cbn [split_loop].
    - left. rewrite app_nil_r. by destruct line.
    - case_decide as Hx.
      + subst x. specialize (IH []). cbn zeta in IH. cbn [Datatypes.app] in IH. destruct (split_loop c [] s) as [|t ts] eqn:E.
        * apply split_nonempty in E as ->. right. done.
        * change (join [c] (line :: t :: ts)) with (line ++ [c] ++ join [c] (t :: ts)).
          change ([] ++ s) with s in IH. destruct IH as [E'|E']; [left|right]; rewrite E' at 1; rewrite <- ?app_assoc; done.
      + specialize (IH (line ++ [x])). cbn zeta in IH. rewrite <- app_assoc in IH. done. }
  apply (H s []).
Qed.

(** ** Several separators *)
Definition nonempty (t : text) : bool := match t with [] => false | _ => true end.

Lemma words_app cs c : c ∈ cs -> forall a word s, words cs word (a ++ c :: s) = words cs word a ++ words cs [] s.
Proof.
  intros Hc. induction a as [|x a IH]; intros word s; cbn [Datatypes.app words].
  - rewrite decide_True by done. by destruct word.
  - case_decide; [|by rewrite IH]. destruct word; by rewrite IH.
Qed.

Lemma words_other cs c : forall s word, c ∉ s -> words (c :: cs) word s = words cs word s.
Proof.
  induction s as [|x s IH]; intros word Hs; cbn [words]; [done|].
  rewrite (decide_ext (x ∈ c :: cs) (x ∈ cs)) by set_solver.
  case_decide; [|apply IH; set_solver]. destruct word; by rewrite IH by set_solver.
Qed.

Lemma words_split cs c : forall s line, c ∉ line ->
  concat (map (words cs []) (split_loop c line s)) = words (c :: cs) [] (line ++ s).
Proof.
  induction s as [|x s IH]; intros line Hl; cbn [split_loop].
  - rewrite app_nil_r. rewrite words_other by done. destruct line; [done|]. cbn [map concat]. by rewrite app_nil_r.
  - case_decide as Hx.
    + subst x. cbn [map concat]. rewrite IH by apply not_elem_of_nil. rewrite words_app by left. by rewrite (words_other cs c line []) by done.
    + rewrite IH by set_solver. by rewrite <- app_assoc.
Qed.

Lemma split_many_words cs : forall L,
  List.filter nonempty (fold_left (fun strings c => concat (map (fun t => Split t c) strings)) cs L) = concat (map (words cs []) L).
Proof.
  induction cs as [|c cs IH]; intros L; cbn [fold_left].
  - induction L as [|t L IHL]; [done|]. cbn [map concat List.filter]. rewrite IHL. clear.
    assert (H : forall t word, words [] word t = match word ++ t with [] => [] | w => [w] end).
    { clear. induction t as [|x t IH]; intros word; cbn [words]; [rewrite app_nil_r; by destruct word|].
      rewrite decide_False by apply not_elem_of_nil. rewrite IH. by rewrite <- app_assoc. }
    rewrite H. by destruct t.
  - rewrite IH. induction L as [|t L IHL]; [done|]. cbn [map concat]. rewrite map_app, concat_app, IHL. f_equal.
    unfold Split. by rewrite words_split by apply not_elem_of_nil.
Qed.

Lemma split_many_filter s cs : List.filter nonempty (SplitMany s cs) = words cs [] s.
Proof. unfold SplitMany. rewrite split_many_words. cbn. apply app_nil_r. Qed.

Lemma split_many_no_sep s cs t c : t ∈ SplitMany s cs -> c ∈ cs -> c ∉ t.
Proof.
  assert (Hsub : forall c t u x, u ∈ Split t c -> x ∈ u -> x ∈ t).
  { clear. intros c t u x Hu Hx. unfold Split in Hu.
    assert (H : forall s line, u ∈ split_loop c line s -> x ∈ line ++ s).
    { induction s as [|y s IH]; intros line Hin; cbn in Hin.
      - destruct line; [by apply elem_of_nil in Hin|]. apply elem_of_list_singleton in Hin as ->. by rewrite app_nil_r.
      - case_decide.
        + apply elem_of_cons in Hin as [->|Hin]; [set_solver|]. specialize (IH [] Hin). set_solver.
        + specialize (IH (line ++ [y]) Hin). set_solver. }
    by apply (H t []). }
  unfold SplitMany. intros Ht Hc. 
  assert (H : forall cs L t, t ∈ fold_left (fun strings c => concat (map (fun t => Split t c) strings)) cs L ->
            (forall c, c ∈ cs -> c ∉ t) /\ exists u, u ∈ L /\ forall x, x ∈ t -> x ∈ u).
  { clear -Hsub. induction cs as [|c cs IH]; intros L t Ht; cbn [fold_left] in Ht.
    - split; [intros c Hc; by apply elem_of_nil in Hc|]. by exists t.
    - apply IH in Ht as [A (u & Hu & B)]. apply elem_of_list_In, in_concat in Hu as (l & Hl & Hu). apply in_map_iff in Hl as (w & <- & Hw).
      apply elem_of_list_In in Hu. apply elem_of_list_In in Hw. split.
      + intros c' [->|Hc']%elem_of_cons; [|by apply A]. intros Hin. apply B in Hin. 
        eapply (split_no_sep c w []); [apply not_elem_of_nil|exact Hu|done].
      + exists w. split; [done|]. intros x Hx. eapply Hsub; [exact Hu|]. by apply B. }
  exact (proj1 (H cs [s] t Ht) c Hc).
Qed.

(** ** When no empty part is left *)
Lemma split_context c : forall s line t, t ∈ split_loop c line s ->
  (exists r v, t = line ++ r /\ s = r ++ v) \/ exists u v, s = u ++ [c] ++ t ++ v.
Proof.
  induction s as [|x s IH]; intros line t Ht; cbn in Ht.
  - destruct line; [by apply elem_of_nil in Ht|]. apply elem_of_list_singleton in Ht as ->. left. exists [], []. by rewrite app_nil_r.
  - case_decide as Hx.
    + subst x. apply elem_of_cons in Ht as [->|Ht]; [left; exists [], (c :: s); by rewrite app_nil_r|].
      apply IH in Ht as [(r & v & -> & ->)|(u & v & ->)]; right; [by exists [], v|by exists (c :: u), v].
    + apply IH in Ht as [(r & v & -> & ->)|(u & v & ->)].
      * left. exists (x :: r), v. by rewrite <- app_assoc.
      * right. by exists (x :: u), v.
Qed.

(** Every [d] follows a character which is not a separator. *)
Definition follows (d : ascii) (cs : list ascii) (s : text) : Prop :=
  forall a b, s = a ++ d :: b -> exists a' x, a = a' ++ [x] /\ x <> d /\ x ∉ cs.

Lemma follows_split d cs c s t : c ∈ cs -> follows d cs s -> t ∈ Split s c -> follows d cs t.
Proof.
  intros Hc Hf Ht a b E. unfold Split in Ht. apply split_context in Ht as [(r & v & -> & Es)|(u & v & Es)]; subst.
  - cbn in E. subst r. apply (Hf a (b ++ v)). by rewrite <- app_assoc.
  - destruct (Hf (u ++ [c] ++ a) (b ++ v)) as (a' & x & E & Hx & Hx'). { rewrite <- !app_assoc. done. }
    destruct a as [|y a _] using rev_ind.
    + rewrite app_nil_r in E. apply app_inj_tail in E as [_ ->]. done.
    + rewrite !app_assoc in E. apply app_inj_tail in E as [_ ->]. by exists a, x.
Qed.

Lemma follows_many d cs cs' s : (forall c, c ∈ cs' -> c ∈ cs) -> follows d cs s -> Forall (follows d cs) (SplitMany s cs').
Proof.
  intros Hsub Hf. unfold SplitMany. assert (H : Forall (follows d cs) [s]) by (constructor; [done|constructor]). clear Hf. revert H.
  generalize [s]. clear s. induction cs' as [|c cs' IH]; intros L HL; [done|]. cbn [fold_left]. apply IH; [set_solver|].
  apply Forall_forall. intros t (l & Hl & Ht)%elem_of_list_In%in_concat. apply in_map_iff in Hl as (w & <- & Hw).
  apply elem_of_list_In in Ht. apply elem_of_list_In in Hw. rewrite Forall_forall in HL. eapply follows_split; [|by apply HL|exact Ht]. set_solver.
Qed.

Lemma follows_nonempty d cs s t : follows d cs s -> t ∈ Split s d -> t <> [].
Proof.
  intros Hf Ht ->. unfold Split in Ht.
  assert (H : forall s line, (exists p, follows d cs (p ++ line ++ s) /\ (line = [] -> p = [] \/ exists p', p = p' ++ [d])) ->
            [] ∈ split_loop d line s -> False).
  { clear. induction s as [|x s IH]; intros line (p & Hf & Hp) Hin; cbn in Hin.
    - destruct line; [by apply elem_of_nil in Hin|]. by apply elem_of_list_singleton in Hin.
    - case_decide as Hx.
      + subst x. apply elem_of_cons in Hin as [<-|Hin].
        * destruct (Hf p s eq_refl) as (a' & x & E & Hx & _). destruct (Hp eq_refl) as [->|(p' & ->)]; [by destruct a'|].
          apply app_inj_tail in E as [_ ->]. done.
        * apply (IH [] ); [|done]. exists (p ++ line ++ [d]). rewrite <- !app_assoc. split; [done|]. intros _. right. exists (p ++ line). by rewrite <- app_assoc.
      + apply (IH (line ++ [x])); [|done]. exists p. rewrite <- !app_assoc. split; [done|]. by destruct line. }
  eapply (H s []); [|done]. exists []. split; [done|]. by left.
Qed.

Lemma split_many_all s cs d : follows d cs s -> SplitMany s (cs ++ [d]) = words (cs ++ [d]) [] s.
Proof.
  intros Hf. rewrite <- split_many_filter. 
  assert (H : forall t, t ∈ SplitMany s (cs ++ [d]) -> nonempty t = true).
  { intros t Ht. unfold SplitMany in Ht. rewrite fold_left_app in Ht. cbn [fold_left] in Ht.
    apply elem_of_list_In, in_concat in Ht as (l & Hl & Ht). apply in_map_iff in Hl as (w & <- & Hw).
    apply elem_of_list_In in Ht. apply elem_of_list_In in Hw.
    assert (Hw' : follows d cs w). { pose proof (follows_many d cs cs s (fun c H => H) Hf) as HF. rewrite Forall_forall in HF. by apply HF. }
    pose proof (follows_nonempty d cs w t Hw' Ht). by destruct t. }
  revert H. generalize (SplitMany s (cs ++ [d])). induction l as [|t l IH]; intros H; [done|]. cbn. rewrite H by left. f_equal. apply IH. intros. apply H. by right.
Qed.

(** ** Numbers *)
Fixpoint uint_value (acc : N) (d : Decimal.uint) : N :=
  match d with
  | Nil => acc
  | D0 d => uint_value (10 * acc + 0) d | D1 d => uint_value (10 * acc + 1) d | D2 d => uint_value (10 * acc + 2) d
  | D3 d => uint_value (10 * acc + 3) d | D4 d => uint_value (10 * acc + 4) d | D5 d => uint_value (10 * acc + 5) d
  | D6 d => uint_value (10 * acc + 6) d | D7 d => uint_value (10 * acc + 7) d | D8 d => uint_value (10 * acc + 8) d
  | D9 d => uint_value (10 * acc + 9) d
  end%N.

Lemma uint_value_pos d : forall p, N.pos (Pos.of_uint_acc d p) = uint_value (N.pos p) d.
Proof. induction d; intros p; cbn [Pos.of_uint_acc uint_value]; [done|..]; rewrite IHd; f_equal; lia. Qed.
Lemma uint_value_of d : Pos.of_uint d = uint_value 0 d.
Proof. induction d; cbn [Pos.of_uint uint_value]; [done|exact IHd|..]; by rewrite uint_value_pos. Qed.

Definition no_digit (s : text) : Prop := match s with [] => True | c :: _ => is_digit c = false end.

Lemma digits_uint d : forall acc rest, no_digit rest -> digits_from acc (uint_text d ++ rest) = (uint_value acc d, rest).
Proof.
  induction d; intros acc rest Hr; cbn [uint_text Datatypes.app digits_from uint_value].
  - destruct rest; cbn; [done|]. cbn in Hr. by rewrite Hr.
  - apply (IHd (10 * acc + 0)%N). done.
  - apply (IHd (10 * acc + 1)%N). done.
  - apply (IHd (10 * acc + 2)%N). done.
  - apply (IHd (10 * acc + 3)%N). done.
  - apply (IHd (10 * acc + 4)%N). done.
  - apply (IHd (10 * acc + 5)%N). done.
  - apply (IHd (10 * acc + 6)%N). done.
  - apply (IHd (10 * acc + 7)%N). done.
  - apply (IHd (10 * acc + 8)%N). done.
  - apply (IHd (10 * acc + 9)%N). done.
Qed.

Lemma uint_text_digits d : Forall (fun c => is_digit c = true) (uint_text d).
Proof. induction d; cbn; constructor; done. Qed.

Lemma show_N_cons n : exists c r, show_N n = c :: r /\ is_digit c = true.
Proof.
  unfold show_N. pose proof (uint_text_digits (N.to_uint n)) as H. destruct (uint_text (N.to_uint n)) as [|c r] eqn:E.
  - exfalso. assert (Hn : N.to_uint n = Nil) by (by destruct (N.to_uint n)). destruct n as [|p]; [done|]. cbn in Hn. by apply DecimalPos.Unsigned.to_uint_nonnil in Hn.
  - rewrite Forall_cons in H. exists c, r. tauto.
Qed.

Lemma digits_show n rest : no_digit rest -> digits_from 0 (show_N n ++ rest) = (n, rest).
Proof.
  intros Hr. unfold show_N. rewrite digits_uint by done. f_equal. rewrite <- uint_value_of.
  apply (DecimalN.Unsigned.of_to n).
Qed.

Lemma digit_not c : is_digit c = true -> is_space c = false /\ c <> minus /\ c <> plus /\ c ∉ vector_separators.
Proof.
  intros H. assert (Hc : (48 <= code c <= 57)%N). { unfold is_digit in H. apply andb_true_iff in H as [H1%N.leb_le H2%N.leb_le]. done. }
  split_and!; try (intros ->; vm_compute in Hc; destruct Hc as [? ?]; done).
  - unfold is_space. apply orb_false_iff. split; [apply andb_false_iff; right; by apply N.leb_gt; lia|apply N.eqb_neq; lia].
  - unfold vector_separators. rewrite !elem_of_cons, elem_of_nil. intros [->|[->|[->|[->|[->|[]]]]]]; vm_compute in Hc; destruct Hc; done.
Qed.

Lemma skip_prefix spaces s : Forall (fun c => is_space c = true) spaces -> skip_spaces (spaces ++ s) = skip_spaces s.
Proof. induction 1 as [|c l Hc _ IH]; [done|]. cbn. by rewrite Hc. Qed.

Lemma strtol_N spaces n rest : Forall (fun c => is_space c = true) spaces -> no_digit rest ->
  strtol (spaces ++ show_N n ++ rest) = Some (Z.of_N n, rest).
Proof.
  intros Hs Hr. unfold strtol. rewrite skip_prefix by done. pose proof (digits_show n rest Hr) as Hd.
  destruct (show_N_cons n) as (c & r & E & Hc). rewrite E in *. destruct (digit_not c Hc) as (H1 & H2 & H3 & _).
  cbn [Datatypes.app skip_spaces] in *. rewrite H1. rewrite decide_False, decide_False by done. rewrite Hc, Hd. done.
Qed.

Lemma strtol_Z spaces z rest : Forall (fun c => is_space c = true) spaces -> no_digit rest ->
  strtol (spaces ++ show_Z z ++ rest) = Some (z, rest).
Proof.
  intros Hs Hr. unfold show_Z. destruct (Z.ltb_spec z 0).
  - unfold strtol. rewrite skip_prefix by done. pose proof (digits_show (Z.to_N (- z)) rest Hr) as Hd.
    destruct (show_N_cons (Z.to_N (- z))) as (c & r & E & Hc). rewrite E in *. cbn [Datatypes.app skip_spaces] in *.
    change (is_space minus) with false. cbv iota. rewrite decide_True by done. rewrite Hc, Hd. do 2 f_equal. lia.
  - rewrite strtol_N by done. do 2 f_equal. lia.
Qed.

Lemma stoi_show z : int_range z = true -> stoi (show_Z z) = Ok z.
Proof.
  intros Hz. unfold stoi. pose proof (strtol_Z [] z [] (Forall_nil_2 _) I) as H. cbn [Datatypes.app] in H. rewrite app_nil_r in H. by rewrite H, Hz.
Qed.

Lemma show_Z_token z : show_Z z <> [] /\ forall c, c ∈ show_Z z -> c ∉ vector_separators.
Proof.
  assert (HN : forall n c, c ∈ show_N n -> c ∉ vector_separators).
  { intros n c Hc. pose proof (uint_text_digits (N.to_uint n)) as H. rewrite Forall_forall in H. by apply digit_not, H. }
  unfold show_Z. destruct (z <? 0)%Z.
  - split; [done|]. intros c [->|Hc]%elem_of_cons; [|by eapply HN]. unfold vector_separators, minus. rewrite !elem_of_cons, elem_of_nil. naive_solver.
  - split; [|apply HN]. destruct (show_N_cons (Z.to_N z)) as (c & r & -> & _). done.
Qed.
