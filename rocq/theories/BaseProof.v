(** Lemmas about [Base]. *)
From Verif Require Import Base.
From Coq Require Import ZifyBool ZifyNat ZifyN.

Lemma bind_ok {A B} (f : A -> outcome B) x b :
  x ≫= f = Ok b <-> exists a, x = Ok a /\ f a = Ok b.
Proof.
  destruct x; cbn; split; intros H; try (destruct H as (?&?&?)); try discriminate; eauto.
  injection H as ->. done.
Qed.

Lemma bind_Ok {A B} (f : A -> outcome B) (a : A) : Ok a ≫= f = f a.
Proof. done. Qed.

Lemma require_ok b u : require b = Ok u <-> b = true.
Proof. destruct b, u; cbn; split; congruence. Qed.

Lemma vget_ok {A} (l : list A) i a : vget l i = Ok a <-> l !! i = Some a.
Proof. unfold vget. destruct (l !! i); split; congruence. Qed.

Lemma vat_ok {A} (l : list A) i a : vat l i = Ok a <-> l !! i = Some a.
Proof. unfold vat. destruct (l !! i); split; congruence. Qed.

Lemma vset_ok {A} (l : list A) i a l' :
  vset l i a = Ok l' <-> i < length l /\ l' = <[i := a]> l.
Proof. unfold vset. case_decide; split; intros; naive_solver. Qed.

Lemma vget_Ok {A} (l : list A) i a : l !! i = Some a -> vget l i = Ok a.
Proof. by rewrite vget_ok. Qed.

Lemma vat_Ok {A} (l : list A) i a : l !! i = Some a -> vat l i = Ok a.
Proof. by rewrite vat_ok. Qed.

Lemma vset_Ok {A} (l : list A) i a : i < length l -> vset l i a = Ok (<[i := a]> l).
Proof. by rewrite vset_ok. Qed.

Lemma verase_ok {A} (l : list A) i l' :
  verase l i = Ok l' <-> i < length l /\ l' = delete i l.
Proof.
  unfold verase. rewrite delete_take_drop. case_decide; split; intros; naive_solver.
Qed.

Lemma verase_range_ok {A} (l : list A) i j l' :
  verase_range l i j = Ok l' <-> (i <= j <= length l) /\ l' = take i l ++ drop j l.
Proof. unfold verase_range. case_decide; split; intros; naive_solver. Qed.

Lemma vresize_length {A} (l : list A) n d : length (vresize l n d) = n.
Proof. unfold vresize. rewrite app_length, take_length, replicate_length. lia. Qed.

Lemma vresize_lookup {A} (l : list A) n d i :
  vresize l n d !! i =
  if decide (i < n) then (if decide (i < length l) then l !! i else Some d) else None.
Proof.
  unfold vresize. repeat case_decide.
  - rewrite lookup_app_l by (rewrite take_length; lia). apply lookup_take. lia.
  - rewrite lookup_app_r by (rewrite take_length; lia).
    apply lookup_replicate. rewrite take_length. split; [done|lia].
  - apply lookup_ge_None. rewrite app_length, take_length, replicate_length. lia.
Qed.

Lemma vresize_resize {A} (l : list A) n d : vresize l n d = resize n d l.
Proof. unfold vresize. by rewrite resize_spec. Qed.

Lemma ofold_app {A B} (f : B -> A -> outcome B) l1 l2 b :
  ofold f (l1 ++ l2) b = ofold f l1 b ≫= ofold f l2.
Proof.
  revert b. induction l1 as [|a l1 IH]; intros b; cbn; [done|].
  destruct (f b a); cbn; auto.
Qed.

(** Invariant rule for loops that succeed. *)
Lemma ofold_inv {A B} (P : B -> Prop) (f : B -> A -> outcome B) l b b' :
  P b -> (forall b a b', In a l -> P b -> f b a = Ok b' -> P b') ->
  ofold f l b = Ok b' -> P b'.
Proof.
  revert b. induction l as [|a l IH]; intros b HP Hf H; cbn in H.
  - by injection H as <-.
  - apply bind_ok in H as (b1 & Hb1 & H). eapply (IH b1); eauto.
    + eapply Hf; eauto. by left.
    + intros ? ? ? HI. eapply Hf. by right.
Qed.

Lemma ofold_ok_rule {A B} (P : B -> Prop) (f : B -> A -> outcome B) l b :
  P b -> (forall b a, In a l -> P b -> exists b', f b a = Ok b' /\ P b') ->
  exists b', ofold f l b = Ok b' /\ P b'.
Proof.
  revert b. induction l as [|a l IH]; intros b HP Hf; cbn.
  - eauto.
  - destruct (Hf b a) as (b1 & -> & HP1); [by left|done|]. cbn.
    apply IH; [done|]. intros ? ? ?. apply Hf. by right.
Qed.

Lemma omapM_ok {A B} (f : A -> outcome B) l bs :
  omapM f l = Ok bs <-> Forall2 (fun a b => f a = Ok b) l bs.
Proof.
  revert bs. induction l as [|a l IH]; intros bs; cbn.
  - split; intros H; [injection H as <-; constructor | by inversion H].
  - rewrite bind_ok. split.
    + intros (b & Hb & H). apply bind_ok in H as (bs' & H & [= <-]).
      constructor; [done|]. by apply IH.
    + intros H. inversion H; subst. eexists. split; [done|].
      apply bind_ok. eexists. split; [by apply IH|done].
Qed.
