(** Exact rationals with Leibniz equality, and linear arithmetic on them. *)
From stdpp Require Export numbers.
From Coq Require Export QArith Qcanon.
From Coq Require Import Lqa.
From Verif Require Export Base.
Local Open Scope nat_scope.

Lemma this_plus x y : (this (x + y)%Qc == this x + this y)%Q.
Proof. apply Qred_correct. Qed.
Lemma this_minus x y : (this (x - y)%Qc == this x - this y)%Q.
Proof. unfold Qcminus. rewrite this_plus. unfold Qcopp. cbn. rewrite Qred_correct. reflexivity. Qed.
Lemma this_mult x y : (this (x * y)%Qc == this x * this y)%Q.
Proof. apply Qred_correct. Qed.
Lemma this_opp x : (this (- x)%Qc == - this x)%Q.
Proof. apply Qred_correct. Qed.
Lemma this_Q2Qc q : (this (Q2Qc q) == q)%Q.
Proof. apply Qred_correct. Qed.
Lemma this_eq x y : (x = y <-> this x == this y)%Q.
Proof. split; [by intros ->|apply Qc_is_canon]. Qed.
Lemma this_le x y : (x <= y)%Qc <-> (this x <= this y)%Q.
Proof. done. Qed.
Lemma this_lt x y : (x < y)%Qc <-> (this x < this y)%Q.
Proof. done. Qed.
Lemma this_not_le x y : ~ (x <= y)%Qc <-> (this y < this x)%Q.
Proof. rewrite this_le. split; [apply Qnot_le_lt|apply Qlt_not_le]. Qed.
Lemma this_not_lt x y : ~ (x < y)%Qc <-> (this y <= this x)%Q.
Proof. rewrite this_lt. split; [apply Qnot_lt_le|apply Qle_not_lt]. Qed.

(** Move every hypothesis and the goal to [Q], then [lra]/[nra]. *)
Ltac to_Q :=
  repeat match goal with
  | H : @eq Qc _ _ |- _ => apply (proj1 (this_eq _ _)) in H
  | H : ~ (_ <= _)%Qc |- _ => apply (proj1 (this_not_le _ _)) in H
  | H : ~ (_ < _)%Qc |- _ => apply (proj1 (this_not_lt _ _)) in H
  | H : (?x <= ?y)%Qc |- _ => change (this x <= this y)%Q in H
  | H : (?x < ?y)%Qc |- _ => change (this x < this y)%Q in H
  end;
  try match goal with
  | |- @eq Qc _ _ => apply this_eq
  | |- ~ (_ <= _)%Qc => apply this_not_le
  | |- ~ (_ < _)%Qc => apply this_not_lt
  | |- (?x <= ?y)%Qc => change (this x <= this y)%Q
  | |- (?x < ?y)%Qc => change (this x < this y)%Q
  | |- ~ @eq Qc _ _ => let H := fresh in intros H; apply (proj1 (this_eq _ _)) in H
  end;
  repeat match goal with
  | H : (_ <= _)%Q |- _ => progress (rewrite ?this_plus, ?this_minus, ?this_mult, ?this_opp, ?this_Q2Qc in H)
  | H : (_ < _)%Q |- _ => progress (rewrite ?this_plus, ?this_minus, ?this_mult, ?this_opp, ?this_Q2Qc in H)
  | H : (_ == _)%Q |- _ => progress (rewrite ?this_plus, ?this_minus, ?this_mult, ?this_opp, ?this_Q2Qc in H)
  end;
  repeat (progress (rewrite ?this_plus, ?this_minus, ?this_mult, ?this_opp, ?this_Q2Qc)).
Ltac qlra := to_Q; lra.
Ltac qnra := to_Q; nra.


(** Computable comparisons, absolute value and maximum. *)
Definition qle (x y : Qc) : bool := Qle_bool x y.
Definition qlt (x y : Qc) : bool := negb (Qle_bool y x).
Definition qeq (x y : Qc) : bool := Qeq_bool x y.
Definition qabs (x : Qc) : Qc := if qle 0 x then x else (- x)%Qc.
Definition qmax (x y : Qc) : Qc := if qlt x y then y else x.

Lemma qle_spec x y : reflect (x <= y)%Qc (qle x y).
Proof. apply iff_reflect. unfold qle. rewrite Qle_bool_iff. done. Qed.
Lemma qlt_spec x y : reflect (x < y)%Qc (qlt x y).
Proof.
  apply iff_reflect. unfold qlt. rewrite negb_true_iff, <- not_true_iff_false, Qle_bool_iff. symmetry. apply (this_not_le y x).
Qed.
Lemma qeq_spec x y : reflect (x = y) (qeq x y).
Proof. apply iff_reflect. unfold qeq. rewrite Qeq_bool_iff. apply this_eq. Qed.

Lemma qabs_cases x : ((0 <= x)%Qc /\ qabs x = x) \/ ((x < 0)%Qc /\ qabs x = (- x)%Qc).
Proof. unfold qabs. destruct (qle_spec 0 x); [by left|right]. split; [qlra|done]. Qed.
Lemma qmax_cases x y : ((x < y)%Qc /\ qmax x y = y) \/ ((y <= x)%Qc /\ qmax x y = x).
Proof. unfold qmax. destruct (qlt_spec x y); [by left|right]. split; [qlra|done]. Qed.

(** Case split on the absolute values and maxima of the goal and hypotheses, then linear arithmetic. *)
Ltac qcases :=
  repeat match goal with
  | |- context [qabs ?x] =>
      lazymatch goal with
      | H : qabs x = _ |- _ => rewrite H
      | _ => let H1 := fresh in let H2 := fresh in destruct (qabs_cases x) as [[H1 H2]|[H1 H2]]
      end
  | H : context [qabs ?x] |- _ =>
      lazymatch type of H with
      | qabs x = _ => fail
      | _ => lazymatch goal with
             | H' : qabs x = _ |- _ => rewrite H' in H
             | _ => let H1 := fresh in let H2 := fresh in destruct (qabs_cases x) as [[H1 H2]|[H1 H2]]
             end
      end
  | |- context [qmax ?x ?y] =>
      lazymatch goal with
      | H : qmax x y = _ |- _ => rewrite H
      | _ => let H1 := fresh in let H2 := fresh in destruct (qmax_cases x y) as [[H1 H2]|[H1 H2]]
      end
  | H : context [qmax ?x ?y] |- _ =>
      lazymatch type of H with
      | qmax x y = _ => fail
      | _ => lazymatch goal with
             | H' : qmax x y = _ |- _ => rewrite H' in H
             | _ => let H1 := fresh in let H2 := fresh in destruct (qmax_cases x y) as [[H1 H2]|[H1 H2]]
             end
      end
  end.
