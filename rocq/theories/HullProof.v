(** * Convex hulls: the scan. *)
From Coq Require Import QArith Qcanon Sorted.
From Verif Require Import Base QcTac FillModel GeoModel MapModel PointModel PointSpec PointProof PolyModel PolySpec PolyProof
  TriProof EarProof ConvexProof HullModel.
Local Open Scope Qc_scope.

(** The hull is built clockwise. *)
Definition mo (a b c : vec3) : Qc := orient c b a.
Lemma mo_same1 a b : mo a b a = 0. Proof. unfold mo, orient. ring. Qed.
Lemma mo_same2 a b : mo a b b = 0. Proof. unfold mo, orient. ring. Qed.
Lemma mo_same3 a b : mo a a b = 0. Proof. unfold mo, orient. ring. Qed.
Lemma mo_rotate a b c : mo b c a = mo a b c. Proof. unfold mo, orient. ring. Qed.
Lemma mo_rotate2 a b c : mo c a b = mo a b c. Proof. unfold mo, orient. ring. Qed.
Lemma mo_swap a b c : mo a c b = - mo a b c. Proof. unfold mo, orient. ring. Qed.
Lemma mo_swap1 a b c : mo b a c = - mo a b c. Proof. unfold mo, orient. ring. Qed.

Section center.
Context (o : vec3).

(** [x] comes after [p] in the order around [o]. *)
Definition after (p x : vec3) : Prop := 0 < mo o p x \/ exists l, 1 < l /\ on_line o p l x.
Lemma on_line_mo p l x : on_line o p l x -> mo o p x = 0.
Proof. unfold on_line, mo, orient. intros ->. cbn [fst snd]. ring. Qed.
Lemma after_nonneg p x : after p x -> 0 <= mo o p x.
Proof. intros [H|(l & L & OL)]; [by apply Qclt_le_weak|]. rewrite (on_line_mo p l x OL). done. Qed.
Lemma after_zero p x : after p x -> mo o p x = 0 -> exists l, 1 < l /\ on_line o p l x.
Proof. intros [H|H] Z; [rewrite Z in H; qlra|done]. Qed.
Lemma on_line_mo1 p l x a b : on_line o p l x -> mo a b x = l * mo a b p + (1 - l) * mo a b o.
Proof. unfold on_line, mo, orient. intros ->. cbn [fst snd]. ring. Qed.
Lemma on_line_mo2 p l x a b : on_line o p l x -> mo a x b = l * mo a p b + (1 - l) * mo a o b.
Proof. unfold on_line, mo, orient. intros ->. cbn [fst snd]. ring. Qed.
Lemma on_line_mo3 p l x a b : on_line o p l x -> mo x a b = l * mo p a b + (1 - l) * mo o a b.
Proof. unfold on_line, mo, orient. intros ->. cbn [fst snd]. ring. Qed.
Lemma positive_factor (k x : Qc) : 0 < k -> 0 <= k * x -> 0 <= x.
Proof.
  intros K H. destruct (Qclt_le_dec x 0) as [L|]; [|done]. exfalso.
  pose proof (times_pos k (- x) K ltac:(qlra)) as P. replace (k * - x) with (- (k * x)) in P by ring. qlra.
Qed.

(** ** Four points *)

(** Edges below see what the top edge sees. *)
Lemma chain_weak c b a x : (c = o \/ after c b) -> after b a -> after b x -> after a x -> 0 <= mo c b a -> 0 <= mo b a x -> 0 <= mo c b x.
Proof.
  intros C BA BX AX T K.
  assert (0 <= mo o c b) as OCB by (destruct C as [-> |C]; [rewrite mo_same3; done|by apply after_nonneg]).
  pose proof (after_nonneg _ _ BX) as OBX.
  destruct (Qcle_lt_or_eq _ _ (after_nonneg _ _ BA)) as [P|Z].
  - apply (positive_factor (mo o b a)); [done|].
    replace (mo o b a * mo c b x) with (mo o c b * mo b a x + mo o b x * mo c b a) by (unfold mo, orient; ring).
    pose proof (times_nonneg _ _ OCB K). pose proof (times_nonneg _ _ OBX T). qlra.
  - symmetry in Z. destruct (after_zero _ _ BA Z) as (l & L & OL).
    assert (mo c b a = - (l - 1) * mo o c b) as E.
    { rewrite (on_line_mo1 _ _ _ _ _ OL), mo_same2. rewrite (mo_rotate o c b). ring. }
    assert (mo o c b = 0) as Z2.
    { pose proof (times_nonneg (l - 1) (mo o c b) ltac:(qlra) OCB). rewrite E in T.
      replace (- (l - 1) * mo o c b) with (- ((l - 1) * mo o c b)) in T by ring.
      assert ((l - 1) * mo o c b = 0) as Q by qlra. apply Qcmult_integral in Q. destruct Q as [Q|Q]; [qlra|done]. }
    destruct C as [-> |C]; [done|]. destruct (after_zero _ _ C Z2) as (m & M & OM).
    (* b = o + m (c - o) *)
    apply (positive_factor m); [qlra|].
    replace (m * mo c b x) with ((m - 1) * mo o b x).
    + apply times_nonneg; [qlra|done].
    + pose proof (on_line_mo3 c m b b x OM) as Q. rewrite mo_same3 in Q.
      transitivity ((m * mo c b x + (1 - m) * mo o b x) + (m - 1) * mo o b x); [rewrite <- Q; ring|ring].
Qed.
(** The points seen before, and the new edge: [f] is the vertex which was above [a], or [o]. *)
Lemma fence b a f x p : 0 < mo b a f -> 0 <= mo b a x -> 0 <= mo a f p -> 0 <= mo b a p -> mo a f x <= 0 -> 0 <= mo a x p.
Proof.
  intros DB DX BP DP BX. apply (positive_factor (mo b a f)); [done|].
  replace (mo b a f * mo a x p) with (mo b a x * mo a f p - mo b a p * mo a f x) by (unfold mo, orient; ring).
  pose proof (times_nonneg _ _ DX BP). pose proof (times_nonneg _ (- mo a f x) DP ltac:(qlra)) as Q.
  replace (mo b a p * - mo a f x) with (- (mo b a p * mo a f x)) in Q by ring. qlra.
Qed.
(** When [a] is on the line of [o] and [b], the points seen before are between [o] and [a]. *)
Lemma fence_line b a x p : (b = o \/ after b a) -> after a x -> mo o b a = 0 -> 0 <= mo b a p -> 0 <= mo a o p ->
  (p = o \/ p = a \/ after p a) -> 0 <= mo a x p.
Proof.
  intros B AX Z S C P. pose proof (after_nonneg _ _ AX) as OAX.
  assert (0 <= mo o a p) as E.
  { destruct B as [-> |B]; [done|]. destruct (after_zero _ _ B Z) as (m & M & OM).
    pose proof (on_line_mo3 b m a a p OM) as Q. rewrite mo_same3 in Q.
    apply (positive_factor (m - 1)); [qlra|]. replace ((m - 1) * mo o a p) with (m * mo b a p); [apply times_nonneg; [qlra|done]|].
    transitivity ((m * mo b a p + (1 - m) * mo o a p) + (m - 1) * mo o a p); [ring|]. rewrite <- Q. ring. }
  rewrite mo_swap1 in C. assert (mo o a p = 0) as ZP by qlra.
  destruct P as [-> |[-> |P]].
  - replace (mo a x o) with (mo o a x) by (unfold mo, orient; ring). done.
  - rewrite mo_same1. done.
  - rewrite mo_swap in ZP. destruct (after_zero _ _ P ltac:(qlra)) as (m & M & OM).
    apply (positive_factor m); [qlra|]. replace (m * mo a x p) with ((m - 1) * mo o a x).
    + apply times_nonneg; [qlra|done].
    + pose proof (on_line_mo1 p m a a x OM) as Q. rewrite mo_same1 in Q.
      replace (mo a x o) with (mo o a x) in Q by (unfold mo, orient; ring).
      transitivity ((m * mo a x p + (1 - m) * mo o a x) + (m - 1) * mo o a x); [rewrite <- Q; ring|ring].
Qed.
(** A vertex on the line of the edge below cannot be popped. *)
Lemma fence_straight b a f x : (b = o \/ after b a) -> after a f -> after a x -> mo b a f = 0 -> 0 <= mo b a x -> 0 <= mo a f x.
Proof.
  intros B AF AX Z K. pose proof (after_nonneg _ _ AF) as OAF. pose proof (after_nonneg _ _ AX) as OAX.
  assert (0 <= mo o b a) as OBA by (destruct B as [-> |B]; [rewrite mo_same3; done|by apply after_nonneg]).
  destruct (Qcle_lt_or_eq _ _ OBA) as [P|ZB].
  - apply (positive_factor (mo o b a)); [done|].
    replace (mo o b a * mo a f x) with (mo o a f * mo b a x - mo o a x * mo b a f) by (unfold mo, orient; ring).
    rewrite Z. pose proof (times_nonneg _ _ OAF K). qlra.
  - symmetry in ZB. assert (mo o a f = 0) as ZF.
    { destruct B as [-> |B]; [done|]. destruct (after_zero _ _ B ZB) as (m & M & OM).
      pose proof (on_line_mo3 b m a a f OM) as Q. rewrite mo_same3, Z in Q.
      assert ((m - 1) * mo o a f = 0) as Q' by (transitivity (m * 0 - (m * 0 + (1 - m) * mo o a f)); [ring|rewrite <- Q; ring]).
      apply Qcmult_integral in Q'. destruct Q' as [Q'|]; [qlra|done]. }
    destruct (after_zero _ _ AF ZF) as (l & L & OL). rewrite (on_line_mo2 _ _ _ _ _ OL), mo_same3.
    replace (mo a o x) with (- mo o a x) by (unfold mo, orient; ring).
    replace (l * 0 + (1 - l) * - mo o a x) with ((l - 1) * mo o a x) by ring. apply times_nonneg; [qlra|done].
Qed.

(** ** The stack *)

Fixpoint sees (st : list vec3) (p : vec3) : Prop :=
  match st with
  | a :: ((b :: _) as st') => 0 <= mo b a p /\ sees st' p
  | _ => True
  end.
Definition turn_ok (inc : bool) (q : Qc) : Prop := if inc then 0 <= q else 0 < q.
Fixpoint bends (inc : bool) (st : list vec3) : Prop :=
  match st with
  | a :: ((b :: c :: _) as st') => turn_ok inc (mo c b a) /\ bends inc st'
  | _ => True
  end.
(** Top first, down to [o]. *)
Definition stack (st : list vec3) : Prop := exists r, st = r ++ [o] /\ o ∉ r /\ StronglySorted (fun x p => after p x) r.
Lemma turn_ok_weak inc q : turn_ok inc q -> 0 <= q.
Proof. destruct inc; [done|]. apply Qclt_le_weak. Qed.
Lemma stack_cons a st : stack (a :: st) -> st <> [] -> stack st.
Proof.
  intros (r & E & NO & S) N. destruct r as [|x r]; [injection E as -> ->; done|].
  injection E as <- ->. exists r. split; [done|]. split; [intros I; apply NO; by apply elem_of_list_further|]. apply StronglySorted_inv in S. apply S.
Qed.
Lemma stack_after a st b : stack (a :: st) -> b ∈ st -> b = o \/ after b a.
Proof.
  intros (r & E & NO & S) I. destruct r as [|x r]; [injection E as -> ->; by apply elem_of_nil in I|].
  injection E as <- ->. apply elem_of_app in I. destruct I as [I|I]; [|left; by apply elem_of_list_singleton in I].
  right. apply StronglySorted_inv in S. destruct S as [_ S]. rewrite Forall_forall in S. by apply S.
Qed.
Lemma stack_middle a b c st : stack (a :: b :: c :: st) -> after b a /\ (c = o \/ after c b).
Proof.
  intros (r & E & NO & S). destruct r as [|x r]; [done|]. destruct r as [|y r]; [done|]. injection E as <- <- E.
  apply StronglySorted_inv in S. destruct S as [S F]. split.
  - rewrite Forall_forall in F. apply F. apply elem_of_list_here.
  - destruct r as [|z r]; [left; cbn in E; by injection E as ->|]. injection E as -> _. right.
    apply StronglySorted_inv in S. destruct S as [_ S]. rewrite Forall_forall in S. apply S. apply elem_of_list_here.
Qed.
Lemma stack_ne a b st : stack (a :: b :: st) -> a <> o.
Proof. intros (r & E & NO & S). destruct r as [|x r]; [done|]. injection E as <- E. set_solver. Qed.
Lemma sees_down inc st x : stack st -> bends inc st -> (forall p, p ∈ st -> p = o \/ after p x) ->
  match st with a :: b :: _ => 0 <= mo b a x | _ => True end -> sees st x.
Proof.
  induction st as [|a st IH]; intros S B A K; [done|]. destruct st as [|b st]; [done|]. split; [done|].
  apply IH.
  - by apply (stack_cons a).
  - destruct st as [|c st]; [done|]. apply B.
  - intros p P. apply A. by apply elem_of_list_further.
  - destruct st as [|c st]; [done|]. destruct (stack_middle _ _ _ _ S) as [BA C]. destruct B as [B _].
    pose proof (stack_ne _ _ _ (stack_cons _ _ S ltac:(done))) as NB. pose proof (stack_ne _ _ _ S) as NA.
    apply (chain_weak c b a x); try done.
    + destruct (A b ltac:(set_solver)); done.
    + destruct (A a ltac:(set_solver)); done.
    + by apply turn_ok_weak in B.
Qed.
(** Popping on points. *)
Definition keeps (inc : bool) (b a x : vec3) : bool := if inc then qle 0 (mo b a x) else qlt 0 (mo b a x).
Fixpoint pops (inc : bool) (x : vec3) (st : list vec3) : list vec3 :=
  match st with
  | a :: ((b :: _) as st') => if keeps inc b a x then st else pops inc x st'
  | _ => st
  end.
Lemma keeps_spec inc b a x : keeps inc b a x = true <-> turn_ok inc (mo b a x).
Proof. unfold keeps, turn_ok. destruct inc; [destruct (qle_spec 0 (mo b a x))|destruct (qlt_spec 0 (mo b a x))]; split; try done; intros; qlra. Qed.
(** What is known while popping: [f] is [o] at the beginning, then the vertex popped last. *)
Definition fenced (inc : bool) (st : list vec3) (f x : vec3) (ps : list vec3) : Prop :=
  match st with
  | [] => False
  | a :: st' =>
      (f = o /\ (a = o -> forall p, p ∈ ps -> p = o) /\ (a <> o -> forall p, p ∈ ps -> 0 <= mo a o p /\ (p = o \/ p = a \/ after p a))) \/
      ((forall p, p ∈ ps -> 0 <= mo a f p) /\ keeps inc a f x = false /\ after f x /\ (a <> o -> after a f) /\
       match st' with b :: _ => turn_ok inc (mo b a f) | [] => True end)
  end.
Lemma not_keeps inc b a x : keeps inc b a x = false -> mo b a x <= 0.
Proof. unfold keeps. destruct inc; [destruct (qle_spec 0 (mo b a x))|destruct (qlt_spec 0 (mo b a x))]; intros; try done; qlra. Qed.
Lemma pops_ok inc st f x ps : stack st -> bends inc st -> (forall p, p ∈ st -> p = o \/ after p x) -> x <> o ->
  (forall p, p ∈ ps -> sees st p) -> fenced inc st f x ps ->
  exists a st', pops inc x st = a :: st' /\ (pops inc x st) `suffix_of` st /\ sees (a :: st') x /\ bends inc (x :: a :: st') /\
    forall p, p ∈ ps -> 0 <= mo a x p /\ sees (a :: st') p.
Proof.
  revert f. induction st as [|a st IH]; intros f S B A NX SE F; [done|]. destruct st as [|b st].
  - exists a, []. split; [done|]. split; [done|]. split; [done|]. split; [done|]. intros p P. split; [|done].
    assert (a = o) as -> by (destruct S as ([|y [|z r]] & E & _); cbn in E; by injection E).
    destruct F as [(-> & F & _)|(F1 & F2 & F3 & _ & _)].
    + rewrite (F eq_refl p P), mo_same1. done.
    + apply not_keeps in F2. pose proof (after_nonneg _ _ F3) as H. assert (mo o f x = 0) as Z by qlra.
      destruct (after_zero _ _ F3 Z) as (l & L & OL). rewrite (on_line_mo2 _ _ _ _ _ OL), mo_same3.
      replace (l * mo o f p + (1 - l) * 0) with (l * mo o f p) by ring. apply times_nonneg; [qlra|by apply F1].
  - cbn [pops]. destruct (keeps inc b a x) eqn:K.
    + exists a, (b :: st). split; [done|]. split; [done|]. pose proof K as K'. apply keeps_spec in K.
      pose proof (turn_ok_weak _ _ K) as KW. split; [by apply (sees_down inc)|]. split; [split; [done|exact B]|].
      intros p P. split; [|by apply SE].
      pose proof (stack_ne _ _ _ S) as NA. assert (after a x) as AX by (destruct (A a ltac:(set_solver)); done).
      pose proof (stack_after _ _ b S ltac:(set_solver)) as BA.
      pose proof (SE p P) as [SP _].
      destruct F as [(-> & _ & F)|(F1 & F2 & F3 & F4 & F5)].
      * destruct (F NA p P) as [F1 F2].
        assert (0 <= mo o b a) as OBA by (destruct BA as [-> |BA]; [rewrite mo_same3; done|by apply after_nonneg]).
        destruct (Qcle_lt_or_eq _ _ OBA) as [PO|Z].
        -- apply (fence b a o); try done; [by rewrite (mo_rotate o b a)|].
           rewrite (mo_swap1 o a x). pose proof (after_nonneg _ _ AX). qlra.
        -- apply (fence_line b); done.
      * destruct (Qcle_lt_or_eq _ _ (turn_ok_weak _ _ F5)) as [PO|Z].
        -- apply (fence b a f); try done; [by apply F1|by apply (not_keeps inc)].
        -- symmetry in Z. destruct inc; [|unfold turn_ok in F5; rewrite Z in F5; qlra]. exfalso.
           pose proof (fence_straight b a f x BA (F4 NA) AX Z KW) as H.
           assert (keeps true a f x = true) as C by (by apply keeps_spec). by rewrite C in F2.
    + destruct (IH a) as (a' & st' & E & SU & H).
      * by apply (stack_cons a).
      * destruct st as [|c st]; [done|]. apply B.
      * intros p P. apply A. set_solver.
      * done.
      * intros p P. by apply SE.
      * pose proof (stack_ne _ _ _ S) as NA. right. split_and!.
        -- intros p P. by apply SE.
        -- done.
        -- destruct (A a ltac:(set_solver)); done.
        -- intros NB. destruct (stack_after _ _ b S ltac:(set_solver)); done.
        -- destruct st as [|c st]; [done|]. by destruct B.
      * exists a', st'. split; [done|]. split; [by apply suffix_cons_r|done].
Qed.

(** ** The scan *)

Record good (inc : bool) (st ps : list vec3) : Prop := {
  good_stack : stack st;
  good_bends : bends inc st;
  good_top : exists x st', st = x :: st' /\ (x = o -> forall p, p ∈ ps -> p = o) /\
    (x <> o -> forall p, p ∈ ps -> 0 <= mo x o p /\ (p = o \/ p = x \/ after p x));
  good_sees : forall p, p ∈ ps -> sees st p;
  good_sub : forall p, p ∈ st -> p ∈ ps
}.
Lemma suffix_elem (l k : list vec3) p : l `suffix_of` k -> p ∈ l -> p ∈ k.
Proof. intros [m ->] I. apply elem_of_app. by right. Qed.
Lemma stack_suffix st a st' : stack st -> (a :: st') `suffix_of` st -> stack (a :: st').
Proof.
  intros S [m E]. revert st S E. induction m as [|y m IH]; intros st S E; [by subst|].
  subst st. apply (IH (m ++ a :: st')); [|done]. apply (stack_cons y); [done|]. by destruct m.
Qed.
Lemma good_step inc st ps x : good inc st ps -> x <> o -> (forall p, p ∈ ps -> p = o \/ after p x) ->
  good inc (x :: pops inc x st) (x :: ps).
Proof.
  intros [S B T SE SUB] NX A. destruct T as (t & st0 & -> & T1 & T2).
  destruct (pops_ok inc (t :: st0) o x ps S B) as (a & st' & E & SU & SX & BX & P).
  - intros p I. by apply A, SUB.
  - done.
  - done.
  - left. done.
  - rewrite E in *. pose proof (stack_suffix _ _ _ S SU) as ST.
    assert (forall p, p ∈ a :: st' -> p = o \/ after p x) as AS by (intros p I; apply A, SUB; by eapply suffix_elem).
    split.
    + destruct ST as (r & ER & NO & SR). exists (x :: r). rewrite ER. split; [done|]. split; [set_solver|].
      constructor; [done|]. apply Forall_forall. intros y Y. destruct (AS y) as [-> |H]; [rewrite ER; set_solver|done|done].
    + done.
    + exists x, (a :: st'). split; [done|]. split; [done|]. intros _ p I. apply elem_of_cons in I. destruct I as [-> |I].
      * split; [rewrite mo_same1; done|]. by right; left.
      * destruct (A p I) as [-> |H]; [split; [rewrite mo_same2; done|by left]|].
        split; [|by right; right]. replace (mo x o p) with (mo o p x) by (unfold mo, orient; ring). by apply after_nonneg.
    + intros p I. apply elem_of_cons in I. destruct I as [-> |I]; [split; [rewrite mo_same2; done|done]|]. by apply P.
    + intros p I. apply elem_of_cons in I. destruct I as [-> |I]; [set_solver|]. apply elem_of_cons. right. apply SUB. by eapply suffix_elem.
Qed.
Lemma good_start inc : good inc [o] [o].
Proof.
  split.
  - exists []. split; [done|]. split; [set_solver|constructor].
  - done.
  - exists o, []. split; [done|]. split; [set_solver|done].
  - done.
  - done.
Qed.
(** The list is sorted around [o]. *)
Lemma good_scan inc l st ps : StronglySorted after l -> Forall (fun x => x <> o /\ forall p, p ∈ ps -> p = o \/ after p x) l -> good inc st ps ->
  good inc (foldl (fun st x => x :: pops inc x st) st l) (reverse l ++ ps).
Proof.
  revert st ps. induction l as [|x l IH]; intros st ps S F G; [done|]. cbn [foldl]. rewrite reverse_cons, <- app_assoc. cbn [app].
  apply StronglySorted_inv in S. destruct S as [S SX]. apply Forall_cons in F. destruct F as [[NX AX] F].
  apply IH; [done| |by apply good_step].
  rewrite Forall_forall in SX, F. apply Forall_forall. intros y Y. destruct (F y Y) as [NY AY]. split; [done|].
  intros p P. apply elem_of_cons in P. destruct P as [-> |P]; [right; by apply SX|by apply AY].
Qed.
End center.
