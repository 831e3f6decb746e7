(** * Helly's theorem in the plane: convex sets of which every three have a common point have one in common. *)
From Coq Require Import QArith Qcanon.
From Verif Require Import Base QcTac.
Local Open Scope Qc_scope.

Notation pt := (Qc * Qc)%type.
Definition mix (t : Qc) (p q : pt) : pt := (p.1 + t * (q.1 - p.1), p.2 + t * (q.2 - p.2)).
Definition convex (C : pt -> Prop) : Prop := forall p q t, 0 <= t -> t <= 1 -> C p -> C q -> C (mix t p q).

Lemma convex_and C D : convex C -> convex D -> convex (fun x => C x /\ D x).
Proof. intros HC HD p q t T0 T1 [P1 P2] [Q1 Q2]. split; [by apply HC|by apply HD]. Qed.

(** Sums with weights. *)
Definition total (l : list (Qc * pt)) : Qc := foldr (fun a s => a.1 + s) 0 l.
Definition tx (l : list (Qc * pt)) : Qc := foldr (fun a s => a.1 * a.2.1 + s) 0 l.
Definition ty (l : list (Qc * pt)) : Qc := foldr (fun a s => a.1 * a.2.2 + s) 0 l.

Lemma total_nonneg l : Forall (fun a => 0 <= a.1) l -> 0 <= total l.
Proof. induction 1 as [|a l A _ IH]; cbn [total foldr]; [qlra|]. fold (total l). qlra. Qed.
Lemma total_zero l : Forall (fun a => 0 <= a.1) l -> total l = 0 -> tx l = 0 /\ ty l = 0.
Proof.
  induction 1 as [|a l A H IH]; cbn [total tx ty foldr]; [done|]. fold (total l) (tx l) (ty l). intros E.
  pose proof (total_nonneg l H) as P. assert (a.1 = 0) as -> by qlra. destruct IH as [-> ->]; [qlra|]. split; ring.
Qed.

Lemma share u s : 0 < u -> 0 < s -> 0 <= s / (u + s) /\ s / (u + s) <= 1.
Proof.
  intros U S. assert (s = (s / (u + s)) * (u + s)) as E by (field; qlra). set (q := s / (u + s)) in *. clearbody q.
  split; apply Qcnot_lt_le; intros L; revert E; clear - U S L.
  - intros E. qnra.
  - intros E. assert (s < q * (u + s)); [|qlra]. qnra.
Qed.

Lemma centre_in C l : convex C -> Forall (fun a => 0 <= a.1 /\ (0 < a.1 -> C a.2)) l -> 0 < total l ->
  C (tx l / total l, ty l / total l).
Proof.
  intros HC. induction 1 as [|[u [x y]] l [A CA] H IH]; cbn [total tx ty foldr fst snd]; [intros; qlra|]. fold (total l) (tx l) (ty l). intros P.
  cbn [fst snd] in A, CA.
  assert (Forall (fun a => 0 <= a.1) l) as H0 by (eapply Forall_impl; [exact H|]; intros a [? _]; done).
  pose proof (total_nonneg l H0) as T. destruct (decide (total l = 0)) as [Z|Z].
  - destruct (total_zero l H0 Z) as [-> ->]. rewrite Z in *. assert (0 < u) as U by qlra.
    replace ((u * x + 0) / (u + 0)) with x by (field; qlra). replace ((u * y + 0) / (u + 0)) with y by (field; qlra). by apply CA.
  - assert (0 < total l) as T' by (destruct (Qc_dec 0 (total l)) as [[?|?]|?]; [done|qlra|congruence]). specialize (IH T').
    destruct (decide (u = 0)) as [-> | U].
    + replace (0 * x + tx l) with (tx l) by ring. replace (0 * y + ty l) with (ty l) by ring. replace (0 + total l) with (total l) by ring. done.
    + assert (0 < u) as U' by (destruct (Qc_dec 0 u) as [[?|?]|?]; [done|qlra|congruence]).
      destruct (share u (total l) U' T') as [S0 S1].
      pose proof (HC _ _ _ S0 S1 (CA U') IH) as M. unfold mix in M. cbn [fst snd] in M.
      replace ((u * x + tx l) / (u + total l)) with (x + total l / (u + total l) * (tx l / total l - x)) by (field; split; qlra).
      replace ((u * y + ty l) / (u + total l)) with (y + total l / (u + total l) * (ty l / total l - y)) by (field; split; qlra). exact M.
Qed.

(** Radon: four points of the plane have a relation with weights of sum zero. *)
Lemma radon (x1 y1 x2 y2 x3 y3 x4 y4 : Qc) : exists a b c d,
  ~ (a = 0 /\ b = 0 /\ c = 0 /\ d = 0) /\ a + b + c + d = 0 /\ a * x1 + b * x2 + c * x3 + d * x4 = 0 /\ a * y1 + b * y2 + c * y3 + d * y4 = 0.
Proof.
  pose (area := fun ax ay bx b_y cx cy : Qc => (bx - ax) * (cy - ay) - (b_y - ay) * (cx - ax)).
  destruct (decide (area x1 y1 x2 y2 x3 y3 = 0)) as [Z|Z].
  - destruct (decide (x1 = x2 /\ x2 = x3)) as [[<- <-]|X].
    + destruct (decide (y1 = y2 /\ y2 = y3)) as [[<- <-]|Y].
      * exists 1, (-(1)), 0, 0. split_and!; [|ring..]. intros (E & _). discriminate E.
      * exists (y2 - y3), (y3 - y1), (y1 - y2), 0. split_and!; [|ring..]. intros (E1 & E2 & E3 & _). apply Y. split; qlra.
    + exists (x2 - x3), (x3 - x1), (x1 - x2), 0. split_and!; [|ring|ring|].
      * intros (E1 & E2 & E3 & _). apply X. split; qlra.
      * unfold area in Z. transitivity (- ((x2 - x1) * (y3 - y1) - (y2 - y1) * (x3 - x1))); [ring|]. rewrite Z. ring.
  - exists (area x2 y2 x3 y3 x4 y4), (- area x1 y1 x3 y3 x4 y4), (area x1 y1 x2 y2 x4 y4), (- area x1 y1 x2 y2 x3 y3).
    split_and!; [|unfold area; ring..]. intros (_ & _ & _ & E). apply Z. qlra.
Qed.

Definition up (a : Qc) : Qc := if qlt 0 a then a else 0.
Lemma up_nonneg a : 0 <= up a.
Proof. unfold up. destruct (qlt_spec 0 a); qlra. Qed.
Lemma up_zero a : a <= 0 -> up a = 0.
Proof. unfold up. intros H. destruct (qlt_spec 0 a); [qlra|done]. Qed.
Lemma up_split a : a = up a - up (- a).
Proof. unfold up. destruct (qlt_spec 0 a), (qlt_spec 0 (- a)); qlra. Qed.

(** Four convex sets, and a point of every three of them. *)
Lemma helly4 A B C D : convex A -> convex B -> convex C -> convex D ->
  (exists x, B x /\ C x /\ D x) -> (exists x, A x /\ C x /\ D x) -> (exists x, A x /\ B x /\ D x) -> (exists x, A x /\ B x /\ C x) ->
  exists x, A x /\ B x /\ C x /\ D x.
Proof.
  intros HA HB HC HD ([x1 y1] & B1 & C1 & D1) ([x2 y2] & A2 & C2 & D2) ([x3 y3] & A3 & B3 & D3) ([x4 y4] & A4 & B4 & C4).
  destruct (radon x1 y1 x2 y2 x3 y3 x4 y4) as (a & b & c & d & NZ & S & SX & SY).
  set (l := fun s : Qc -> Qc => [(up (s a), (x1, y1)); (up (s b), (x2, y2)); (up (s c), (x3, y3)); (up (s d), (x4, y4))]).
  pose proof (up_nonneg a). pose proof (up_nonneg b). pose proof (up_nonneg c). pose proof (up_nonneg d).
  pose proof (up_nonneg (- a)). pose proof (up_nonneg (- b)). pose proof (up_nonneg (- c)). pose proof (up_nonneg (- d)).
  pose proof (up_split a) as Ua. pose proof (up_split b) as Ub. pose proof (up_split c) as Uc. pose proof (up_split d) as Ud.
  assert (total (l (fun q => - q)) = total (l id)) as ET.
  { unfold l, total, id. cbn [foldr fst snd]. qlra. }
  assert (tx (l (fun q => - q)) = tx (l id) /\ ty (l (fun q => - q)) = ty (l id)) as [EX EY].
  { unfold l, tx, ty, id. cbn [foldr fst snd]. rewrite Ua, Ub, Uc, Ud in SX, SY.
    split.
    - transitivity (up a * x1 + (up b * x2 + (up c * x3 + (up d * x4 + 0))) - ((up a - up (- a)) * x1 + (up b - up (- b)) * x2 + (up c - up (- c)) * x3 + (up d - up (- d)) * x4)); [ring|]. rewrite SX. ring.
    - transitivity (up a * y1 + (up b * y2 + (up c * y3 + (up d * y4 + 0))) - ((up a - up (- a)) * y1 + (up b - up (- b)) * y2 + (up c - up (- c)) * y3 + (up d - up (- d)) * y4)); [ring|]. rewrite SY. ring. }
  assert (0 < total (l id)) as TP.
  { destruct (Qc_dec 0 (total (l id))) as [[?|T]|T]; [done| |].
    - exfalso. unfold l, total, id in T. cbn [foldr fst snd] in T. qlra.
    - exfalso. apply NZ. rewrite <- T in ET. symmetry in T. unfold l, total, id in T, ET. cbn [foldr fst snd] in T, ET. split_and!; qlra. }
  set (x := (tx (l id) / total (l id), ty (l id) / total (l id))).
  assert (forall E, convex E ->
    (0 < up a -> E (x1, y1)) -> (0 < up b -> E (x2, y2)) -> (0 < up c -> E (x3, y3)) -> (0 < up d -> E (x4, y4)) -> E x) as POS.
  { intros E HE I1 I2 I3 I4. apply (centre_in E (l id)); [done| |done]. unfold l, id. repeat (constructor; [split; [done|done]|]). constructor. }
  assert (forall E, convex E ->
    (0 < up (- a) -> E (x1, y1)) -> (0 < up (- b) -> E (x2, y2)) -> (0 < up (- c) -> E (x3, y3)) -> (0 < up (- d) -> E (x4, y4)) -> E x) as NEG.
  { intros E HE I1 I2 I3 I4. unfold x. rewrite <- EX, <- EY, <- ET. apply (centre_in E (l (fun q => - q))); [done| |by rewrite ET].
    unfold l. repeat (constructor; [split; [done|done]|]). constructor. }
  assert (forall q, up q = 0 \/ up (- q) = 0) as ONE.
  { intros q. unfold up. destruct (qlt_spec 0 q), (qlt_spec 0 (- q)); [exfalso; qlra|by right|by left|by left]. }
  exists x. split_and!.
  - destruct (ONE a) as [Z|Z]; [apply POS|apply NEG]; try done; rewrite Z; intros; exfalso; qlra.
  - destruct (ONE b) as [Z|Z]; [apply POS|apply NEG]; try done; rewrite Z; intros; exfalso; qlra.
  - destruct (ONE c) as [Z|Z]; [apply POS|apply NEG]; try done; rewrite Z; intros; exfalso; qlra.
  - destruct (ONE d) as [Z|Z]; [apply POS|apply NEG]; try done; rewrite Z; intros; exfalso; qlra.
Qed.

(** Helly's theorem in the plane. *)
Lemma helly (Cs : list (pt -> Prop)) : Forall convex Cs ->
  (forall A B C, In A Cs -> In B Cs -> In C Cs -> exists x, A x /\ B x /\ C x) -> exists x, Forall (fun C => C x) Cs.
Proof.
  remember (length Cs) as n eqn:L. revert Cs L. induction n as [|n IH]; intros Cs L HC H; [destruct Cs; [|done]; by exists (0, 0)|].
  destruct Cs as [|A [|B Cs]]; [done| |].
  - destruct (H A A A) as (x & X & _); [by left..|]. exists x. by constructor.
  - apply Forall_cons in HC as [HA HC]. apply Forall_cons in HC as [HB HC].
    assert (forall C D, In C Cs -> In D Cs -> exists x, A x /\ B x /\ C x /\ D x) as H4.
    { intros C D IC ID. assert (convex C /\ convex D) as [CC CD].
      { rewrite List.Forall_forall in HC. split; by apply HC. }
      apply helly4; [done..| | | |]; apply H; cbn; tauto. }
    destruct (IH ((fun x => A x /\ B x) :: Cs)) as (x & X).
    + cbn in *. lia.
    + constructor; [by apply convex_and|done].
    + assert (exists x, A x /\ B x) as H2. { destruct (H A B B) as (x & ? & ? & _); [by left|by right; left|by right; left|]. by exists x. }
      assert (forall C, In C Cs -> exists x, A x /\ B x /\ C x) as H3.
      { intros C IC. destruct (H4 C C IC IC) as (x & ? & ? & ? & _). by exists x. }
      intros X Y Z [<- | IX] [<- | IY] [<- | IZ].
      * destruct H2 as (x & ? & ?). by exists x.
      * destruct (H3 Z IZ) as (x & ? & ? & ?). by exists x.
      * destruct (H3 Y IY) as (x & ? & ? & ?). by exists x.
      * destruct (H4 Y Z IY IZ) as (x & ? & ? & ? & ?). by exists x.
      * destruct (H3 X IX) as (x & ? & ? & ?). by exists x.
      * destruct (H4 X Z IX IZ) as (x & ? & ? & ? & ?). by exists x.
      * destruct (H4 X Y IX IY) as (x & ? & ? & ? & ?). by exists x.
      * apply H; by right; right.
    + apply Forall_cons in X as [[XA XB] X]. exists x. by repeat constructor.
Qed.
