(** * Convex hulls with the points on the sides. *)
From Coq Require Import QArith Qcanon Sorted.
From Verif Require Import Base QcTac FillModel GeoModel MapModel PointModel PointSpec PointProof PolyModel PolySpec PolyProof
  TriProof EarProof ConvexProof HullModel HullProof HullSort HullFinal.
Local Open Scope Qc_scope.

Section full.
Context (o : vec3).

(** ** Vertices which were removed *)

Definition lost (st ps : list vec3) : Prop := forall p, p ∈ ps -> p ∈ st \/
  exists b x, b ∈ ps /\ x ∈ ps /\ (b = o \/ after o b p) /\ after o p x /\ mo b p x < 0.
Lemma not_keeps_true b a x : keeps true b a x = false -> mo b a x < 0.
Proof. unfold keeps. destruct (qle_spec 0 (mo b a x)); [done|]. intros _. qlra. Qed.
Lemma pops_lost x st p : stack o st -> p ∈ st -> p ∈ pops true x st \/
  exists b, b ∈ st /\ (b = o \/ after o b p) /\ mo b p x < 0 /\ p <> o.
Proof.
  induction st as [|a st IH]; intros ST P; [by left|]. destruct st as [|b st]; [by left|]. cbn [pops].
  destruct (keeps true b a x) eqn:K; [by left|]. apply elem_of_cons in P. destruct P as [-> |P].
  - right. exists b. split; [apply elem_of_list_further, elem_of_list_here|]. split; [apply (stack_after o a (b :: st)); [done|apply elem_of_list_here]|].
    split; [by apply not_keeps_true|]. by apply (stack_ne o a b st).
  - destruct IH as [H|(c & C & H)]; [by apply (stack_cons o a)|done|by left|]. right. exists c. split; [by apply elem_of_list_further|done].
Qed.
Lemma lost_step st ps x : good o true st ps -> lost st ps -> (forall p, p ∈ ps -> p = o \/ after o p x) ->
  lost (x :: pops true x st) (x :: ps).
Proof.
  intros G L A p P. apply elem_of_cons in P. destruct P as [-> |P]; [left; apply elem_of_list_here|].
  destruct (L p P) as [H|(b & y & B & Y & H)].
  - destruct (pops_lost x st p (good_stack _ _ _ _ G) H) as [Q|(b & B & C & D & N)]; [left; by apply elem_of_list_further|].
    right. exists b, x. split; [apply elem_of_list_further; by apply (good_sub _ _ _ _ G)|]. split; [apply elem_of_list_here|].
    split; [done|]. split; [|done]. destruct (A p P); done.
  - right. exists b, y. split; [by apply elem_of_list_further|]. split; [by apply elem_of_list_further|done].
Qed.
Lemma lost_scan l st ps : StronglySorted (after o) l -> Forall (fun x => x <> o /\ forall p, p ∈ ps -> p = o \/ after o p x) l ->
  good o true st ps -> lost st ps -> lost (foldl (fun st x => x :: pops true x st) st l) (reverse l ++ ps).
Proof.
  revert st ps. induction l as [|x l IH]; intros st ps SS F G L; [done|]. cbn [foldl]. rewrite reverse_cons, <- app_assoc. cbn [app].
  apply StronglySorted_inv in SS. destruct SS as [SS SX]. apply Forall_cons in F. destruct F as [[NX AX] F].
  apply IH; [done| |by apply good_step|by apply lost_step].
  rewrite Forall_forall in SX, F. apply Forall_forall. intros y Y. destruct (F y Y) as [NY AY]. split; [done|].
  intros p P. apply elem_of_cons in P. destruct P as [-> |P]; [right; by apply SX|by apply AY].
Qed.
Lemma after_scale b a : after o b a -> mo o b a = 0 -> exists k, 0 < k /\ forall q, mo b a q = k * mo o a q.
Proof.
  intros A Z. destruct (after_zero _ _ _ A Z) as (m & M & OM). assert (m <> 0) as NM by (intros ->; qlra).
  exists ((m - 1) / m). split; [apply quotient_pos; qlra|]. intros q.
  pose proof (on_line_mo3 o b m a a q OM) as Q. rewrite mo_same3 in Q.
  transitivity ((m * mo b a q) / m); [field; done|].
  replace (m * mo b a q) with (m * mo b a q + (1 - m) * mo o a q + (m - 1) * mo o a q) by ring. rewrite <- Q. field. done.
Qed.
(** Points which were removed are strictly inside. *)
Lemma lost_inside st ps i a b p : flat o -> (forall q, q ∈ ps -> q = o \/ up o q) -> good o true st ps -> lost st ps ->
  st !! i = Some a -> st !! S i = Some b -> p ∈ ps -> p ∉ st -> 0 < mo b a p.
Proof.
  intros FO U G L A B P NP. pose proof (sees_nth st p i a b (good_sees _ _ _ _ G p P) A B) as H.
  apply Qcle_lt_or_eq in H. destruct H as [H|Z]; [done|]. exfalso. symmetry in Z.
  pose proof (good_stack _ _ _ _ G) as GS.
  assert (forall q, q ∈ ps -> 0 <= mo b a q) as W by (intros q Q; by apply (sees_nth st q i a b (good_sees _ _ _ _ G q Q))).
  destruct (stack_order o st i (S i) a b GS ltac:(lia) A B) as [NA BA].
  assert (o ∈ ps) as IO by (apply (good_sub _ _ _ _ G); eapply elem_of_list_lookup_2, stack_last, GS).
  assert (up o a) as UA by (destruct (U a) as [|]; [apply (good_sub _ _ _ _ G); by eapply elem_of_list_lookup_2|done|done]).
  destruct (L p P) as [|(c & x & C & X & CP & PX & N)]; [done|].
  assert (p <> o) as NPO by (intros ->; apply NP; eapply elem_of_list_lookup_2, stack_last, GS).
  assert (up o p) as UP by (destruct (U p P); done).
  assert (0 <= mo o c p) as OCP by (destruct CP as [-> |CP]; [by rewrite mo_same3|by apply after_nonneg]).
  pose proof (after_nonneg _ _ _ PX) as OPX.
  assert (mo o b a = 0) as ZO.
  { assert (mo o c x * mo b a p = (- mo c p x) * mo b a o + mo o p x * mo b a c + mo o c p * mo b a x) as E by (unfold mo, orient; ring).
    rewrite Z in E. pose proof (times_nonneg _ _ OPX (W c C)). pose proof (times_nonneg _ _ OCP (W x X)).
    destruct (Qcle_lt_or_eq _ _ (W o IO)) as [HO|HO].
    - pose proof (times_pos (- mo c p x) _ ltac:(qlra) HO). qlra.
    - rewrite (mo_rotate o b a) in HO. by symmetry. }
  assert (exists k, 0 < k /\ forall q, mo b a q = k * mo o a q) as (k & K & KE).
  { destruct BA as [-> |BA]; [exists 1; split; [qlra|intros; ring]|]. by apply after_scale. }
  assert (forall q, q ∈ ps -> 0 <= mo o a q) as W2 by (intros q Q; apply (positive_factor k); [done|rewrite <- KE; by apply W]).
  assert (mo o a p = 0) as ZP.
  { rewrite KE in Z. apply Qcmult_integral in Z. destruct Z as [Z|Z]; [qlra|done]. }
  destruct (same_ray o FO a p UA UP ZP) as (l & LL & OL).
  assert (forall q, q ∈ ps -> 0 <= mo o p q) as W3.
  { intros q Q. rewrite (on_line_mo2 o a l p o q OL), mo_same3. replace (l * mo o a q + (1 - l) * 0) with (l * mo o a q) by ring.
    apply times_nonneg; [qlra|by apply W2]. }
  destruct CP as [-> |CP]; [pose proof (W3 x X); qlra|].
  pose proof (W3 c C) as Q. rewrite (mo_swap o c p) in Q. assert (mo o c p = 0) as ZC by qlra.
  destruct (after_scale c p CP ZC) as (j & J & JE). rewrite JE in N. pose proof (times_nonneg j _ ltac:(qlra) (W3 x X)). qlra.
Qed.

(** ** Straight corners *)

Lemma straight_forward a b c : flat a -> flat b -> flat c -> a <> b -> (c = o \/ after o c b) -> after o b a -> mo c b a = 0 ->
  exists k, 1 < k /\ on_line a b k c.
Proof.
  intros FA FB FC N C BA Z.
  assert (forall x y : Qc, 0 < y -> y < x -> 1 < x / y) as BIG.
  { intros x y Y XY. replace (x / y) with (1 + (x - y) / y) by (field; intros ->; qlra). pose proof (quotient_pos (x - y) y Y ltac:(qlra)). qlra. }
  destruct C as [-> |C].
  - destruct (after_zero _ _ _ BA Z) as (l & L & OL). exists (l / (l - 1)). split; [apply BIG; qlra|].
    assert (l - 1 <> 0) as D by (intros Q; qlra). rewrite OL. unfold on_line. apply vec_eq; cbn [fst snd]; field; exact D.
  - destruct (Qcle_lt_or_eq _ _ (after_nonneg _ _ _ C)) as [P|ZC].
    + assert (orient a b c = 0) as Z' by exact Z.
      pose proof (aligned_on_line c a b FC FA FB N Z') as OL. set (k := PointCurvilinearCoordinate c a b) in OL. clearbody k.
      exists k. split; [|done].
      assert (mo o c b = (k - 1) * mo o b a) as E.
      { rewrite (mo_swap o b c). unfold on_line in OL. rewrite OL. unfold mo, orient. cbn [fst snd]. ring. }
      pose proof (after_nonneg _ _ _ BA) as Q. destruct (Qclt_le_dec 1 k) as [|K]; [done|]. exfalso.
      pose proof (times_nonneg (1 - k) _ ltac:(qlra) Q) as R. replace ((1 - k) * mo o b a) with (- ((k - 1) * mo o b a)) in R by ring. qlra.
    + symmetry in ZC. destruct (after_scale c b C ZC) as (j & J & JE). rewrite JE in Z.
      assert (mo o b a = 0) as ZB by (apply Qcmult_integral in Z; destruct Z as [Z|Z]; [qlra|done]).
      destruct (after_zero _ _ _ C ZC) as (l & L & OL). destruct (after_zero _ _ _ BA ZB) as (m & M & OM).
      assert (0 < l * (m - 1)) as LM by (apply times_pos; qlra).
      exists ((l * m - 1) / (l * m - l)). split.
      { apply BIG; [replace (l * m - l) with (l * (m - 1)) by ring; done|qlra]. }
      assert (l * m - l <> 0) as D by (intros Q; replace (l * (m - 1)) with (l * m - l) in LM by ring; qlra).
      rewrite OM, OL. unfold on_line. apply vec_eq; cbn [fst snd]; field; exact D.
Qed.
End full.
