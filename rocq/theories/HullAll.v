(** * Convex hulls with the points on the sides: the result. *)
From Coq Require Import QArith Qcanon Sorted.
From Verif Require Import Base QcTac FillModel GeoModel MapModel PointModel PointSpec PointProof PolyModel PolySpec PolyProof
  TriProof EarProof ConvexProof HullModel HullProof HullSort HullFinal HullFull.
Local Open Scope Qc_scope.

(** ** The last ray *)

Section ray.
Context (o far : vec3) (st nears ps : list vec3).
Context (Hflat : flat o) (Hup : forall q, q ∈ ps -> q = o \/ up o q) (Hgood : good o true (far :: st) ps) (Hlost : lost o (far :: st) ps).
(* the points which are not on the last ray *)
Context (Hray : forall q, q ∈ ps -> q = o \/ q = far \/ 0 < mo o q far) (Hthree : (1 < length st)%nat).
Context (Hnears : forall i j u v, (i < j)%nat -> (nears ++ [far]) !! i = Some u -> (nears ++ [far]) !! j = Some v ->
  exists l, 1 < l /\ on_line o u l v).
Context (Hnup : Forall (up o) nears).
Local Notation hs := (nears ++ far :: st).
Local Notation nn := (length nears).

Lemma hs_length : length hs = (nn + S (length st))%nat.
Proof. by rewrite app_length. Qed.
Lemma far_up : up o far.
Proof.
  destruct (Hup far) as [E|]; [apply (good_sub _ _ _ _ Hgood), elem_of_list_here| |done].
  destruct st as [|b s]; [cbn in Hthree; lia|]. destruct (stack_ne o far b s (good_stack _ _ _ _ Hgood)). done.
Qed.
Lemma ray_lookup i : (i <= nn)%nat -> hs !! i = (nears ++ [far]) !! i.
Proof.
  intros L. destruct (decide (i < nn)%nat); [by rewrite !lookup_app_l|]. rewrite !lookup_app_r by lia.
  by replace (i - nn)%nat with 0%nat by lia.
Qed.
Lemma st_lookup i : (nn <= i)%nat -> hs !! i = (far :: st) !! (i - nn)%nat.
Proof. intros L. by rewrite lookup_app_r. Qed.
(** Points of the ray see what the far one sees. *)
Lemma ray_far i u : (i <= nn)%nat -> hs !! i = Some u -> exists l, 1 <= l /\ on_line o u l far.
Proof.
  intros L U. rewrite ray_lookup in U by done. destruct (decide (i = nn)) as [-> |N].
  - rewrite lookup_app_r, Nat.sub_diag in U by done. cbn in U. injection U as <-. exists 1. split; [qlra|apply on_line_end].
  - destruct (Hnears i nn u far ltac:(lia) U) as (l & A & B); [rewrite lookup_app_r, Nat.sub_diag by done; done|]. exists l. split; [qlra|done].
Qed.
Lemma far_orient u l p : 1 <= l -> on_line o u l far -> orient o far p = l * orient o u p.
Proof. intros _ ->. unfold orient. cbn [fst snd]. ring. Qed.
Lemma ray_sees i u p : (i <= nn)%nat -> hs !! i = Some u -> 0 <= orient o far p -> 0 <= orient o u p.
Proof.
  intros L U P. destruct (ray_far i u L U) as (l & LL & OL). rewrite (far_orient u l p LL OL) in P. apply (positive_factor l); [qlra|done].
Qed.
Lemma positive_strict (k x : Qc) : 0 < k -> 0 < k * x -> 0 < x.
Proof.
  intros K H. destruct (Qclt_le_dec 0 x) as [|L]; [done|]. exfalso. pose proof (times_nonneg k (- x) ltac:(qlra) ltac:(qlra)) as Q.
  replace (k * - x) with (- (k * x)) in Q by ring. qlra.
Qed.
Lemma ray_sees_strict i u p : (i <= nn)%nat -> hs !! i = Some u -> 0 < orient o far p -> 0 < orient o u p.
Proof.
  intros L U P. destruct (ray_far i u L U) as (l & LL & OL). rewrite (far_orient u l p LL OL) in P. apply (positive_strict l); [qlra|done].
Qed.
Lemma ray_edge u v l p : on_line o u l v -> orient u v p = (l - 1) * orient o u p.
Proof. intros ->. unfold orient. cbn [fst snd]. ring. Qed.
Lemma far_sees p : p ∈ ps -> 0 <= orient o far p /\ (p <> o -> p <> far -> 0 < orient o far p).
Proof.
  intros P. assert (orient o far p = mo o p far) as E by (unfold mo, orient; ring). rewrite E.
  destruct (Hray p P) as [-> |[-> |H]].
  - rewrite mo_same3. done.
  - rewrite mo_same2. done.
  - split; [qlra|done].
Qed.
Lemma near_far p : p ∈ nears -> orient o far p = 0 /\ exists c, 0 < c /\ c < 1 /\ on_line o far c p.
Proof.
  intros P. apply elem_of_list_lookup_1 in P. destruct P as [i I]. pose proof (lookup_lt_Some _ _ _ I) as L.
  destruct (Hnears i nn p far L) as (l & LL & OL); [by rewrite lookup_app_l|by rewrite lookup_app_r, Nat.sub_diag by done|].
  split.
  - rewrite (far_orient p l p ltac:(qlra) OL). unfold orient. ring.
  - assert (l <> 0) as NL by (intros ->; qlra). exists (1 / l). split; [apply quotient_pos; qlra|]. split.
    + destruct (Qclt_le_dec (1 / l) 1) as [|C]; [done|]. exfalso.
      pose proof (times_nonneg (1 / l - 1) l ltac:(qlra) ltac:(qlra)) as Q. replace ((1 / l - 1) * l) with (1 - l) in Q by (field; exact NL). qlra.
    + rewrite OL. unfold on_line. apply vec_eq; cbn [fst snd]; field; exact NL.
Qed.
Lemma o_last : hs !! (length hs - 1)%nat = Some o.
Proof.
  rewrite hs_length, st_lookup by lia. pose proof (stack_last o _ (good_stack _ _ _ _ Hgood)) as H. rewrite <- H. f_equal. cbn [length]. lia.
Qed.
Lemma o_in : o ∈ ps.
Proof. apply (good_sub _ _ _ _ Hgood). eapply elem_of_list_lookup_2, stack_last, (good_stack _ _ _ _ Hgood). Qed.
(** A predicate on the edges, by cases. *)
Lemma hs_edges (P : vec3 -> vec3 -> Prop) :
  (forall i u v l, (i < nn)%nat -> hs !! i = Some u -> hs !! S i = Some v -> 1 < l -> on_line o u l v -> P u v) ->
  (forall j a b, (far :: st) !! j = Some a -> (far :: st) !! S j = Some b -> P a b) ->
  (forall u, hs !! 0%nat = Some u -> P o u) ->
  forall i, P (corner hs i) (corner hs (S i)).
Proof.
  intros R E W i. rewrite <- (corner_mod hs i), <- (Nat.add_1_r i), <- (corner_shift hs i 1), Nat.add_1_r.
  pose proof hs_length as L. pose proof (Nat.mod_upper_bound i (length hs) ltac:(lia)) as B.
  set (k := (i mod length hs)%nat) in *. clearbody k. clear i.
  pose proof (corner_lookup hs k B) as C0.
  destruct (decide (S k = length hs)) as [EQ|NE].
  - assert (corner hs k = o) as ->.
    { apply corner_at. rewrite <- o_last. f_equal. lia. }
    rewrite EQ, <- (Nat.add_0_l (length hs)), corner_periodic. apply W, corner_lookup. lia.
  - pose proof (corner_lookup hs (S k) ltac:(lia)) as C1. destruct (decide (k < nn)%nat) as [LT|GE].
    + pose proof C0 as D0. pose proof C1 as D1. rewrite ray_lookup in D0, D1 by lia.
      destruct (Hnears k (S k) _ _ ltac:(lia) D0 D1) as (l & LL & OL). by apply (R k _ _ l).
    + rewrite st_lookup in C0, C1 by lia. replace (S k - nn)%nat with (S (k - nn)) in C1 by lia. by apply (E (k - nn)%nat).
Qed.
Lemma hs_cover p i : p ∈ ps \/ p ∈ nears -> 0 <= orient (corner hs i) (corner hs (S i)) p.
Proof.
  intros P. assert (0 <= orient o far p) as PF.
  { destruct P as [P|P]; [by apply far_sees|]. by rewrite (proj1 (near_far p P)). }
  apply (hs_edges (fun a b => 0 <= orient a b p)).
  - intros j u v l L U V LL OL. rewrite (ray_edge u v l p OL). apply times_nonneg; [qlra|]. apply (ray_sees j); [lia|done|done].
  - intros j a b A B. assert (forall q, q ∈ ps -> 0 <= orient a b q) as K.
    { intros q Q. pose proof (sees_nth _ q j a b (good_sees _ _ _ _ Hgood q Q) A B) as H. by rewrite (mo_rotate q) in H. }
    destruct P as [P|P]; [by apply K|]. destruct (near_far p P) as (_ & c & C0 & C1 & OC). rewrite (orient_combination a b _ _ _ _ OC).
    pose proof (times_nonneg (1 - c) _ ltac:(qlra) (K o o_in)).
    pose proof (times_nonneg c _ ltac:(qlra) (K far ltac:(apply (good_sub _ _ _ _ Hgood), elem_of_list_here))). qlra.
  - intros u U. apply (ray_sees 0); [lia|done|done].
Qed.
Lemma hs_inside p i : p ∈ ps -> p ∉ hs -> 0 < orient (corner hs i) (corner hs (S i)) p.
Proof.
  intros P NP. assert (p ∉ far :: st) as NS by (intros Q; apply NP, elem_of_app; by right).
  assert (p <> far) as NF by (intros ->; apply NS, elem_of_list_here).
  assert (p <> o) as NO by (intros ->; apply NS; eapply elem_of_list_lookup_2, stack_last, (good_stack _ _ _ _ Hgood)).
  pose proof (proj2 (far_sees p P) NO NF) as PF.
  apply (hs_edges (fun a b => 0 < orient a b p)).
  - intros j u v l L U V LL OL. rewrite (ray_edge u v l p OL). apply times_pos; [qlra|]. apply (ray_sees_strict j); [lia|done|done].
  - intros j a b A B. pose proof (lost_inside o _ ps j a b p Hflat Hup Hgood Hlost A B P NS) as H. by rewrite (mo_rotate p) in H.
  - intros u U. apply (ray_sees_strict 0); [lia|done|done].
Qed.
Lemma hs_up p : p ∈ hs -> p = o \/ up o p.
Proof.
  intros P. apply elem_of_app in P. destruct P as [P|P]; [right; rewrite Forall_forall in Hnup; by apply Hnup|].
  by apply Hup, (good_sub _ _ _ _ Hgood).
Qed.
Lemma hs_flat : Forall flat hs.
Proof. apply Forall_forall. intros p P. destruct (hs_up p P) as [-> |[? _]]; done. Qed.
Lemma on_line_ne u l v : u <> o -> 1 < l -> on_line o u l v -> u <> v.
Proof.
  intros N L OL ->. apply N. unfold on_line in OL.
  assert (forall x y : Qc, x = y + l * (x - y) -> x = y) as K.
  { intros x y E. assert ((l - 1) * (x - y) = 0) as Z.
    { transitivity (y + l * (x - y) - x); [ring|]. rewrite <- E. ring. }
    apply Qcmult_integral in Z. destruct Z as [Z|Z]; qlra. }
  destruct v as [[x y] z], o as [[a b] c]. cbn [fst snd] in OL. injection OL as E1 E2 E3.
  by rewrite (K x a E1), (K y b E2), (K z c E3).
Qed.
Lemma hs_nodup : NoDup hs.
Proof.
  apply NoDup_alt. intros i j x A B. destruct (decide (i = j)) as [|N]; [done|]. exfalso.
  assert (forall i j, (i < j)%nat -> hs !! i = Some x -> hs !! j = Some x -> False) as K.
  { clear i j A B N. intros i j L A B. destruct (decide (i < nn)%nat) as [LI|GI].
    - assert (up o x) as UX.
      { rewrite lookup_app_l in A by done. rewrite Forall_forall in Hnup. apply Hnup. by eapply elem_of_list_lookup_2. }
      destruct (decide (j <= nn)%nat) as [LJ|GJ].
      + rewrite ray_lookup in A, B by lia. destruct (Hnears i j x x L A B) as (l & LL & OL). by apply (on_line_ne x l x); [apply up_ne|..].
      + pose proof (elem_of_list_lookup_2 _ _ _ B) as _. rewrite st_lookup in B by lia.
        assert (x ∈ ps) as XP by (apply (good_sub _ _ _ _ Hgood); by eapply elem_of_list_lookup_2).
        assert (x ∈ nears) as XN by (rewrite lookup_app_l in A by done; by eapply elem_of_list_lookup_2).
        assert (x <> far) as NF.
        { intros ->. replace (j - nn)%nat with (S (j - nn - 1)) in B by lia.
          destruct (stack_order o (far :: st) 0 (S (j - nn - 1)) far far (good_stack _ _ _ _ Hgood) ltac:(lia) eq_refl B) as [_ [E|C]].
          - by apply (up_ne o far far_up).
          - by apply (after_irreflexive o Hflat far far far_up far_up). }
        pose proof (proj2 (far_sees x XP) (up_ne o x UX) NF) as Q. rewrite (proj1 (near_far x XN)) in Q. qlra.
    - rewrite st_lookup in A, B by lia.
      destruct (stack_order o (far :: st) (i - nn) (j - nn) x x (good_stack _ _ _ _ Hgood) ltac:(lia) A B) as [NX [E|C]]; [done|].
      assert (up o x) as UX by (destruct (Hup x) as [|]; [apply (good_sub _ _ _ _ Hgood); by eapply elem_of_list_lookup_2|done|done]).
      by apply (after_irreflexive o Hflat x x UX UX). }
  destruct (decide (i < j)%nat); [by apply (K i j)|]. apply (K j i); [lia|done|done].
Qed.
Lemma not_ray q : q ∈ st -> q <> o -> 0 < mo o q far.
Proof.
  intros Q N. destruct (Hray q) as [|[-> |]]; [apply (good_sub _ _ _ _ Hgood); by apply elem_of_list_further|done| |done].
  exfalso. apply elem_of_list_lookup_1 in Q. destruct Q as [i I].
  destruct (stack_order o (far :: st) 0 (S i) far far (good_stack _ _ _ _ Hgood) ltac:(lia) eq_refl I) as [_ [|C]]; [done|].
  by apply (after_irreflexive o Hflat far far far_up far_up).
Qed.
Lemma hs_turns i : let a := corner hs i in let b := corner hs (S i) in let c := corner hs (S (S i)) in
    0 < orient a b c \/ exists k, 1 < k /\ on_line a b k c.
Proof.
  cbn zeta. rewrite <- (corner_mod hs i). replace (S (S i)) with (i + 2)%nat by lia. replace (S i) with (i + 1)%nat by lia.
  rewrite <- (corner_shift hs i 1), <- (corner_shift hs i 2).
  pose proof hs_length as L. pose proof (Nat.mod_upper_bound i (length hs) ltac:(lia)) as B.
  set (k := (i mod length hs)%nat) in *. clearbody k. clear i.
  pose proof (corner_lookup hs k B) as C0. pose proof (good_stack _ _ _ _ Hgood) as GS.
  assert (exists b0 c0 st0, st = b0 :: c0 :: st0) as (b0 & c0 & st0 & EST).
  { destruct st as [|b0 [|c0 st0]]; [cbn in Hthree; lia|cbn in Hthree; lia|by exists b0, c0, st0]. }
  assert (b0 <> o) as NB.
  { rewrite EST in GS. by apply (stack_ne o b0 c0 st0), (stack_cons o far). }
  assert (0 < mo o b0 far) as RB by (apply not_ray; [rewrite EST; apply elem_of_list_here|done]).
  assert (2 <= length st)%nat as L2 by (rewrite EST; cbn; lia).
  destruct (decide (k + 1 = length hs)%nat) as [E1|N1].
  { (* o, top, next *)
    assert (corner hs k = o) as -> by (apply corner_at; rewrite <- o_last; f_equal; lia).
    replace (k + 1)%nat with (0 + length hs)%nat by lia. replace (k + 2)%nat with (1 + length hs)%nat by lia. rewrite !corner_periodic.
    pose proof (corner_lookup hs 0 ltac:(lia)) as D0. pose proof (corner_lookup hs 1 ltac:(lia)) as D1.
    destruct (decide (nn = 0)%nat) as [Z|NZ].
    - left. assert (corner hs 0 = far) as -> by (apply corner_at; rewrite st_lookup, Z by lia; done).
      assert (corner hs 1 = b0) as -> by (apply corner_at; rewrite st_lookup, Z, EST by lia; done).
      replace (orient o far b0) with (mo o b0 far) by (unfold mo, orient; ring). done.
    - right. rewrite ray_lookup in D0, D1 by lia. apply (Hnears 0 1); [lia|exact D0|exact D1]. }
  pose proof (corner_lookup hs (k + 1) ltac:(lia)) as C1.
  destruct (decide (k + 2 = length hs)%nat) as [E2|N2].
  { (* s, o, top *)
    left. assert (corner hs (k + 1) = o) as -> by (apply corner_at; rewrite <- o_last; f_equal; lia).
    rewrite E2, <- (Nat.add_0_l (length hs)), corner_periodic. pose proof (corner_lookup hs 0 ltac:(lia)) as D0.
    set (s := corner hs k) in *. rewrite st_lookup in C0 by lia. replace (k - nn)%nat with (S (k - nn - 1)) in C0 by lia. cbn in C0.
    pose proof (elem_of_list_lookup_2 _ _ _ C0) as IS.
    assert (s <> o) as NS.
    { assert ((far :: st) !! S (k - nn - 1) = Some s) as C0' by exact C0.
      by destruct (stack_order o (far :: st) (S (k - nn - 1)) (length (far :: st) - 1) s o GS ltac:(cbn [length]; lia) C0' (stack_last o _ GS)). }
    pose proof (not_ray s IS NS) as R. replace (orient s o (corner hs 0)) with (orient o (corner hs 0) s) by (unfold orient; ring).
    apply (ray_sees_strict 0); [lia|done|]. by replace (orient o far s) with (mo o s far) by (unfold mo, orient; ring). }
  pose proof (corner_lookup hs (k + 2) ltac:(lia)) as C2.
  destruct (decide (k + 2 <= nn)%nat) as [LT|GE].
  { (* on the ray *)
    right. rewrite ray_lookup in C0, C1, C2 by lia.
    destruct (Hnears k (k + 1) _ _ ltac:(lia) C0 C1) as (l & LL & OL). destruct (Hnears (k + 1) (k + 2) _ _ ltac:(lia) C1 C2) as (m & M & OM).
    set (u := corner hs k) in *. set (v := corner hs (k + 1)) in *. set (w := corner hs (k + 2)) in *. clearbody u v w.
    assert (l - 1 <> 0) as D by (intros Q; qlra).
    exists ((l * m - 1) / (l - 1)). split.
    - assert (0 < (l * m - l) / (l - 1)) as Q.
      { apply quotient_pos; [qlra|]. replace (l * m - l) with (l * (m - 1)) by ring. apply times_pos; qlra. }
      replace ((l * m - 1) / (l - 1)) with (1 + (l * m - l) / (l - 1)) by (field; exact D). qlra.
    - rewrite OM, OL. unfold on_line. apply vec_eq; cbn [fst snd]; field; exact D. }
  destruct (decide (k < nn)%nat) as [LK|GK].
  { (* near, far, b0 *)
    left. assert (k + 1 = nn)%nat as E by lia.
    assert (corner hs (k + 1) = far) as ->.
    { apply corner_at. rewrite st_lookup by lia. by replace (k + 1 - nn)%nat with 0%nat by lia. }
    assert (corner hs (k + 2) = b0) as ->.
    { apply corner_at. rewrite st_lookup by lia. replace (k + 2 - nn)%nat with 1%nat by lia. by rewrite EST. }
    rewrite ray_lookup in C0 by lia.
    destruct (Hnears k nn _ far LK C0) as (l & LL & OL); [by rewrite lookup_app_r, Nat.sub_diag by done|].
    rewrite (ray_edge _ _ l b0 OL). apply times_pos; [qlra|]. apply (ray_sees_strict k); [lia|by rewrite ray_lookup by lia|].
    by replace (orient o far b0) with (mo o b0 far) by (unfold mo, orient; ring). }
  rewrite !st_lookup in C0, C1, C2 by lia. replace (k + 1 - nn)%nat with (S (k - nn)) in C1 by lia. replace (k + 2 - nn)%nat with (S (S (k - nn))) in C2 by lia.
  pose proof (bends_nth true _ _ _ _ _ (good_bends _ _ _ _ Hgood) C0 C1 C2) as H. unfold turn_ok in H.
  apply Qcle_lt_or_eq in H. destruct H as [H|Z]; [by left|]. right.
  destruct (stack_order o _ (k - nn) (S (k - nn)) _ _ GS ltac:(lia) C0 C1) as [N01 A01]. destruct (stack_order o _ (S (k - nn)) (S (S (k - nn))) _ _ GS ltac:(lia) C1 C2) as [N12 A12].
  destruct A01 as [|A01]; [done|].
  pose proof hs_nodup as ND. rewrite NoDup_alt in ND.
  apply (straight_forward o); try done.
  - apply corner_flat, hs_flat.
  - apply corner_flat, hs_flat.
  - apply corner_flat, hs_flat.
  - intros E. assert (k = k + 1)%nat as F; [|lia]. apply (ND k (k + 1)%nat (corner hs k)).
    + by apply corner_lookup.
    + rewrite E. apply corner_lookup. lia.
Qed.
Lemma hs_left : left_turning hs.
Proof.
  split; [apply hs_flat|]. split; [|apply hs_turns]. intros i E.
  pose proof hs_nodup as ND. pose proof hs_length as L.
  rewrite <- (corner_mod hs i), <- (Nat.add_1_r i), <- (corner_shift hs i 1) in E.
  pose proof (Nat.mod_upper_bound i (length hs) ltac:(lia)) as B. set (k := (i mod length hs)%nat) in *. clearbody k.
  rewrite NoDup_alt in ND. destruct (decide (k + 1 = length hs)%nat) as [E1|N1].
  - rewrite E1, <- (Nat.add_0_l (length hs)), corner_periodic in E.
    assert (k = 0)%nat as F; [|lia]. apply (ND k 0%nat (corner hs k)); [by apply corner_lookup|]. rewrite E. apply corner_lookup. lia.
  - assert (k = k + 1)%nat as F; [|lia]. apply (ND k (k + 1)%nat (corner hs k)); [by apply corner_lookup|]. rewrite E. apply corner_lookup. lia.
Qed.
End ray.
