(** Types and parent segments: conclusions. *)
From Coq Require Import Sorted.
From Verif Require Import Base BaseProof GeoModel GeoProof UnionModel UnionSpec UnionProof UnionProof2.
From Coq Require Import Lqa.
Local Open Scope nat_scope.

Lemma filter_elem {A} (f : A -> bool) l x : x ∈ List.filter f l <-> x ∈ l /\ f x = true.
Proof. by rewrite !elem_of_list_In, filter_In. Qed.

Section types.
Context (g : geo_config).
Notation T := (same_distance g).

Lemma apart_near m p q : apart T m -> p ∈ m -> q ∈ m -> near g p.1 q.1 -> p = q.
Proof.
  pose proof (T_nonneg g) as HT. induction m as [|r m IH]; intros Ha Hp Hq Hn; [by apply elem_of_nil in Hp|].
  apply apart_cons in Ha as [Ha Hr]. unfold near in *.
  apply elem_of_cons in Hp as [->|Hp]; apply elem_of_cons in Hq as [->|Hq]; try done.
  - exfalso. specialize (Hr q Hq). clear -Hr Hn HT. qcases; qlra.
  - exfalso. specialize (Hr p Hp). clear -Hr Hn HT. qcases; qlra.
  - by apply IH.
Qed.

Lemma types_ok one two : minus_one ∉ one -> minus_one ∉ two -> spaced T one -> spaced (T + T) two ->
  exists pts, CreateUnionPoints g one two [] = Ok pts /\
    (forall i a, one !! i = Some a -> exists x, (a, x) ∈ pts /\ from_first (up_type x) = true /\ up_indices x !! 0 = Some i) /\
    (forall j b, two !! j = Some b ->
       exists k x, (k, x) ∈ pts /\ near g k b /\ from_second (up_type x) = true /\ up_indices x !! 1 = Some j) /\
    (forall k x, (k, x) ∈ pts ->
       (from_first (up_type x) = true -> exists i, up_indices x !! 0 = Some i /\ one !! i = Some k) /\
       (from_second (up_type x) = true -> exists j b, up_indices x !! 1 = Some j /\ two !! j = Some b /\ near g k b) /\
       (from_first (up_type x) = false -> from_second (up_type x) = true /\ k ∈ two /\ forall a, a ∈ one -> ~ near g k a)).
Proof.
  intros H1 H2 S1 S2. destruct (union_inv g one two H1 H2 S1 S2) as (pts & E & [Ha Hm Ht Hf Hs]).
  exists pts. split; [done|].
  assert (Hone : forall i a, one !! i = Some a -> exists x, (a, x) ∈ pts /\ from_first (up_type x) = true /\ up_indices x !! 0 = Some i).
  { intros i a Hi. assert (Hl : imap (fun i a => (a, Some i)) one !! i = Some (a, Some i)) by (by rewrite list_lookup_imap, Hi).
    rewrite <- Hf in Hl. change (@map (Qc * upoint) (Qc * option nat)) with (@fmap list _ (Qc * upoint) (Qc * option nat)) in Hl.
    apply list_lookup_fmap_inv in Hl as ([k x] & [= -> Ei] & Hx). apply elem_of_list_lookup_2, filter_elem in Hx as [Hx Hx'].
    exists x. done. }
  split_and!; [done|..].
  - intros j b Hj. assert (Hl : enumerate two !! j = Some (j, b)) by (by apply enumerate_lookup).
    destruct (Forall2_lookup_r _ _ _ _ _ Hs Hl) as ([k x] & Hk & Hi & Hn & _). apply elem_of_list_lookup_2, filter_elem in Hk as [Hk Hk'].
    exists k, x. done.
  - intros k x Hx. split_and!.
    + intros Hff. assert (Hin : (k, x) ∈ List.filter isf pts) by (by apply filter_elem).
      apply elem_of_list_lookup in Hin as [i Hi].
      assert (Hl : ((fun p : Qc * upoint => (p.1, up_indices p.2 !! 0)) <$> List.filter isf pts) !! i = Some (k, up_indices x !! 0)).
      { by rewrite list_lookup_fmap, Hi. }
      change (@fmap list _ (Qc * upoint) (Qc * option nat)) with (@map (Qc * upoint) (Qc * option nat)) in Hl. rewrite Hf in Hl.
      rewrite list_lookup_imap in Hl. destruct (one !! i) as [a|] eqn:Ea; cbn in Hl; [|done]. injection Hl as <- Hl. eauto.
    + intros Hss. assert (Hin : (k, x) ∈ List.filter iss pts) by (by apply filter_elem).
      apply elem_of_list_lookup in Hin as [i Hi]. destruct (Forall2_lookup_l _ _ _ _ _ Hs Hi) as ([j b] & Hjb & Hj & Hn & _).
      apply enumerate_lookup in Hjb as [-> Hb]. eauto.
    + intros Hff. destruct (Ht _ Hx) as [Htx _]. unfold isf, iss in Htx. cbn [snd] in Htx. rewrite Hff in Htx. cbn in Htx.
      split_and!; [done| |].
      * assert (Hin : (k, x) ∈ List.filter iss pts) by (by apply filter_elem).
        apply elem_of_list_lookup in Hin as [i Hi]. destruct (Forall2_lookup_l _ _ _ _ _ Hs Hi) as ([j b] & Hjb & Hj & _ & Hn).
        apply enumerate_lookup in Hjb as [-> Hb]. specialize (Hn Hff). cbn in Hn. subst k. by eapply elem_of_list_lookup_2.
      * intros a [i Hi]%elem_of_list_lookup Hn. destruct (Hone i a Hi) as (x' & Hx' & Hff' & _).
        pose proof (apart_near pts (k, x) (a, x') Ha Hx Hx' Hn) as [= -> ->]. congruence.
Qed.
End types.

(** ** The loop over the segments *)

Definition idx (n c : nat) : Z := if decide (1 <= c < n) then Z.of_nat c - 1 else -1.

Definition cnt (f : Qc * upoint -> bool) (l : upoints) : nat := length (List.filter f l).

Lemma cnt_app f l1 l2 : cnt f (l1 ++ l2) = cnt f l1 + cnt f l2.
Proof. unfold cnt. by rewrite List.filter_app, app_length. Qed.
Lemma cnt_cons f p l : cnt f (p :: l) = (if f p then 1 else 0) + cnt f l.
Proof. unfold cnt. cbn. by destruct (f p). Qed.

Lemma idx_step n c (b : bool) : c + (if b then 1 else 0) <= n ->
  (if (Z.of_nat n <=? (if b then idx n c + 1 else idx n c) + 1)%Z then (-1)%Z else (if b then idx n c + 1 else idx n c)%Z) =
  idx n (c + (if b then 1 else 0)).
Proof.
  intros H. unfold idx. destruct b; repeat case_decide;
    match goal with |- context [(?a <=? ?b)%Z] => destruct (Z.leb_spec a b) end; lia.
Qed.

(** The segment the loop builds between two consecutive points. *)
Definition segment_between (n1 n2 c1 c2 : nat) (k k' : Qc) : usegment :=
  let j1 := idx n1 c1 in let j2 := idx n2 c2 in
  USegment (if (0 <=? j1)%Z then if (0 <=? j2)%Z then UBoth else UFirst else USecond) (k, k') (Z.to_nat j1, Z.to_nat j2).

Lemma segments_closed n1 n2 : forall pts pre, (forall p, p ∈ pts -> isf p || iss p = true) ->
  cnt isf (pre ++ pts) = n1 -> cnt iss (pre ++ pts) = n2 ->
  (exists segs, union_segments n1 n2 (idx n1 (cnt isf pre)) (idx n2 (cnt iss pre)) pts = Ok segs /\ length segs = pred (length pts) /\
     forall i k x k' x', pts !! i = Some (k, x) -> pts !! S i = Some (k', x') ->
       let c1 := cnt isf (pre ++ take (S i) pts) in let c2 := cnt iss (pre ++ take (S i) pts) in
       segs !! i = Some (segment_between n1 n2 c1 c2 k k') /\ (0 <= idx n1 c1 \/ 0 <= idx n2 c2)%Z) \/
  (union_segments n1 n2 (idx n1 (cnt isf pre)) (idx n2 (cnt iss pre)) pts = Abort /\
     exists i k x k' x', pts !! i = Some (k, x) /\ pts !! S i = Some (k', x') /\
       idx n1 (cnt isf (pre ++ take (S i) pts)) = (-1)%Z /\ idx n2 (cnt iss (pre ++ take (S i) pts)) = (-1)%Z).
Proof.
  induction pts as [|[k x] pts IH]; intros pre Ht E1 E2.
  { left. exists []. split_and!; done. }
  destruct pts as [|[k' x'] pts].
  { left. exists []. split_and!; done. }
  cbn [union_segments].
  set (m := match up_type x with UUnknown => _ | UFirst => _ | USecond => _ | UBoth => _ end).
  assert (Em : m = Ok (if isf (k, x) then idx n1 (cnt isf pre) + 1 else idx n1 (cnt isf pre),
                       if iss (k, x) then idx n2 (cnt iss pre) + 1 else idx n2 (cnt iss pre))%Z).
  { specialize (Ht (k, x) ltac:(left)). unfold m, isf, iss in *. cbn [snd] in *. by destruct (up_type x). }
  rewrite Em. clear m Em. cbn [mbind outcome_bind fst snd].
  assert (Hc1 : cnt isf pre + (if isf (k, x) then 1 else 0) <= n1) by (rewrite <- E1, cnt_app, cnt_cons; lia).
  assert (Hc2 : cnt iss pre + (if iss (k, x) then 1 else 0) <= n2) by (rewrite <- E2, cnt_app, cnt_cons; lia).
  rewrite (idx_step n1 _ _ Hc1), (idx_step n2 _ _ Hc2).
  assert (P1 : cnt isf pre + (if isf (k, x) then 1 else 0) = cnt isf (pre ++ [(k, x)])) by (rewrite cnt_app, cnt_cons; cbn; lia).
  assert (P2 : cnt iss pre + (if iss (k, x) then 1 else 0) = cnt iss (pre ++ [(k, x)])) by (rewrite cnt_app, cnt_cons; cbn; lia).
  rewrite P1, P2. clear P1 P2 Hc1 Hc2.
  set (j1 := idx n1 (cnt isf (pre ++ [(k, x)]))) in *. set (j2 := idx n2 (cnt iss (pre ++ [(k, x)]))) in *.
  assert (Hj1 : (0 <= j1 \/ j1 = -1)%Z) by (unfold j1, idx; case_decide; lia).
  assert (Hj2 : (0 <= j2 \/ j2 = -1)%Z) by (unfold j2, idx; case_decide; lia).
  destruct (Z.eqb_spec j1 (-1)) as [Z1|Z1]; destruct (Z.eqb_spec j2 (-1)) as [Z2|Z2].
  { right. cbn. split; [done|]. exists 0, k, x, k', x'. cbn. fold j1 j2. done. }
  all: cbn [negb orb require mbind outcome_bind].
  all: destruct (IH (pre ++ [(k, x)])) as [(segs & E & Hl & Hseg)|(E & i & k1 & x1 & k2 & x2 & L1 & L2 & I1 & I2)];
    [intros p Hp; apply Ht; by right|by rewrite <- app_assoc|by rewrite <- app_assoc|left|right]; fold j1 j2 in E; cbn [union_segments] in E; rewrite E; cbn [mbind outcome_bind].
  all: try (split; [done|]; exists (S i), k1, x1, k2, x2; rewrite <- app_assoc in I1, I2; done).
  all: eexists; split; [done|]; split; [cbn [length pred] in *; lia|].
  all: intros [|i] k1 x1 k2 x2 L1 L2; [cbn in L1, L2; injection L1 as <- <-; injection L2 as <- <-; cbn [take];
    fold j1 j2; unfold segment_between; cbn zeta; fold j1 j2|
    specialize (Hseg i k1 x1 k2 x2 L1 L2); rewrite <- !app_assoc in Hseg; exact Hseg].
  all: repeat match goal with |- context [(?a <=? ?b)%Z] => destruct (Z.leb_spec a b) end; try lia;
    (split; [|lia]); cbn [lookup list_lookup andb]; repeat f_equal; lia.
Qed.

(** ** Where the segment lies *)

Section place.
Context (T d : Qc) (HT : (0 <= T)%Qc) (f : Qc * upoint -> bool) (pts : upoints) (l : list Qc).
Context (Ha : apart T pts).
Context (Hl : Forall2 (fun p a => (a - d <= p.1 /\ p.1 <= a + d)%Qc) (List.filter f pts) l).

Lemma apart_le i j p q : apart T pts -> i <= j -> pts !! i = Some p -> pts !! j = Some q -> (p.1 <= q.1)%Qc.
Proof.
  intros Ha' Hij Hp Hq. destruct (decide (i = j)) as [->|Hne].
  - rewrite Hp in Hq. injection Hq as ->. apply Qcle_refl.
  - rewrite <- (take_drop j pts) in Ha'. apply apart_app in Ha' as (_ & _ & C).
    specialize (C p q). assert (H : (p.1 + T < q.1)%Qc); [|clear -H HT; qlra]. apply C.
    + apply (elem_of_list_lookup_2 _ i). by rewrite lookup_take by lia.
    + apply (elem_of_list_lookup_2 _ 0). by rewrite lookup_drop, Nat.add_0_r.
Qed.

Lemma parent_place i k x k' x' : pts !! i = Some (k, x) -> pts !! S i = Some (k', x') -> l <> [] ->
  let c := cnt f (take (S i) pts) in
  ((0 <= idx (length l) c)%Z -> inside_segment d l (Z.to_nat (idx (length l) c)) k k') /\
  (idx (length l) c = (-1)%Z -> (c = 0 /\ exists a, l !! 0 = Some a /\ (k' <= a + d)%Qc) \/
                                 (c = length l /\ exists b, last l = Some b /\ (b - d <= k)%Qc)).
Proof.
  intros Hk Hk' Hne c.
  assert (Hb : forall q, q ∈ take (S i) pts -> (q.1 <= k)%Qc).
  { intros q [j Hj]%elem_of_list_lookup. pose proof (lookup_lt_Some _ _ _ Hj) as Hlt. rewrite take_length in Hlt. rewrite lookup_take in Hj by lia.
    apply (apart_le j i q (k, x)); try done. lia. }
  assert (Hf : forall q, q ∈ drop (S i) pts -> (k' <= q.1)%Qc).
  { intros q [j Hj]%elem_of_list_lookup. rewrite lookup_drop in Hj. apply (apart_le (S i) (S i + j) (k', x') q); try done. lia. }
  rewrite <- (take_drop (S i) pts), List.filter_app in Hl. apply Forall2_app_inv_l in Hl as (l1 & l2 & H1 & H2 & El).
  assert (Hc : length l1 = c) by (symmetry; apply (Forall2_length _ _ _ H1)).
  assert (B1 : forall a, a ∈ l1 -> (a - d <= k)%Qc).
  { intros a [j Hj]%elem_of_list_lookup. destruct (Forall2_lookup_r _ _ _ _ _ H1 Hj) as (q & Hq & Hq1 & Hq2).
    apply elem_of_list_lookup_2, filter_elem in Hq as [Hq _]. specialize (Hb q Hq). clear -Hb Hq1. qlra. }
  assert (B2 : forall a, a ∈ l2 -> (k' <= a + d)%Qc).
  { intros a [j Hj]%elem_of_list_lookup. destruct (Forall2_lookup_r _ _ _ _ _ H2 Hj) as (q & Hq & Hq1 & Hq2).
    apply elem_of_list_lookup_2, filter_elem in Hq as [Hq _]. specialize (Hf q Hq). clear -Hf Hq2. qlra. }
  assert (Hn : length l = c + length l2) by (rewrite El, app_length; lia).
  unfold idx. split.
  - case_decide as Hd; [|lia]. intros _. replace (Z.to_nat (Z.of_nat c - 1)) with (c - 1) by lia.
    destruct (lookup_lt_is_Some_2 l1 (c - 1)) as [a Ea]; [lia|]. destruct (lookup_lt_is_Some_2 l2 0) as [b Eb]; [lia|].
    exists a, b. rewrite El. split_and!.
    + by rewrite lookup_app_l by lia.
    + rewrite lookup_app_r by lia. by replace (S (c - 1) - length l1) with 0 by lia.
    + apply B1. by eapply elem_of_list_lookup_2.
    + apply B2. by eapply elem_of_list_lookup_2.
  - case_decide as Hd; [lia|]. intros _. assert (c = 0 \/ length l2 = 0) as [Hz|Hz] by lia.
    + left. split; [done|]. rewrite Hz in Hc. apply nil_length_inv in Hc as ->. cbn in El. subst l2.
      destruct l as [|a l']; [done|]. exists a. split; [done|]. apply B2. left.
    + right. split; [lia|]. apply nil_length_inv in Hz as ->. rewrite app_nil_r in El. subst l1.
      destruct (last l) as [b|] eqn:Eb; [|by apply last_None in Eb]. exists b. split; [done|]. apply B1.
      rewrite last_lookup in Eb. by eapply elem_of_list_lookup_2.
Qed.
End place.

Section segments.
Context (g : geo_config).
Notation T := (same_distance g).

Lemma filter_key_first one pts : map (fun p => (p.1, up_indices p.2 !! 0)) (List.filter isf pts) = imap (fun i a => (a, Some i)) one ->
  Forall2 (fun p a => (a - 0 <= p.1 /\ p.1 <= a + 0)%Qc) (List.filter isf pts) one.
Proof.
  intros E. apply Forall2_same_length_lookup_2.
  { apply (f_equal length) in E. rewrite map_length, imap_length in E. done. }
  intros i p a Hp Ha. assert (H : (fun p : Qc * upoint => (p.1, up_indices p.2 !! 0)) <$> List.filter isf pts !! i = (imap (fun i a => (a, Some i)) one) !! i).
  { rewrite <- E. symmetry. apply list_lookup_fmap. }
  rewrite Hp, list_lookup_imap, Ha in H. cbn in H. injection H as -> _. split; qlra.
Qed.

Lemma segments_ok one two : minus_one ∉ one -> minus_one ∉ two -> spaced T one -> spaced (T + T) two -> one <> [] -> two <> [] ->
  (exists pts segs, CreateUnionMesh g one two = Ok (pts, segs) /\ length pts = S (length segs) /\
     forall i s, segs !! i = Some s ->
       exists x y, pts.*1 !! i = Some x /\ pts.*1 !! S i = Some y /\ us_points s = (x, y) /\
         let '(j1, j2) := us_indices s in
         match us_type s with
         | UBoth => inside_segment 0 one j1 x y /\ inside_segment T two j2 x y
         | UFirst => inside_segment 0 one j1 x y /\ outside_mesh T two x y
         | USecond => outside_mesh 0 one x y /\ inside_segment T two j2 x y
         | UUnknown => False
         end) \/
  (CreateUnionMesh g one two = Abort /\
     exists a a' b b', head one = Some a /\ last one = Some a' /\ head two = Some b /\ last two = Some b' /\ (b' < a \/ a' < b)%Qc).
Proof.
  intros H1 H2 S1 S2 N1 N2. pose proof (T_nonneg g) as HT.
  destruct (union_inv g one two H1 H2 S1 S2) as (pts & E & [Ha Hm Ht Hf Hs]).
  pose proof (filter_key_first one pts Hf) as P1.
  assert (P2 : Forall2 (fun p a => (a - T <= p.1 /\ p.1 <= a + T)%Qc) (List.filter iss pts) two).
  { apply Forall2_same_length_lookup_2.
    - rewrite (Forall2_length _ _ _ Hs). unfold enumerate. apply imap_length.
    - intros i p b Hp Hb. destruct (Forall2_lookup_l _ _ _ _ _ Hs Hp) as ([j b'] & Hj & _ & Hn & _).
      apply enumerate_lookup in Hj as [_ Hb']. rewrite Hb in Hb'. injection Hb' as <-. unfold near in Hn. cbn in Hn. clear -Hn. split; qcases; qlra. }
  assert (C1 : cnt isf pts = length one) by apply (Forall2_length _ _ _ P1).
  assert (C2 : cnt iss pts = length two) by apply (Forall2_length _ _ _ P2).
  assert (Hpts : pts <> []). { intros ->. destruct one; [done|]. by cbn in C1. }
  assert (Htt : forall p, p ∈ pts -> isf p || iss p = true) by (intros p Hp; by apply Ht).
  unfold CreateUnionMesh. rewrite E. cbn [mbind outcome_bind].
  assert (Ec : CreateUnionSegments one two pts = union_segments (length one) (length two) (-1) (-1) pts) by (by destruct pts).
  rewrite Ec. clear Ec.
  destruct (segments_closed (length one) (length two) pts [] Htt C1 C2) as [(segs & Es & Hlen & Hseg)|(Es & i & k & x & k' & x' & L1 & L2 & I1 & I2)];
    cbn [app] in *; change (idx (length one) (cnt isf [])) with (-1)%Z in Es; change (idx (length two) (cnt iss [])) with (-1)%Z in Es;
    rewrite Es; cbn [mbind outcome_bind].
  - left. exists pts, segs. split; [done|].
    assert (Hl : length pts = S (length segs)). { destruct pts; [done|]. cbn in Hlen |- *. lia. }
    split; [done|]. intros i s Hsi. pose proof (lookup_lt_Some _ _ _ Hsi) as Hlt.
    destruct (lookup_lt_is_Some_2 pts i) as [[k x] Hk]; [lia|]. destruct (lookup_lt_is_Some_2 pts (S i)) as [[k' x'] Hk']; [lia|].
    destruct (Hseg i k x k' x' Hk Hk') as [Hs1 Hor]. rewrite Hsi in Hs1. injection Hs1 as ->.
    exists k, k'. rewrite !list_lookup_fmap, Hk, Hk'. split_and!; try done.
    pose proof (parent_place T 0 HT isf pts one Ha P1 i k x k' x' Hk Hk' N1) as [A1 A2].
    pose proof (parent_place T T HT iss pts two Ha P2 i k x k' x' Hk Hk' N2) as [B1 B2].
    set (c1 := cnt isf (take (S i) pts)) in *. set (c2 := cnt iss (take (S i) pts)) in *.
    assert (O1 : (idx (length one) c1 < 0)%Z -> outside_mesh 0 one k k').
    { intros Hneg. assert (Em : idx (length one) c1 = (-1)%Z) by (unfold idx in *; case_decide; lia).
      destruct (A2 Em) as [[_ H]|[_ H]]; [by left|by right]. }
    assert (O2 : (idx (length two) c2 < 0)%Z -> outside_mesh T two k k').
    { intros Hneg. assert (Em : idx (length two) c2 = (-1)%Z) by (unfold idx in *; case_decide; lia).
      destruct (B2 Em) as [[_ H]|[_ H]]; [by left|by right]. }
    unfold segment_between. cbn [us_indices us_type].
    destruct (Z.leb_spec 0 (idx (length one) c1)), (Z.leb_spec 0 (idx (length two) c2)); cbv beta iota zeta;
      [split; [by apply A1|by apply B1]|split; [by apply A1|by apply O2]|split; [by apply O1|by apply B1]|exfalso; lia].
  - right. split; [done|].
    assert (Hkk : (k + T < k')%Qc).
    { pose proof Ha as Ha'. rewrite <- (take_drop (S i) pts) in Ha'. apply apart_app in Ha' as (_ & _ & C). apply (C (k, x) (k', x')).
      - apply (elem_of_list_lookup_2 _ i). by rewrite lookup_take by lia.
      - apply (elem_of_list_lookup_2 _ 0). by rewrite lookup_drop, Nat.add_0_r. }
    destruct (proj2 (parent_place T 0 HT isf pts one Ha P1 i k x k' x' L1 L2 N1) I1) as [[Z1 (a & Ea & La)]|[Z1 (a & Ea & La)]];
    destruct (proj2 (parent_place T T HT iss pts two Ha P2 i k x k' x' L1 L2 N2) I2) as [[Z2 (b & Eb & Lb)]|[Z2 (b & Eb & Lb)]].
    + exfalso. rewrite (take_S_r _ _ _ L1), cnt_app, cnt_cons in Z1, Z2. specialize (Htt (k, x) (elem_of_list_lookup_2 _ _ _ L1)).
      destruct (isf (k, x)), (iss (k, x)); cbn in *; try lia; done.
    + destruct one as [|a0 one'] eqn:Eo; [done|]. cbn in Ea. injection Ea as ->.
      destruct (last (a :: one')) as [a'|] eqn:El; [|by apply last_None in El].
      destruct two as [|b0 two'] eqn:Et; [done|].
      exists a, a', b0, b. split_and!; try done. left. clear -Hkk La Lb HT. qlra.
    + destruct two as [|b0 two'] eqn:Et; [done|]. cbn in Eb. injection Eb as ->.
      destruct (last (b :: two')) as [b'|] eqn:El; [|by apply last_None in El].
      destruct one as [|a0 one'] eqn:Eo; [done|].
      exists a0, a, b, b'. split_and!; try done. right. clear -Hkk La Lb HT. qlra.
    + exfalso. assert (D : forall f, cnt f pts = cnt f (take (S i) pts) + cnt f (drop (S i) pts)) by (intros f; by rewrite <- cnt_app, take_drop).
      pose proof (D isf) as D1. pose proof (D iss) as D2. rewrite (drop_S _ _ _ L2), cnt_cons in D1, D2.
      specialize (Htt (k', x') (elem_of_list_lookup_2 _ _ _ L2)).
      destruct (isf (k', x')), (iss (k', x')); cbn in *; try lia; done.
Qed.
End segments.

Lemma points_spaced g one two : minus_one ∉ one -> minus_one ∉ two ->
  exists pts, CreateUnionPoints g one two [] = Ok pts /\
    spaced (same_distance g) pts.*1 /\ (forall k, k ∈ pts.*1 -> k ∈ one \/ k ∈ two) /\
    (forall c, c ∈ one \/ c ∈ two -> exists k, k ∈ pts.*1 /\ near g k c).
Proof.
  intros H1 H2. destruct (points_ok g one two H1 H2) as (pts & E & Ha & Hk & Hc). exists pts. split_and!; try done.
  intros i x y Hx Hy. rewrite list_lookup_fmap in Hx, Hy. apply fmap_Some in Hx as (p & Hp & ->). apply fmap_Some in Hy as (q & Hq & ->).
  rewrite <- (take_drop (S i) pts) in Ha. apply apart_app in Ha as (_ & _ & C). apply C.
  - apply (elem_of_list_lookup_2 _ i). by rewrite lookup_take by lia.
  - apply (elem_of_list_lookup_2 _ 0). by rewrite lookup_drop, Nat.add_0_r.
Qed.
