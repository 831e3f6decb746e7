(** Types, indices and parent segments in the union of two meshes with well separated points. *)
From Coq Require Import Sorted.
From Verif Require Import Base BaseProof GeoModel GeoProof UnionModel UnionSpec UnionProof.
From Coq Require Import Lqa.
Local Open Scope nat_scope.

Definition isf (p : Qc * upoint) : bool := from_first (up_type p.2).
Definition iss (p : Qc * upoint) : bool := from_second (up_type p.2).

Lemma enumerate_from {A} (l : list A) n : imap (fun i => pair (n + i)) l = match l with [] => [] | x :: l' => (n, x) :: imap (fun i => pair (S n + i)) l' end.
Proof. destruct l as [|x l]; [done|]. rewrite imap_cons. f_equal; [f_equal; lia|]. apply imap_ext. intros i y _. cbn. f_equal. lia. Qed.

Lemma spaced_cons d a l : (0 <= d)%Qc -> spaced d (a :: l) <-> spaced d l /\ forall b, b ∈ l -> (a + d < b)%Qc.
Proof.
  intros Hd. split.
  - intros H. assert (Hs : spaced d l). { intros i x y Hx Hy. by apply (H (S i)). } split; [done|].
    assert (Hall : forall i b, l !! i = Some b -> (a + d < b)%Qc).
    { induction i as [|i IH]; intros b Hb; [by apply (H 0)|].
      assert (Hi : i < length l) by (apply lookup_lt_Some in Hb; lia). apply lookup_lt_is_Some_2 in Hi as [b' Hb'].
      specialize (IH b' Hb'). specialize (Hs i b' b Hb' Hb). qlra. }
    intros b [i Hi]%elem_of_list_lookup. by eapply Hall.
  - intros [H1 H2] [|i] x y Hx Hy.
    + cbn in Hx. injection Hx as <-. apply H2. by eapply (elem_of_list_lookup_2 _ 0).
    + by apply (H1 i).
Qed.

Lemma apart_upd d m1 k x x' m2 : apart d (m1 ++ (k, x) :: m2) -> apart d (m1 ++ (k, x') :: m2).
Proof.
  rewrite !apart_app, !apart_cons. intros (A & [B B'] & C). split_and!; try done.
  intros p q Hp [->|Hq]%elem_of_cons; [apply (C p (k, x)); [done|left]|apply C; [done|by right]].
Qed.

Section union.
Context (g : geo_config).
Notation T := (same_distance g).

Lemma update_at c f m1 x m2 : c ∉ m1.*1 -> map_update c f (m1 ++ (c, x) :: m2) = (x' ← f x; Ok (m1 ++ (c, x') :: m2)).
Proof.
  induction m1 as [|[k y] m1 IH]; intros Hne; cbn [app map_update].
  - by destruct (qeq_spec c c).
  - destruct (qeq_spec c k) as [->|_]; [exfalso; apply Hne; cbn; left|]. rewrite IH; [|intros ?; apply Hne; cbn; by right].
    by destruct (f x).
Qed.

Lemma add_cases m c : minus_one ∉ m.*1 -> apart T m ->
  (exists m1 k x m2, m = m1 ++ (k, x) :: m2 /\ near g k c /\ InsertNewIntersection g c m = (m, k, true) /\
     forall f, map_update k f m = (x' ← f x; Ok (m1 ++ (k, x') :: m2))) \/
  (exists m1 m2 m', m = m1 ++ m2 /\ (forall p, p ∈ m -> ~ near g p.1 c) /\ (forall x, apart T (m1 ++ (c, x) :: m2)) /\
     InsertNewIntersection g c m = (m', c, false) /\
     forall f, map_update c f m' = (x' ← f (UPoint UUnknown []); Ok (m1 ++ (c, x') :: m2))).
Proof.
  intros Hm Ha. pose proof (T_nonneg g) as HT.
  destruct (insert_new g c m Hm) as [(k & E & Hk & Hn)|[E Hn]].
  - left. destruct (update_split g k (fun _ => Throw) m Ha Hk) as (m1 & x & m2 & -> & _). exists m1, k, x, m2. split_and!; try done.
    intros f. apply update_at. intros (p & -> & Hp)%elem_of_list_fmap. apply apart_app in Ha as (_ & _ & C).
    specialize (C p (p.1, x) Hp ltac:(left)). cbn in C. clear -C HT. qlra.
  - right. destruct (insert_split g c (UPoint UUnknown []) m Ha Hn) as (m1 & m2 & -> & Ei & Ha').
    exists m1, m2, (m1 ++ (c, UPoint UUnknown []) :: m2). rewrite Ei in E. split_and!; try done.
    + intros x. by eapply apart_upd.
    + intros f. apply update_at. intros (p & -> & Hp)%elem_of_list_fmap. apply (Hn p); [apply elem_of_app; by left|]. unfold near.
      clear -HT. qcases; qlra.
Qed.

(** ** The first mesh *)

Definition first_points (n : nat) (l : list Qc) : upoints := imap (fun i a => (a, UPoint UFirst [n + i; 0])) l.

Lemma first_loop l : forall n m, minus_one ∉ m.*1 -> minus_one ∉ l -> apart T m -> spaced T l ->
  (forall p a, p ∈ m -> a ∈ l -> (p.1 + T < a)%Qc) ->
  ofold (add_first g) (imap (fun i => pair (n + i)) l) m = Ok (m ++ first_points n l) /\ apart T (m ++ first_points n l).
Proof.
  pose proof (T_nonneg g) as HT.
  induction l as [|c l IH]; intros n m Hm Hl Ha Hs Hlt; rewrite enumerate_from; cbn [ofold].
  - unfold first_points. cbn. rewrite app_nil_r. done.
  - apply spaced_cons in Hs as [Hs Hc]; [|done].
    assert (E : add_first g m (n, c) = Ok (m ++ [(c, UPoint UFirst [n; 0])]) /\ apart T (m ++ [(c, UPoint UFirst [n; 0])])).
    { unfold add_first. cbn [fst snd]. destruct (add_cases m c Hm Ha) as [(m1 & k & x & m2 & -> & Hn & _)|(m1 & m2 & m' & -> & Hn & Hap & Ei & Hu)].
      - exfalso. specialize (Hlt (k, x) c ltac:(apply elem_of_app; right; left) ltac:(left)). unfold near in Hn. cbn in Hlt.
        clear -Hlt Hn HT. qcases; qlra.
      - rewrite Ei, Hu. assert (m2 = []) as ->.
        { destruct m2 as [|q m2]; [done|]. exfalso. specialize (Hlt q c ltac:(apply elem_of_app; right; left) ltac:(left)).
          specialize (Hap (UPoint UUnknown [])). apply apart_app in Hap as (_ & [_ B]%apart_cons & _). specialize (B q ltac:(left)). cbn in B.
          clear -B Hlt HT. qlra. }
        rewrite app_nil_r. split; [done|apply Hap]. }
    destruct E as [E Ha']. rewrite E. cbn [mbind outcome_bind].
    destruct (IH (S n) (m ++ [(c, UPoint UFirst [n; 0])])) as [E2 A2]; try done.
    + rewrite fmap_app. cbn. intros [?|?%elem_of_list_singleton]%elem_of_app; [done|]. apply Hl. subst. left.
    + intros ?. apply Hl. by right.
    + intros p a [Hp| ->%elem_of_list_singleton]%elem_of_app Hin; [apply Hlt; [done|by right]|by apply Hc].
    + assert (Ef : (m ++ [(c, UPoint UFirst [n; 0])]) ++ first_points (S n) l = m ++ first_points n (c :: l)).
      { rewrite <- app_assoc. f_equal. unfold first_points. rewrite imap_cons. cbn. f_equal; [do 4 f_equal; lia|].
        apply imap_ext. intros i y _. cbn. do 3 f_equal. lia. }
      rewrite <- Ef. done.
Qed.

(** ** The second mesh *)

Record second_inv (one : list Qc) (done : list (nat * Qc)) (m : upoints) : Prop := SecondInv {
  si_apart : apart T m;
  si_minus : minus_one ∉ m.*1;
  si_typed : forall p, p ∈ m -> isf p || iss p = true /\ length (up_indices p.2) = 2;
  si_first : map (fun p => (p.1, up_indices p.2 !! 0)) (List.filter isf m) = imap (fun i a => (a, Some i)) one;
  si_second : Forall2 (fun p jb => up_indices p.2 !! 1 = Some jb.1 /\ near g p.1 jb.2 /\ (isf p = false -> p.1 = jb.2))
                      (List.filter iss m) done
}.

Lemma filter_nil {A} (f : A -> bool) l : (forall x, x ∈ l -> f x = false) -> List.filter f l = [].
Proof. induction l as [|x l IH]; intros H; cbn; [done|]. rewrite H by left. apply IH. intros. apply H. by right. Qed.

Lemma filter_all {A} (f : A -> bool) l : (forall x, x ∈ l -> f x = true) -> List.filter f l = l.
Proof. induction l as [|x l IH]; intros H; cbn; [done|]. rewrite H by left. f_equal. apply IH. intros. apply H. by right. Qed.

Lemma second_step one done m j c : second_inv one done m -> c <> minus_one ->
  (forall jb, jb ∈ done -> (jb.2 + (T + T) < c)%Qc) ->
  exists m', add_second g m (j, c) = Ok m' /\ second_inv one (done ++ [(j, c)]) m'.
Proof.
  pose proof (T_nonneg g) as HT. intros [Ha Hm Ht Hf Hs] Hc Hlt.
  assert (Hold : forall p, p ∈ m -> iss p = true -> (p.1 + T < c)%Qc).
  { intros p Hp Hi. assert (Hin : p ∈ List.filter iss m) by (apply elem_of_list_In, filter_In; split; [by apply elem_of_list_In|done]).
    apply elem_of_list_lookup in Hin as [i Hi']. destruct (Forall2_lookup_l _ _ _ _ _ Hs Hi') as (jb & Hjb & _ & Hn & _).
    specialize (Hlt jb (elem_of_list_lookup_2 _ _ _ Hjb)). unfold near in Hn. clear -Hlt Hn HT. qcases; qlra. }
  unfold add_second. cbn [fst snd].
  destruct (add_cases m c Hm Ha) as [(m1 & k & x & m2 & Em & Hn & Ei & Hu)|(m1 & m2 & m' & Em & Hn & Hap & Ei & Hu)]; rewrite Ei, Hu; subst m.
  - assert (Hx : (k, x) ∈ m1 ++ (k, x) :: m2) by (apply elem_of_app; right; left).
    assert (Hix : iss (k, x) = false).
    { destruct (iss (k, x)) eqn:E; [|done]. specialize (Hold _ Hx E). unfold near in Hn. cbn in Hold. clear -Hold Hn HT. qcases; qlra. }
    destruct (Ht _ Hx) as [Htx Hlx]. rewrite Hix, orb_false_r in Htx. cbn [snd] in Hlx.
    rewrite vset_Ok by lia. cbn [mbind outcome_bind]. eexists. split; [done|].
    assert (Hm2 : List.filter iss m2 = []).
    { apply filter_nil. intros q Hq. destruct (iss q) eqn:E; [|done]. specialize (Hold q ltac:(apply elem_of_app; right; by right) E).
      apply apart_app in Ha as (_ & [_ B]%apart_cons & _). specialize (B q Hq). cbn in B. unfold near in Hn. clear -Hold B Hn HT. qcases; qlra. }
    rewrite List.filter_app in Hf, Hs. cbn [List.filter] in Hf, Hs. rewrite Hix, Hm2, app_nil_r in Hs. rewrite Htx in Hf.
    constructor.
    + by eapply apart_upd.
    + rewrite fmap_app, fmap_cons in Hm |- *. done.
    + intros p [Hp|[->|Hp]%elem_of_cons]%elem_of_app; [apply Ht; apply elem_of_app; by left| |apply Ht; apply elem_of_app; right; by right].
      cbn. by rewrite insert_length.
    + rewrite List.filter_app. cbn [List.filter]. unfold isf at 2. cbn [snd up_type from_first]. rewrite <- Hf, !map_app. cbn [map fst snd up_indices].
      rewrite list_lookup_insert_ne by done. done.
    + rewrite List.filter_app. cbn [List.filter]. unfold iss at 2. cbn [snd up_type from_second]. rewrite Hm2. apply Forall2_app; [done|].
      constructor; [|constructor]. cbn [fst snd up_indices]. split_and!; [|done|done]. by rewrite list_lookup_insert by lia.
  - rewrite vset_Ok by (rewrite vresize_length; lia). cbn [mbind outcome_bind]. eexists. split; [done|].
    assert (Hm2 : List.filter iss m2 = []).
    { apply filter_nil. intros q Hq. destruct (iss q) eqn:E; [|done]. specialize (Hold q ltac:(apply elem_of_app; by right) E).
      specialize (Hap (UPoint UUnknown [])). apply apart_app in Hap as (_ & [_ B]%apart_cons & _). specialize (B q Hq). cbn in B. clear -Hold B HT. qlra. }
    rewrite List.filter_app in Hf, Hs. rewrite Hm2, app_nil_r in Hs.
    constructor.
    + apply Hap.
    + rewrite fmap_app in Hm |- *. rewrite fmap_cons. cbn [fst]. rewrite elem_of_app, elem_of_cons in *. naive_solver.
    + intros p [Hp|[->|Hp]%elem_of_cons]%elem_of_app; [apply Ht; apply elem_of_app; by left|done|apply Ht; apply elem_of_app; by right].
    + rewrite List.filter_app. done.
    + rewrite List.filter_app. cbn [List.filter]. unfold iss at 2. cbn [snd up_type from_second]. rewrite Hm2. apply Forall2_app; [done|].
      constructor; [|constructor]. cbn [fst snd up_indices]. split_and!; [done| |done]. unfold near. clear -HT. qcases; qlra.
Qed.

Lemma second_loop one l : forall n done m, second_inv one done m -> minus_one ∉ l -> spaced (T + T) l ->
  (forall jb b, jb ∈ done -> b ∈ l -> (jb.2 + (T + T) < b)%Qc) ->
  exists m', ofold (add_second g) (imap (fun i => pair (n + i)) l) m = Ok m' /\ second_inv one (done ++ imap (fun i => pair (n + i)) l) m'.
Proof.
  pose proof (T_nonneg g) as HT. assert (HTT : (0 <= T + T)%Qc) by qlra.
  induction l as [|c l IH]; intros n done m Hi Hl Hs Hlt; rewrite enumerate_from; cbn [ofold].
  - exists m. by rewrite app_nil_r.
  - apply spaced_cons in Hs as [Hs Hc]; [|done].
    destruct (second_step one done m n c Hi) as (m1 & -> & Hi1).
    { intros ->. apply Hl. left. } { intros jb Hjb. apply Hlt; [done|left]. }
    cbn [mbind outcome_bind]. destruct (IH (S n) (done ++ [(n, c)]) m1 Hi1) as (m' & E & Hi'); [|done| |].
    + intros ?. apply Hl. by right.
    + intros jb b [Hjb| ->%elem_of_list_singleton]%elem_of_app Hb; [apply Hlt; [done|by right]|by apply Hc].
    + exists m'. split; [done|]. by rewrite <- app_assoc in Hi'.
Qed.

Lemma union_inv one two : minus_one ∉ one -> minus_one ∉ two -> spaced T one -> spaced (T + T) two ->
  exists pts, CreateUnionPoints g one two [] = Ok pts /\ second_inv one (enumerate two) pts.
Proof.
  intros H1 H2 S1 S2. unfold CreateUnionPoints.
  destruct (first_loop one 0 []) as [E Ha]; try done; [by intros ?%elem_of_nil|constructor|intros p a Hp; by apply elem_of_nil in Hp|].
  change (imap (fun i => pair (0 + i)) one) with (enumerate one) in E. rewrite E. cbn [mbind outcome_bind].
  destruct (second_loop one two 0 [] (first_points 0 one)) as (m' & E' & Hi); try done.
  - cbn [app] in Ha. constructor; [done|..].
    + intros (p & Ep & Hp)%elem_of_list_fmap. apply elem_of_lookup_imap in Hp as (i & a & -> & Ha'). cbn in Ep. subst. apply H1. by eapply elem_of_list_lookup_2.
    + intros p (i & a & -> & _)%elem_of_lookup_imap. done.
    + assert (Hall : List.filter isf (first_points 0 one) = first_points 0 one).
      { apply filter_all. intros p (i & a & -> & _)%elem_of_lookup_imap. done. }
      rewrite Hall. unfold first_points. clear. 
      change (@map (Qc * upoint) (Qc * option nat)) with (@fmap list _ (Qc * upoint) (Qc * option nat)). rewrite fmap_imap. apply imap_ext. intros i a _. done.
    + rewrite filter_nil; [constructor|]. intros p (i & a & -> & _)%elem_of_lookup_imap. done.
  - intros jb b Hjb. by apply elem_of_nil in Hjb.
  - exists m'. split; [done|]. done.
Qed.
End union.
