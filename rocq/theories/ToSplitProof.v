(** * Whether an edge of a polygon is to be split: proofs. *)
From Coq Require Import QArith Qcanon.
From Coq Require Import ZArith ZifyBool ZifyNat ZifyN.
From Verif Require Import Base BaseProof QcTac FillModel GeoModel PointSpec PointProof RayProof CsrModel MeshModel MeshSpec MeshHist JoinSpec JoinProof
  ToSplitModel ToSplitSpec.
Local Open Scope nat_scope.

Section Judge.
Context (m : mesh) (RM : reachable m) (e : nat) (own : N) (row : list N) (H : RelRow R12 e m = Ok row).
Context (judge : N -> outcome bool) (jb : N -> bool) (J : forall f, neighbour m e f -> judge f = Ok (jb f)).
Context (local neigh both t0 : split_type).

Record seen (n : nat) (st : judged) : Prop := {
  sn_local : ju_local st = false <-> exists k, k < n /\ row !! k = Some own /\ is_cell D2 m own /\ jb own = false;
  sn_all : ju_all st = false <-> exists k f, k < n /\ row !! k = Some f /\ is_cell D2 m f /\ jb f = false;
  sn_type : ju_type st = if ju_all st then t0 else if ju_local st then neigh else both;
  sn_length : length (ju_flags st) = length row;
  sn_flags : forall k f, k < n -> row !! k = Some f -> is_cell D2 m f -> ju_flags st !! k = Some (jb f)
}.

Lemma judge_step_ok n st : n < length row -> seen n st ->
  exists st', judge_step judge local neigh both e own m st n = Ok st' /\ seen (S n) st'.
Proof.
  intros L S. destruct (lookup_lt_is_Some_2 row n L) as [f F].
  destruct (row_reads m RM R12 e row H) as [_ G]. destruct (G n f F) as [G1 G2].
  unfold judge_step. rewrite G2. cbn [mbind outcome_bind]. change (tgt R12) with D2.
  destruct (N.ltb_spec f (N.of_nat (num D2 m))) as [C|C]; cbn [negb].
  - assert (is_cell D2 m f) as IC by exact C.
    rewrite G1. cbn [mbind outcome_bind]. rewrite (J f) by (exists row; split; [exact H|split; [by eapply elem_of_list_lookup_2|exact IC]]).
    cbn [mbind outcome_bind]. unfold vset. rewrite decide_True by (rewrite (sn_length _ _ S); exact L). cbn [mbind outcome_bind].
    destruct S as [S1 S2 S3 S4 S5].
    assert (forall k (g : N), k < S n -> row !! k = Some g -> is_cell D2 m g -> <[n:=jb f]> (ju_flags st) !! k = Some (jb g)) as FL.
    { intros k g K R I. destruct (decide (k = n)) as [-> |NE].
      - rewrite list_lookup_insert by (rewrite S4; exact L). assert (f = g) as <- by congruence. reflexivity.
      - rewrite list_lookup_insert_ne by congruence. apply S5; [lia|exact R|exact I]. }
    assert (length (<[n:=jb f]> (ju_flags st)) = length row) as LE by (rewrite insert_length; exact S4).
    assert ((exists k g, k < S n /\ row !! k = Some g /\ is_cell D2 m g /\ jb g = false) <-> ju_all st = false \/ jb f = false) as AL.
    { rewrite S2. split.
      - intros (k & g & K & R & I & B). destruct (decide (k = n)) as [-> |NE].
        + assert (f = g) as <- by congruence. right. exact B.
        + left. exists k, g. repeat (split; [first [lia|assumption]|]). exact B.
      - intros [(k & g & K & R & I & B)|B].
        + exists k, g. repeat (split; [first [lia|assumption]|]). exact B.
        + exists n, f. repeat (split; [first [lia|assumption]|]). exact B. }
    assert ((exists k, k < S n /\ row !! k = Some own /\ is_cell D2 m own /\ jb own = false) <-> ju_local st = false \/ (f = own /\ jb f = false)) as LO.
    { rewrite S1. split.
      - intros (k & K & R & I & B). destruct (decide (k = n)) as [-> |NE].
        + assert (f = own) as -> by congruence. right. split; [reflexivity|exact B].
        + left. exists k. repeat (split; [first [lia|assumption]|]). exact B.
      - intros [(k & K & R & I & B)|[-> B]].
        + exists k. repeat (split; [first [lia|assumption]|]). exact B.
        + exists n. repeat (split; [first [lia|assumption]|]). exact B. }
    destruct (jb f) eqn:B; cbn [negb andb].
    + rewrite andb_false_r. eexists. split; [reflexivity|]. split; cbn; [rewrite LO; clear; intuition discriminate|rewrite AL; clear; intuition discriminate|exact S3|exact LE|exact FL].
    + rewrite andb_true_r. destruct (bool_decide_reflect (f = own)) as [Q|Q].
      * cbn [negb]. eexists. split; [reflexivity|]. split; cbn; [rewrite LO; clear - Q; tauto|rewrite AL; clear; tauto|reflexivity|exact LE|exact FL].
      * eexists. split; [reflexivity|]. split; cbn; [rewrite LO; clear - Q; tauto|rewrite AL; clear; tauto| |exact LE|exact FL].
        by destruct (ju_local st).
  - exists st. split; [reflexivity|]. destruct S as [S1 S2 S3 S4 S5].
    assert (~ is_cell D2 m f) as NI by (unfold is_cell; lia).
    assert (forall k g, k < S n -> row !! k = Some g -> is_cell D2 m g -> k < n) as LT.
    { intros k g K R I. destruct (decide (k = n)) as [-> |NE]; [|lia]. assert (f = g) as <- by congruence. contradiction. }
    split; [rewrite S1|rewrite S2|exact S3|exact S4|].
    + split; intros (k & K & R & I & B); exists k; (split; [|split; [exact R|split; [exact I|exact B]]]); [lia|exact (LT k own K R I)].
    + split; intros (k & g & K & R & I & B); exists k, g; (split; [|split; [exact R|split; [exact I|exact B]]]); [lia|exact (LT k g K R I)].
    + intros k g K R I. exact (S5 k g (LT k g K R I) R I).
Qed.
Lemma judge_loop n j st : j + n = length row -> seen j st ->
  exists st', ofold (judge_step judge local neigh both e own m) (seq j n) st = Ok st' /\ seen (length row) st'.
Proof.
  revert j st. induction n as [|n IH]; intros j st L S.
  - exists st. split; [reflexivity|]. replace (length row) with j by lia. exact S.
  - cbn [seq ofold]. destruct (judge_step_ok j st ltac:(lia) S) as (st' & -> & S'). cbn [mbind outcome_bind]. apply IH; [lia|exact S'].
Qed.
Lemma judge_all : exists st, judge_neighbours judge local neigh both e own m t0 = Ok st /\
  (ju_local st = false <-> neighbour m e own /\ jb own = false) /\
  (ju_all st = false <-> exists f, neighbour m e f /\ jb f = false) /\
  ju_type st = (if ju_all st then t0 else if ju_local st then neigh else both) /\
  length (ju_flags st) = length row /\
  (forall k f, row !! k = Some f -> is_cell D2 m f -> ju_flags st !! k = Some (jb f)).
Proof.
  unfold judge_neighbours. destruct (row_reads m RM R12 e row H) as [-> _]. cbn [mbind outcome_bind]. rewrite Nat2N.id.
  destruct (judge_loop (length row) 0 (Judged t0 true true (replicate (length row) true))) as (st & E & S); [lia| |].
  { split; cbn; [| |reflexivity|apply replicate_length|intros k f K; lia].
    - split; [discriminate|]. intros (k & K & _). lia.
    - split; [discriminate|]. intros (k & f & K & _). lia. }
  exists st. split; [exact E|]. destruct S as [S1 S2 S3 S4 S5]. split; [|split; [|split; [exact S3|split; [exact S4|]]]].
  - rewrite S1. split.
    + intros (k & _ & R & I & B). split; [|exact B]. exists row. split; [exact H|split; [by eapply elem_of_list_lookup_2|exact I]].
    + intros [(r & R & O & I) B]. assert (r = row) as -> by congruence. apply elem_of_list_lookup in O as [k K].
      exists k. split; [by eapply lookup_lt_Some|split; [exact K|split; [exact I|exact B]]].
  - rewrite S2. split.
    + intros (k & f & _ & R & I & B). exists f. split; [|exact B]. exists row. split; [exact H|split; [by eapply elem_of_list_lookup_2|exact I]].
    + intros (f & (r & R & O & I) & B). assert (r = row) as -> by congruence. apply elem_of_list_lookup in O as [k K].
      exists k, f. split; [by eapply lookup_lt_Some|split; [exact K|split; [exact I|exact B]]].
  - intros k f R I. apply S5; [by eapply lookup_lt_Some|exact R|exact I].
Qed.
End Judge.

(** The edges of a neighbour on the line. *)
Section Aligned.
Context (m : mesh) (RM : reachable m) (lengths : list (list Qc)) (aligned : list N) (a f : N) (es : list N) (ls : list Qc).
Context (H : RelRow E2 (N.to_nat f) m = Ok es) (HL : lengths !! N.to_nat f = Some ls) (LE : length es = length ls).
Context (K : Forall (is_cell D1 m) es) (LA : length aligned = num D1 m).

Let part (n : nat) : list Qc := (filter (fun x : N * Qc => aligned !! N.to_nat x.1 = Some a) (drop n (zip es ls))).*2.
Lemma aligned_loop n j st : j + n = length es ->
  ofold (aligned_step lengths aligned a f m) (seq j n) st = Ok (st.1 + length (part j), (st.2 + foldr Qcplus (Q2Qc 0) (part j))%Qc).
Proof.
  assert (length (zip es ls) = length es) as LZ by (rewrite zip_with_length; lia).
  revert j st. induction n as [|n IH]; intros j [c s] L.
  - cbn. unfold part. rewrite drop_ge by lia. cbn. rewrite Nat.add_0_r. do 2 f_equal. change (Q2Qc 0) with 0%Qc. ring.
  - cbn [seq ofold].
    destruct (lookup_lt_is_Some_2 es j ltac:(lia)) as [x X]. destruct (lookup_lt_is_Some_2 ls j ltac:(lia)) as [l Y].
    assert (zip es ls !! j = Some (x, l)) as Z by (apply lookup_zip_with_Some; eauto).
    unfold aligned_step at 2. destruct (row_reads m RM E2 (N.to_nat f) es H) as [_ G]. destruct (G j x X) as [-> _]. cbn [mbind outcome_bind].
    assert (is_cell D1 m x) as IX by (rewrite Forall_forall in K; apply K; by eapply elem_of_list_lookup_2).
    destruct (lookup_lt_is_Some_2 aligned (N.to_nat x)) as [b B]; [rewrite LA; unfold is_cell in IX; lia|].
    unfold vat. rewrite B. cbn [mbind outcome_bind]. unfold part. rewrite (drop_S (zip es ls) (x, l) j Z), filter_cons. cbn [fst]. rewrite B.
    destruct (bool_decide_reflect (b = a)) as [-> |NE].
    + rewrite decide_True by reflexivity. unfold vget. rewrite HL. cbn [mbind outcome_bind]. rewrite Y. cbn [mbind outcome_bind fst snd].
      rewrite IH by lia. cbn [fst snd fmap list_fmap length foldr]. unfold part. f_equal. f_equal; [lia|ring].
    + rewrite decide_False by congruence. cbn [mbind outcome_bind]. rewrite IH by lia. reflexivity.
Qed.
Lemma aligned_edges_ok : aligned_edges lengths aligned a m f =
  Ok (length (on_line_lengths lengths aligned m a f), foldr Qcplus (Q2Qc 0) (on_line_lengths lengths aligned m a f)).
Proof.
  unfold aligned_edges, on_line_lengths. rewrite H, HL. destruct (row_reads m RM E2 (N.to_nat f) es H) as [-> _]. cbn [mbind outcome_bind]. rewrite Nat2N.id.
  rewrite (aligned_loop (length es) 0 (0, Q2Qc 0)) by lia. unfold part. rewrite drop_0. cbn [fst snd]. f_equal. f_equal. change (Q2Qc 0) with 0%Qc. ring.
Qed.
End Aligned.

Lemma half_of l : (Q2Qc (1 # 2) * l = l / Q2Qc 2)%Qc.
Proof. change (Q2Qc (1 # 2)) with (/ Q2Qc 2)%Qc. unfold Qcdiv. ring. Qed.
Lemma half_zero l : (l / Q2Qc 2 = Q2Qc 0)%Qc <-> l = Q2Qc 0.
Proof.
  split; [|intros ->; unfold Qcdiv; change (Q2Qc 0) with 0%Qc; ring]. intros E. rewrite <-half_of in E. apply Qcmult_integral in E as [E|E]; [discriminate|exact E].
Qed.
Lemma at_least g a b : exact g -> IsValueGreaterOrEqual g a b (Tolerance1D g) = true <-> (b <= a)%Qc.
Proof. intros G. destruct (exact_tolerance g G) as (-> & _). exact (greater_or_equal_exact g a b G). Qed.

Lemma to_split_ok g m e own inside k l a lengths qw aw quality aligned : exact g -> reachable m -> data_fits m e own k l a lengths quality aligned ->
  exists c, IsCell1DToSplit g e own inside k lengths qw aw quality aligned m = Ok c /\
    split_type_spec inside l m e own (good_quality qw quality l) (good_line aw lengths aligned m a l) (ec_type c) /\
    flags_spec m e (good_quality qw quality l) (good_line aw lengths aligned m a l) c.
Proof.
  intros G RM [D1' D2' D3' D4 D5 D6]. unfold IsCell1DToSplit. destruct inside; cbn [negb]; cycle 1.
  { eexists. split; [reflexivity|]. split; [reflexivity|]. split; [split; discriminate|]. split; [intros C; cbn in C; congruence|]. cbn. intros [?|[?|?]]; discriminate. }
  destruct D2' as (ls & L1 & L2). assert (vget lengths (N.to_nat own) = Ok ls) as -> by (unfold vget; rewrite L1; reflexivity). cbn [mbind outcome_bind].
  assert (vget ls k = Ok l) as -> by (unfold vget; rewrite L2; reflexivity). cbn [mbind outcome_bind].
  cbv zeta. rewrite zero_exact by exact G. rewrite !half_of.
  destruct (qeq_spec (l / Q2Qc 2) 0) as [Z|Z].
  { eexists. split; [reflexivity|]. split; [split; [reflexivity|]; apply half_zero; exact Z|].
    split; [split; discriminate|]. split; [intros _ C; cbn in C; congruence|]. cbn. intros [?|[?|?]]; discriminate. }
  assert (l <> Q2Qc 0) as NZ by (intros E; apply Z, half_zero; exact E).
  destruct (row_exists m RM R12 e D1') as [row H].
  set (jq := fun f : N => match quality !! N.to_nat f with Some x => IsValueGreaterOrEqual g (l / Q2Qc 2) (qw * x)%Qc (Tolerance1D g) | None => false end).
  set (jl := fun f : N => let s := on_line_lengths lengths aligned m a f in IsValueGreaterOrEqual g (l / Q2Qc 2)
    (aw * foldr Qcplus (Q2Qc 0) s / Q2Qc (inject_Z (Z.of_nat (length s + 1))))%Qc (Tolerance1D g)).
  assert (forall f, jq f = true <-> good_quality qw quality l f) as JQ.
  { intros f. unfold jq, good_quality. destruct (quality !! N.to_nat f) as [x|].
    - rewrite at_least by exact G. split; [intros Q; exists x; split; [reflexivity|exact Q]|]. intros (y & Y & Q). assert (x = y) as -> by congruence. exact Q.
    - split; [discriminate|]. intros (y & Y & _). discriminate. }
  assert (forall f, jl f = true <-> good_line aw lengths aligned m a l f) as JL by (intros f; apply at_least; exact G).
  assert (forall f, jq f = false <-> ~ good_quality qw quality l f) as NQ by (intros f; rewrite <-JQ; destruct (jq f); split; congruence).
  assert (forall f, jl f = false <-> ~ good_line aw lengths aligned m a l f) as NL by (intros f; rewrite <-JL; destruct (jl f); split; congruence).
  destruct (judge_all m RM e own row H (fun f => x ← vget quality (N.to_nat f); Ok (IsValueGreaterOrEqual g (l / Q2Qc 2)%Qc (qw * x)%Qc (Tolerance1D g))) jq)
    with (local := OnlyLocalQualityNotEnough) (neigh := OnlyNeighQualityNotEnough) (both := BothQualityNotEnough) (t0 := SUnknown)
    as (q & EQ & Q1 & Q2 & Q3 & Q4 & Q5).
  { intros f (r & _ & _ & I). unfold is_cell in I. unfold jq, vget. destruct (lookup_lt_is_Some_2 quality (N.to_nat f)) as [x X]; [lia|].
    rewrite X. reflexivity. }
  rewrite EQ. cbn [mbind outcome_bind].
  assert (flags_of m e (good_quality qw quality l) (ju_flags q)) as FQ.
  { exists row. split; [exact H|]. split; [exact Q4|]. intros i f R I. exists (jq f). split; [exact (Q5 i f R I)|apply JQ]. }
  destruct (ju_all q) eqn:AQ; cbn [negb]; cycle 1.
  { eexists. split; [reflexivity|]. rewrite Q3. split.
    - cbn [ec_type]. destruct Q2 as [Q2 _]. destruct (Q2 eq_refl) as (f & NF & B). destruct (ju_local q) eqn:LQ; cbn.
      + split; [reflexivity|]. split; [exact NZ|]. split; [exists f; split; [exact NF|]; apply NQ; exact B|].
        intros NO. apply JQ. destruct (jq own) eqn:JO; [reflexivity|]. destruct Q1 as [_ Q1]. discriminate Q1. split; [exact NO|reflexivity].
      + destruct Q1 as [Q1 _]. destruct (Q1 eq_refl) as [NO BO]. split; [reflexivity|]. split; [exact NZ|]. split; [exact NO|]. apply NQ. exact BO.
    - destruct (ju_local q); (split; [split; discriminate|]; split; [intros _ _; exact FQ|]; cbn; intros [?|[?|?]]; discriminate). }
  assert (forall f, neighbour m e f -> good_quality qw quality l f) as AG.
  { intros f NF. apply JQ. destruct (jq f) eqn:JF; [reflexivity|]. destruct Q2 as [_ Q2]. discriminate Q2. exists f. split; [exact NF|exact JF]. }
  assert (vat aligned e = Ok a) as -> by (unfold vat; rewrite D3'; reflexivity). cbn [mbind outcome_bind].
  match goal with |- context [judge_neighbours ?J OnlyLocalAlignedNotRespect _ _ _ _ _ _] => destruct (judge_all m RM e own row H J jl)
    with (local := OnlyLocalAlignedNotRespect) (neigh := OnlyNeighAlignedNotRespect) (both := BothAlignedNotRespect) (t0 := ju_type q)
    as (r & ER & R1 & R2 & R3 & R4 & R5) end.
  { intros f NF. destruct (D6 f NF) as (es & ks & E1 & E2' & E3' & E4). rewrite (aligned_edges_ok m RM lengths aligned a f es ks E1 E2' E3' E4 D5).
    reflexivity. }
  rewrite ER. cbn [mbind outcome_bind].
  assert (flags_of m e (good_line aw lengths aligned m a l) (ju_flags r)) as FR.
  { exists row. split; [exact H|]. split; [exact R4|]. intros i f R I. exists (jl f). split; [exact (R5 i f R I)|apply JL]. }
  destruct (ju_all r) eqn:AR; cbn [negb]; cycle 1.
  { eexists. split; [reflexivity|]. rewrite R3. split.
    - cbn [ec_type]. destruct R2 as [R2 _]. destruct (R2 eq_refl) as (f & NF & B). destruct (ju_local r) eqn:LQ; cbn.
      + split; [reflexivity|]. split; [exact NZ|]. split; [exact AG|]. split; [exists f; split; [exact NF|]; apply NL; exact B|].
        intros NO. apply JL. destruct (jl own) eqn:JO; [reflexivity|]. destruct R1 as [_ R1]. discriminate R1. split; [exact NO|reflexivity].
      + destruct R1 as [R1 _]. destruct (R1 eq_refl) as [NO BO]. split; [reflexivity|]. split; [exact NZ|]. split; [exact AG|]. split; [exact NO|]. apply NL. exact BO.
    - destruct (ju_local r); (split; [split; discriminate|]; split; [intros _ _; exact FQ|intros _; exact FR]). }
  eexists. split; [reflexivity|]. split.
  - split; [reflexivity|]. split; [exact NZ|]. intros f NF. split; [exact (AG f NF)|]. apply JL. destruct (jl f) eqn:JF; [reflexivity|].
    destruct R2 as [_ R2]. discriminate R2. exists f. split; [exact NF|exact JF].
  - split; [split; reflexivity|]. split; [intros _ _; exact FQ|intros _; exact FR].
Qed.
