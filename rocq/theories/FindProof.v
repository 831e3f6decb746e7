(** * Where a point lies in a mesh of polygons. *)
From Coq Require Import QArith Qcanon.
From Coq Require Import ZArith ZifyBool ZifyNat ZifyN.
From Verif Require Import Base BaseProof QcTac FillModel GeoModel MapModel PointModel PointSpec PointProof CsrModel MeshModel MeshSpec MeshRep MeshHist MeshProof8 MeshProof9
  JoinSpec JoinProof OutlineSpec FindModel FindSpec.
Local Open Scope nat_scope.

(** ** A point on the left of all edges is in the box *)

Lemma descent_step (a b a' b' a'' b'' : Qc) : (0 < a -> 0 < a' -> 0 < a'' -> 0 < a' * b - a * b' -> 0 < a'' * b' - a' * b'' -> 0 < a'' * b - a * b'')%Qc.
Proof.
  intros H1 H2 H3 D1 D2.
  assert (0 < a' * (a'' * b - a * b''))%Qc as Q.
  { replace (a' * (a'' * b - a * b''))%Qc with (a'' * (a' * b - a * b') + a * (a'' * b' - a' * b''))%Qc by ring.
    revert D1 D2. generalize (a' * b - a * b')%Qc (a'' * b' - a' * b'')%Qc. intros. qnra. }
  revert Q. generalize (a'' * b - a * b'')%Qc. intros x Q.
  destruct (Qclt_le_dec 0 x) as [?|L]; [done|]. exfalso. qnra.
Qed.
Lemma no_descent (n : nat) (A B : nat -> Qc) : 0 < n -> (forall i, A (i + n) = A i /\ B (i + n) = B i) ->
  (forall i, 0 < A i)%Qc -> (forall i, 0 < A (S i) * B i - A i * B (S i))%Qc -> False.
Proof.
  intros N P H D.
  assert (forall i k, (0 < A (S k + i)%nat * B i - A i * B (S k + i)%nat)%Qc) as K.
  { intros i k. induction k as [|k IH]; [exact (D i)|].
    pose proof (D (S k + i)) as E. change (S (S k + i)) with (S (S k) + i) in E.
    exact (descent_step _ _ _ _ _ _ (H i) (H (S k + i)) (H (S (S k) + i)) IH E). }
  specialize (K 0 (n - 1)). destruct (P 0) as [P1 P2]. replace (S (n - 1) + 0) with (0 + n) in K by lia. rewrite P1, P2 in K.
  replace (A 0%nat * B 0%nat - A 0%nat * B 0%nat)%Qc with (Q2Qc 0) in K by ring. discriminate.
Qed.

(** Not all corners are strictly on one side of a point that is on the left of all edges. *)
Lemma not_all_beyond vs p (A B : vec3 -> Qc) : vs <> [] ->
  (forall a b, A b * B a - A a * B b = orient a b p)%Qc ->
  (forall i, 0 < orient (corner vs i) (corner vs (S i)) p)%Qc -> (forall v, v ∈ vs -> 0 < A v)%Qc -> False.
Proof.
  intros NE E L H. assert (0 < length vs) as LV by (destruct vs; [done|cbn; lia]).
  apply (no_descent (length vs) (fun i => A (corner vs i)) (fun i => B (corner vs i)) LV).
  - intros i. by rewrite corner_periodic.
  - intros i. apply H. unfold corner. apply elem_of_list_In, nth_In. apply Nat.mod_upper_bound. lia.
  - intros i. rewrite E. apply L.
Qed.
Lemma corner_elem vs i : vs <> [] -> corner vs i ∈ vs.
Proof.
  intros NE. unfold corner. apply elem_of_list_In, nth_In. apply Nat.mod_upper_bound. destruct vs; [done|cbn; lia].
Qed.
Lemma position_in_box p vs lo hi r : vs <> [] -> flat p -> Forall flat vs -> (forall v, v ∈ vs -> in_box lo hi v) ->
  polygon_position_spec p vs r -> r <> Outside -> in_box lo hi p.
Proof.
  intros NE FP FV IB S NO. destruct r as [|i|i|]; [done| | |]; cbn in S.
  - destruct S as (_ & c & C0 & C1 & ->).
    pose proof (IB _ (corner_elem vs i NE)) as B1. pose proof (IB _ (corner_elem vs (Datatypes.S i) NE)) as B2.
    destruct (corner vs i) as [[x y] z], (corner vs (Datatypes.S i)) as [[x' y'] z']. unfold in_box in *. cbn in *.
    destruct B1 as ((? & ?) & (? & ?) & ? & ?), B2 as ((? & ?) & (? & ?) & ? & ?). repeat split; qnra.
  - destruct S as [_ ->]. apply IB, corner_elem, NE.
  - assert (exists v, v ∈ vs) as [v V]. { destruct vs as [|v vs]; [done|]. exists v. constructor. }
    unfold flat in FP. rewrite Forall_forall in FV. pose proof (FV v V) as Z. unfold flat in Z.
    unfold in_box. rewrite FP. split; [split|split; [split|]].
    + destruct (Qclt_le_dec p.1.1 lo.1.1) as [X|]; [|done]. exfalso.
      apply (not_all_beyond vs p (fun v => v.1.1 - p.1.1)%Qc (fun v => p.1.2 - v.1.2)%Qc NE); [|exact S|].
      * intros a b. unfold orient. ring.
      * intros w W. destruct (IB w W) as ((? & ?) & _). qlra.
    + destruct (Qclt_le_dec hi.1.1 p.1.1) as [X|]; [|done]. exfalso.
      apply (not_all_beyond vs p (fun v => p.1.1 - v.1.1)%Qc (fun v => v.1.2 - p.1.2)%Qc NE); [|exact S|].
      * intros a b. unfold orient. ring.
      * intros w W. destruct (IB w W) as ((? & ?) & _). qlra.
    + destruct (Qclt_le_dec p.1.2 lo.1.2) as [X|]; [|done]. exfalso.
      apply (not_all_beyond vs p (fun v => v.1.2 - p.1.2)%Qc (fun v => v.1.1 - p.1.1)%Qc NE); [|exact S|].
      * intros a b. unfold orient. ring.
      * intros w W. destruct (IB w W) as (_ & (? & ?) & _). qlra.
    + destruct (Qclt_le_dec hi.1.2 p.1.2) as [X|]; [|done]. exfalso.
      apply (not_all_beyond vs p (fun v => p.1.2 - v.1.2)%Qc (fun v => p.1.1 - v.1.1)%Qc NE); [|exact S|].
      * intros a b. unfold orient. ring.
      * intros w W. destruct (IB w W) as (_ & (? & ?) & _). qlra.
    + destruct (IB v V) as (_ & _ & ? & ?). rewrite Z in *. done.
Qed.

(** ** One polygon *)

Section Find.
Context (g : geo_config) (p : vec3) (m : mesh) (pos : N -> vec3) (vss : list (list vec3)) (boxes : list (vec3 * vec3)).
Hypothesis G : exact g.
Hypothesis FP : flat p.
Hypothesis RM : reachable m.
Hypothesis DR : drawn pos m vss boxes.

(** What an entry of the result says. *)
Definition true_entry (f : nat * polygon_position) : Prop :=
  contains pos m p f.1 /\ f.2 <> Outside /\ exists row, RelRow V2 f.1 m = Ok row /\ polygon_position_spec p (pos <$> row) f.2.

Lemma look_ok i : i < num D2 m -> exists o, look_at_polygon g p m vss boxes i = Ok o /\
  match o with Some r => true_entry (i, r) | None => ~ contains pos m p i end.
Proof.
  intros L. unfold look_at_polygon.
  assert (exists a, IsActive D2 i m = Ok a) as [a AC].
  { destruct (reachable_rep m RM) as [am R]. rewrite (g_num _ _ R) in L. rewrite (g_active _ _ R). unfold look.
    destruct (lookup_lt_is_Some_2 (am_cells am D2) i) as [x X]; [done|]. rewrite X. eauto. }
  rewrite AC. cbn [mbind outcome_bind]. destruct a; cbn [negb].
  2:{ exists None. split; [done|]. intros [C _]. rewrite AC in C. discriminate. }
  destruct (DR i AC) as (row & es & b & RW & RE & CL & LR & LT & CX & VS & BX & BI).
  set (vs := pos <$> row) in *. assert (2 < length vs) as LV by (unfold vs; rewrite fmap_length; done).
  assert (vs <> []) as NE by (intros Z; rewrite Z in LV; cbn in LV; lia).
  destruct (polygon_convex g p vs G FP LV LT CX) as (r & PR & SP & OU & _).
  destruct (bounding_box vs NE) as (lo & hi & BX' & IB & _). rewrite BX' in BX. injection BX as <-.
  unfold vat. rewrite BI, VS. cbn [mbind outcome_bind].
  assert (r <> Outside -> contains pos m p i) as CO.
  { intros NO. split; [done|]. exists row. split; [done|]. intros k. fold vs.
    destruct (Qclt_le_dec (orient (corner vs k) (corner vs (S k)) p) 0) as [X|]; [|done]. exfalso. apply NO, OU. eauto. }
  assert (r = Outside -> ~ contains pos m p i) as NC.
  { intros O [_ (row' & RW' & H)]. rewrite RW in RW'. injection RW' as <-. apply OU in O as [k K].
    specialize (H k). fold vs in H. revert H. apply Qclt_not_le. exact K. }
  destruct (IsPointInBoundingBox g p (lo, hi)) eqn:IN; cbn [negb].
  - rewrite PR. cbn [mbind outcome_bind]. destruct r eqn:RR; (eexists; split; [reflexivity|]).
    1: by apply NC.
    all: (split; [apply CO; discriminate|split; [discriminate|]]; exists row; split; [exact RW|exact SP]).
  - exists None. split; [done|]. destruct (decide (r = Outside)) as [O|NO]; [by apply NC|]. exfalso.
    assert (in_box lo hi p) as Z by (apply (position_in_box p vs lo hi r); [done|done|apply LT|done|done|done]).
    rewrite (in_bounding_box g p lo hi Z) in IN. discriminate.
Qed.

(** ** The loop *)

Section Loop.
Context (start : N).
Notation step := (polygon_of_step start (num D2 m)).

Lemma step_lt c : 0 < num D2 m -> step c < num D2 m.
Proof. intros L. unfold polygon_of_step. pose proof (N.mod_upper_bound ((start + N.of_nat c) mod 4294967296) (N.of_nat (num D2 m))). lia. Qed.

Lemma loop_all cs found : 0 < num D2 m -> exists new, find_loop g p m vss boxes false start cs found = Ok (found ++ new) /\
  Forall true_entry new /\ sublist (new.*1) (step <$> cs) /\ forall c, c ∈ cs -> contains pos m p (step c) -> step c ∈ new.*1.
Proof.
  intros L. revert found. induction cs as [|c cs IH]; intros found.
  - exists []. rewrite app_nil_r. split; [done|]. split; [constructor|]. split; [constructor|]. intros c C%elem_of_nil. done.
  - cbn [find_loop]. destruct (look_ok (step c)) as (o & -> & O); [by apply step_lt|]. cbn [mbind outcome_bind]. destruct o as [r|].
    + destruct (IH (found ++ [(step c, r)])) as (new & -> & F & SL & A). exists ((step c, r) :: new). rewrite <- app_assoc. split; [done|].
      split; [by constructor|]. split; [cbn; by constructor|].
      intros c' [-> |C]%elem_of_cons Z; cbn [fmap list_fmap fst]; [constructor|]. apply elem_of_cons. right. by apply A.
    + destruct (IH found) as (new & -> & F & SL & A). exists new. split; [done|]. split; [done|]. split; [cbn; by constructor|].
      intros c' [-> |C]%elem_of_cons Z; [done|]. by apply A.
Qed.
Lemma loop_first cs : 0 < num D2 m -> exists found, find_loop g p m vss boxes true start cs [] = Ok found /\
  ((found = [] /\ forall c, c ∈ cs -> ~ contains pos m p (step c)) \/
   exists cs1 c cs2 r, cs = cs1 ++ c :: cs2 /\ found = [(step c, r)] /\ true_entry (step c, r) /\ forall c', c' ∈ cs1 -> ~ contains pos m p (step c')).
Proof.
  intros L. induction cs as [|c cs IH].
  - exists []. split; [done|]. left. split; [done|]. intros c C%elem_of_nil. done.
  - cbn [find_loop]. destruct (look_ok (step c)) as (o & -> & O); [by apply step_lt|]. cbn [mbind outcome_bind]. destruct o as [r|].
    + exists [(step c, r)]. split; [done|]. right. exists [], c, cs, r. split; [done|]. split; [done|]. split; [done|]. intros c' C%elem_of_nil. done.
    + destruct IH as (found & -> & [[-> A]|(cs1 & c1 & cs2 & r & -> & -> & T & A)]).
      * exists []. split; [done|]. left. split; [done|]. intros c' [-> |C]%elem_of_cons; [done|by apply A].
      * eexists. split; [done|]. right. exists (c :: cs1), c1, cs2, r. split; [done|]. split; [done|]. split; [done|].
        intros c' [-> |C]%elem_of_cons; [done|by apply A].
Qed.
End Loop.

Lemma steps_from start : (N.of_nat (start + num D2 m) <= 4294967296)%N ->
  polygon_of_step (N.of_nat start) (num D2 m) <$> seq 0 (num D2 m) = from_polygon start (num D2 m).
Proof.
  intros W. unfold from_polygon. apply list_fmap_ext. intros k c C. apply lookup_seq in C as [-> C]. cbn. unfold polygon_of_step.
  rewrite (N.mod_small _ 4294967296) by lia. rewrite <- Nat2N.inj_add, <- Nat2N.inj_mod. apply Nat2N.id.
Qed.
Lemma contains_lt i : contains pos m p i -> i < num D2 m.
Proof.
  intros [A _]. unfold IsActive in A. apply bind_ok in A as (u & A & _). apply require_ok in A. by apply Nat.ltb_lt.
Qed.
Lemma mod_inj s c c' n : c < n -> c' < n -> (s + c) mod n = (s + c') mod n -> c = c'.
Proof.
  intros L L' E. pose proof (Nat.div_mod (s + c) n ltac:(lia)) as D. pose proof (Nat.div_mod (s + c') n ltac:(lia)) as D'. rewrite <- E in D'.
  revert D D'. generalize ((s + c) / n) ((s + c') / n) ((s + c) mod n). intros q q' r D D'. clear E.
  destruct (Nat.lt_trichotomy q q') as [Q|[-> |Q]]; [|lia|]; exfalso.
  - assert (n * q + n <= n * q') by (replace q' with (S q + (q' - S q)) by lia; rewrite Nat.mul_add_distr_l, Nat.mul_succ_r; lia). lia.
  - assert (n * q' + n <= n * q) by (replace q with (S q' + (q - S q')) by lia; rewrite Nat.mul_add_distr_l, Nat.mul_succ_r; lia). lia.
Qed.
Lemma mod_reach s i n : i < n -> exists c, c < n /\ (s + c) mod n = i.
Proof.
  intros L. exists ((i + (n - s mod n)) mod n). split; [apply Nat.mod_upper_bound; lia|].
  rewrite Nat.add_mod_idemp_r by lia. pose proof (Nat.div_mod s n ltac:(lia)) as D. pose proof (Nat.mod_upper_bound s n ltac:(lia)) as B.
  replace (s + (i + (n - s mod n))) with (i + (s / n + 1) * n) by (rewrite Nat.mul_add_distr_r, (Nat.mul_comm (s / n)); lia). rewrite Nat.mod_add by lia. by apply Nat.mod_small.
Qed.
Lemma from_nodup s n : NoDup (from_polygon s n).
Proof.
  unfold from_polygon. apply NoDup_alt. intros i j x I J. rewrite list_lookup_fmap in I, J.
  apply fmap_Some in I as (c & C & ->). apply fmap_Some in J as (c' & C' & E). apply lookup_seq in C as [-> C], C' as [-> C'].
  exact (mod_inj s _ _ n C C' E).
Qed.
Lemma from_elem s n i : i < n -> i ∈ from_polygon s n.
Proof.
  intros L. destruct (mod_reach s i n L) as (c & C & <-). unfold from_polygon. apply elem_of_list_fmap. exists c. split; [done|].
  apply elem_of_seq. lia.
Qed.

Lemma sublist_nodup (l k : list nat) : sublist l k -> NoDup k -> NoDup l.
Proof.
  induction 1 as [|x l k SL IH|x l k SL IH]; [done| |].
  - intros [NI ND]%NoDup_cons. apply NoDup_cons. split; [|by apply IH]. intros I. apply NI.
    exact (elem_of_submseteq _ _ _ I (sublist_submseteq _ _ SL)).
  - intros [_ ND]%NoDup_cons. by apply IH.
Qed.
Lemma find_all start : (N.of_nat (start + num D2 m) <= 4294967296)%N ->
  exists found, FindPointCell2D g p m vss boxes false (N.of_nat start) = Ok found /\ Forall true_entry found /\
    sublist (found.*1) (from_polygon start (num D2 m)) /\ NoDup (found.*1) /\ forall i, i ∈ found.*1 <-> contains pos m p i.
Proof.
  intros W. unfold FindPointCell2D. destruct (Nat.eq_dec (num D2 m) 0) as [Z|Z].
  - rewrite Z. cbn. exists []. split; [done|]. split; [constructor|]. split; [constructor|]. split; [constructor|]. intros i. split.
    + intros C%elem_of_nil. done.
    + intros C%contains_lt. lia.
  - destruct (loop_all (N.of_nat start) (seq 0 (num D2 m)) []) as (new & E & F & SL & A); [lia|]. cbn in E.
    exists new. split; [done|]. split; [done|]. rewrite steps_from in SL by done. split; [done|].
    split; [exact (sublist_nodup _ _ SL (from_nodup _ _))|]. intros i. split.
    + intros ([i' r] & -> & I)%elem_of_list_fmap. rewrite Forall_forall in F. by apply F in I as [? _].
    + intros C. pose proof (from_elem start _ _ (contains_lt i C)) as I. rewrite <- steps_from in I by done.
      apply elem_of_list_fmap in I as (c & -> & I). by apply A.
Qed.
Lemma find_first start : (N.of_nat (start + num D2 m) <= 4294967296)%N ->
  exists found, FindPointCell2D g p m vss boxes true (N.of_nat start) = Ok found /\ Forall true_entry found /\
    ((found = [] /\ forall i, ~ contains pos m p i) \/
     exists i r before after, found = [(i, r)] /\ from_polygon start (num D2 m) = before ++ i :: after /\ contains pos m p i /\
       forall j, j ∈ before -> ~ contains pos m p j).
Proof.
  intros W. unfold FindPointCell2D. destruct (Nat.eq_dec (num D2 m) 0) as [Z|Z].
  - rewrite Z. cbn. exists []. split; [done|]. split; [constructor|]. left. split; [done|]. intros i C%contains_lt. lia.
  - destruct (loop_first (N.of_nat start) (seq 0 (num D2 m))) as (found & -> & [[-> A]|(cs1 & c & cs2 & r & E & -> & T & A)]); [lia| |].
    + exists []. split; [done|]. split; [constructor|]. left. split; [done|]. intros i C.
      pose proof (from_elem start _ _ (contains_lt i C)) as I. rewrite <- steps_from in I by done.
      apply elem_of_list_fmap in I as (c & -> & I). by apply (A c).
    + eexists. split; [done|]. split; [constructor; [exact T|constructor]|]. right.
      eexists _, r, (polygon_of_step (N.of_nat start) (num D2 m) <$> cs1), (polygon_of_step (N.of_nat start) (num D2 m) <$> cs2).
      split; [done|]. split; [rewrite <- steps_from by done; rewrite E; by rewrite fmap_app|]. split; [apply T|].
      intros j (c' & -> & J)%elem_of_list_fmap. by apply A.
Qed.

(** ** The cells on which the point lies *)

Lemma corner_place row k v : row !! k = Some v -> corner (pos <$> row) k = pos v.
Proof.
  intros H. pose proof (lookup_lt_Some _ _ _ H) as L. unfold corner. rewrite fmap_length, Nat.mod_small by done.
  apply nth_lookup_Some. rewrite list_lookup_fmap, H. done.
Qed.
Lemma place_ok found : Forall true_entry found ->
  exists ps, FindPointMeshPosition found m = Ok ps /\ Forall2 (fun f x => part_of m f.1 x /\ lies_on pos m p x) found ps.
Proof.
  intros F. assert (forall l, Forall true_entry l -> exists ps, Forall2 (fun f x =>
    match f.2 with
    | Inside => Ok (D2, N.of_nat f.1)
    | BorderEdge k => e ← RelGet E2 f.1 k m; Ok (D1, e)
    | BorderVertex k => v ← RelGet V2 f.1 k m; Ok (D0, v)
    | Outside => Throw
    end = Ok x /\ part_of m f.1 x /\ lies_on pos m p x) l ps) as K.
  { intros l. induction 1 as [|[i r] l T _ [ps IH]]; [exists []; constructor|].
    destruct T as (C & NO & row & RW & SP). cbn [fst snd] in *. destruct (DR i (proj1 C)) as (row' & es & b & RW' & RE & CL & LR & _).
    rewrite RW in RW'. injection RW' as <-.
    destruct r as [|k|k|]; [done| | |].
    - destruct SP as (LK & c & C0 & C1 & OL). rewrite fmap_length in LK.
      destruct (lookup_lt_is_Some_2 es k) as [e E]; [rewrite <- (cl_length _ _ _ CL); done|].
      destruct (row_reads m RM _ _ _ RE) as [_ RD]. destruct (RD k e E) as [GE _].
      exists ((D1, e) :: ps). constructor; [|exact IH]. cbn [fst snd]. rewrite GE. cbn [mbind outcome_bind].
      split; [reflexivity|]. split; [exists es; split; [done|]; by apply elem_of_list_lookup_2 in E|].
      destruct (cl_joins _ _ _ CL k e E) as (u & v & U & V & J). exists u, v. split; [done|]. exists c. split; [done|]. split; [done|].
      rewrite (corner_place _ _ _ U) in OL.
      assert (corner (pos <$> row) (S k) = pos v) as EV.
      { rewrite <- (corner_place _ _ _ V). rewrite <- (corner_mod (pos <$> row) (S k)), fmap_length. by rewrite Nat.add_1_r. }
      by rewrite EV in OL.
    - destruct SP as (LK & PE). rewrite fmap_length in LK. destruct (lookup_lt_is_Some_2 row k) as [v V]; [done|].
      destruct (row_reads m RM _ _ _ RW) as [_ RD]. destruct (RD k v V) as [GE _].
      exists ((D0, v) :: ps). constructor; [|exact IH]. cbn [fst snd]. rewrite GE. cbn [mbind outcome_bind].
      split; [reflexivity|]. split; [exists row; split; [done|]; by apply elem_of_list_lookup_2 in V|].
      unfold lies_on. cbn [fst snd]. rewrite PE. by apply corner_place.
    - exists ((D2, N.of_nat i) :: ps). constructor; [|exact IH]. cbn [fst snd]. split; [reflexivity|]. split; [done|].
      exists row. cbn [fst snd]. rewrite Nat2N.id. done. }
  destruct (K found F) as [ps P]. exists ps. split.
  - unfold FindPointMeshPosition. apply omapM_ok. eapply Forall2_impl; [exact P|]. cbn. intros f x [H _]. exact H.
  - eapply Forall2_impl; [exact P|]. cbn. intros f x [_ H]. exact H.
Qed.
Lemma find_place first start : (N.of_nat (start + num D2 m) <= 4294967296)%N ->
  exists found ps, FindPointCell2D g p m vss boxes first (N.of_nat start) = Ok found /\ FindPointMeshPosition found m = Ok ps /\
    Forall2 (fun f x => part_of m f.1 x /\ lies_on pos m p x) found ps.
Proof.
  intros W. assert (exists found, FindPointCell2D g p m vss boxes first (N.of_nat start) = Ok found /\ Forall true_entry found) as (found & E & F).
  { destruct first; [destruct (find_first start W) as (f & ? & ? & _)|destruct (find_all start W) as (f & ? & ? & _)]; by exists f. }
  destruct (place_ok found F) as (ps & P & Q). exists found, ps. done.
Qed.
End Find.
