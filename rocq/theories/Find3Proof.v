(** * Where a point lies in a mesh of polyhedra. *)
From Coq Require Import QArith Qcanon.
From Coq Require Import ZArith ZifyBool ZifyNat ZifyN.
From Verif Require Import Base BaseProof QcTac FillModel GeoModel MapModel PointModel PointSpec PointProof CsrModel MeshModel MeshSpec MeshRep MeshHist MeshProof8 MeshProof9
  JoinProof OutlineSpec SolidModel SolidSpec SolidProof FindModel FindSpec FindProof Find3Model Find3Spec.
Local Open Scope nat_scope.

(** ** The search *)

Section Search.
Context {R : Type} (look : nat -> outcome (option R)) (n : nat) (holds : nat -> Prop) (entry : nat * R -> Prop).
Hypothesis LOOK : forall i, i < n -> exists o, look i = Ok o /\ match o with Some r => entry (i, r) | None => ~ holds i end.
Hypothesis ENTRY : forall i r, entry (i, r) -> holds i.
Hypothesis HOLDS : forall i, holds i -> i < n.

Section Loop.
Context (start : N).
Notation step := (polygon_of_step start n).

Lemma step_below c : 0 < n -> step c < n.
Proof. intros L. unfold polygon_of_step. pose proof (N.mod_upper_bound ((start + N.of_nat c) mod 4294967296) (N.of_nat n)). lia. Qed.
Lemma search_loop_all cs found : 0 < n -> exists new, search_loop look n false start cs found = Ok (found ++ new) /\
  Forall entry new /\ sublist (new.*1) (step <$> cs) /\ forall c, c ∈ cs -> holds (step c) -> step c ∈ new.*1.
Proof.
  intros L. revert found. induction cs as [|c cs IH]; intros found.
  - exists []. rewrite app_nil_r. split; [done|]. split; [constructor|]. split; [constructor|]. intros c C%elem_of_nil. done.
  - cbn [search_loop]. destruct (LOOK (step c)) as (o & -> & O); [by apply step_below|]. cbn [mbind outcome_bind]. destruct o as [r|].
    + destruct (IH (found ++ [(step c, r)])) as (new & -> & F & SL & A). exists ((step c, r) :: new). rewrite <- app_assoc. split; [done|].
      split; [by constructor|]. split; [cbn; by constructor|].
      intros c' [-> |C]%elem_of_cons Z; cbn [fmap list_fmap fst]; [constructor|]. apply elem_of_cons. right. by apply A.
    + destruct (IH found) as (new & -> & F & SL & A). exists new. split; [done|]. split; [done|]. split; [cbn; by constructor|].
      intros c' [-> |C]%elem_of_cons Z; [done|]. by apply A.
Qed.
Lemma search_loop_first cs : 0 < n -> exists found, search_loop look n true start cs [] = Ok found /\
  ((found = [] /\ forall c, c ∈ cs -> ~ holds (step c)) \/
   exists cs1 c cs2 r, cs = cs1 ++ c :: cs2 /\ found = [(step c, r)] /\ entry (step c, r) /\ forall c', c' ∈ cs1 -> ~ holds (step c')).
Proof.
  intros L. induction cs as [|c cs IH].
  - exists []. split; [done|]. left. split; [done|]. intros c C%elem_of_nil. done.
  - cbn [search_loop]. destruct (LOOK (step c)) as (o & -> & O); [by apply step_below|]. cbn [mbind outcome_bind]. destruct o as [r|].
    + exists [(step c, r)]. split; [done|]. right. exists [], c, cs, r. split; [done|]. split; [done|]. split; [done|]. intros c' C%elem_of_nil. done.
    + destruct IH as (found & -> & [[-> A]|(cs1 & c1 & cs2 & r & -> & -> & T & A)]).
      * exists []. split; [done|]. left. split; [done|]. intros c' [-> |C]%elem_of_cons; [done|by apply A].
      * eexists. split; [done|]. right. exists (c :: cs1), c1, cs2, r. split; [done|]. split; [done|]. split; [done|].
        intros c' [-> |C]%elem_of_cons; [done|by apply A].
Qed.
End Loop.

Lemma steps_around start : (N.of_nat (start + n) <= 4294967296)%N -> polygon_of_step (N.of_nat start) n <$> seq 0 n = from_polygon start n.
Proof.
  intros W. unfold from_polygon. apply list_fmap_ext. intros k c C. apply lookup_seq in C as [-> C]. cbn. unfold polygon_of_step.
  rewrite (N.mod_small _ 4294967296) by lia. rewrite <- Nat2N.inj_add, <- Nat2N.inj_mod. apply Nat2N.id.
Qed.
Lemma search_all start : (N.of_nat (start + n) <= 4294967296)%N ->
  exists found, search_loop look n false (N.of_nat start) (seq 0 n) [] = Ok found /\ Forall entry found /\
    sublist (found.*1) (from_polygon start n) /\ NoDup (found.*1) /\ forall i, i ∈ found.*1 <-> holds i.
Proof.
  intros W. destruct (Nat.eq_dec n 0) as [Z|Z].
  - rewrite Z. cbn. exists []. split; [done|]. split; [constructor|]. split; [constructor|]. split; [constructor|]. intros i. split.
    + intros C%elem_of_nil. done.
    + intros C%HOLDS. lia.
  - destruct (search_loop_all (N.of_nat start) (seq 0 n) []) as (new & E & F & SL & A); [lia|]. cbn in E.
    exists new. split; [done|]. split; [done|]. rewrite steps_around in SL by done. split; [done|].
    split; [exact (sublist_nodup _ _ SL (from_nodup _ _))|]. intros i. split.
    + intros ([i' r] & -> & I)%elem_of_list_fmap. rewrite Forall_forall in F. apply F in I. exact (ENTRY _ _ I).
    + intros C. pose proof (from_elem start _ _ (HOLDS i C)) as I. rewrite <- steps_around in I by done.
      apply elem_of_list_fmap in I as (c & -> & I). by apply A.
Qed.
Lemma search_first start : (N.of_nat (start + n) <= 4294967296)%N ->
  exists found, search_loop look n true (N.of_nat start) (seq 0 n) [] = Ok found /\ Forall entry found /\
    ((found = [] /\ forall i, ~ holds i) \/
     exists i r before after, found = [(i, r)] /\ from_polygon start n = before ++ i :: after /\ holds i /\ forall j, j ∈ before -> ~ holds j).
Proof.
  intros W. destruct (Nat.eq_dec n 0) as [Z|Z].
  - rewrite Z. cbn. exists []. split; [done|]. split; [constructor|]. left. split; [done|]. intros i C%HOLDS. lia.
  - destruct (search_loop_first (N.of_nat start) (seq 0 n)) as (found & -> & [[-> A]|(cs1 & c & cs2 & r & E & -> & T & A)]); [lia| |].
    + exists []. split; [done|]. split; [constructor|]. left. split; [done|]. intros i C.
      pose proof (from_elem start _ _ (HOLDS i C)) as I. rewrite <- steps_around in I by done.
      apply elem_of_list_fmap in I as (c & -> & I). by apply (A c).
    + eexists. split; [done|]. split; [constructor; [exact T|constructor]|]. right.
      eexists _, r, (polygon_of_step (N.of_nat start) n <$> cs1), (polygon_of_step (N.of_nat start) n <$> cs2).
      split; [done|]. split; [rewrite <- steps_around by done; rewrite E; by rewrite fmap_app|]. split; [exact (ENTRY _ _ T)|].
      intros j (c' & -> & J)%elem_of_list_fmap. by apply A.
Qed.
End Search.

(** ** One polyhedron *)

Section Find3.
Context (g : geo_config) (p : vec3) (m : mesh) (pos : N -> vec3) (solids : list (list face)) (boxes : list (vec3 * vec3)).
Hypothesis G : exact g.
Hypothesis RM : reachable m.
Hypothesis DR : drawn_solids pos m solids boxes.

Definition true_solid (f : nat * solid_position) : Prop :=
  solid_contains m solids p f.1 /\ f.2 <> SOutside /\ exists fs, solids !! f.1 = Some fs /\ solid_position_spec p fs f.2.

Lemma look_solid_ok i : i < num D3 m -> exists o, look_at_solid g p m solids boxes i = Ok o /\
  match o with Some r => true_solid (i, r) | None => ~ solid_contains m solids p i end.
Proof.
  intros L. unfold look_at_solid.
  assert (exists a, IsActive D3 i m = Ok a) as [a AC].
  { destruct (reachable_rep m RM) as [am R]. rewrite (g_num _ _ R) in L. rewrite (g_active _ _ R). unfold MeshProof8.look.
    destruct (lookup_lt_is_Some_2 (am_cells am D3) i) as [x X]; [done|]. rewrite X. eauto. }
  rewrite AC. cbn [mbind outcome_bind]. destruct a; cbn [negb].
  2:{ exists None. split; [done|]. intros [C _]. rewrite AC in C. discriminate. }
  destruct (DR i AC) as (fs & lo & hi & SO & BI & PS & _ & IB).
  destruct (solid_ok g p fs G PS) as (r & PR & SP & OU & _).
  unfold vat. rewrite BI, SO. cbn [mbind outcome_bind].
  assert (r = SOutside -> ~ solid_contains m solids p i) as NC.
  { intros O [_ (fs' & SO' & H)]. rewrite SO in SO'. injection SO' as <-. by apply OU. }
  assert (r <> SOutside -> in_solid fs p) as IN.
  { intros NO. destruct (solid_dec fs p) as [(c & C & P)|]; [|done]. exfalso. apply NO, OU. intros IS. specialize (IS c C).
    revert IS. apply Qclt_not_le. exact P. }
  destruct (IsPointInBoundingBox g p (lo, hi)) eqn:IBX; cbn [negb].
  - rewrite PR. cbn [mbind outcome_bind]. destruct r eqn:RR; (eexists; split; [reflexivity|]).
    1: by apply NC.
    all: split; [split; [exact AC|exists fs; split; [exact SO|apply IN; discriminate]]|split; [discriminate|]]; exists fs; split; [exact SO|exact SP].
  - exists None. split; [done|]. destruct r eqn:RR; [by apply NC|exfalso..].
    all: rewrite (in_bounding_box g p lo hi (IB p (IN ltac:(discriminate)))) in IBX; discriminate.
Qed.
Lemma solid_lt i : solid_contains m solids p i -> i < num D3 m.
Proof.
  intros [A _]. unfold IsActive in A. apply bind_ok in A as (u & A & _). apply require_ok in A. by apply Nat.ltb_lt.
Qed.
Lemma true_solid_contains i r : true_solid (i, r) -> solid_contains m solids p i.
Proof. intros [H _]. exact H. Qed.
Lemma find3_all start : (N.of_nat (start + num D3 m) <= 4294967296)%N ->
  exists found, FindPointCell3D g p m solids boxes false (N.of_nat start) = Ok found /\ Forall true_solid found /\
    sublist (found.*1) (from_polygon start (num D3 m)) /\ NoDup (found.*1) /\ forall i, i ∈ found.*1 <-> solid_contains m solids p i.
Proof. exact (search_all _ _ _ _ look_solid_ok true_solid_contains solid_lt start). Qed.
Lemma find3_first start : (N.of_nat (start + num D3 m) <= 4294967296)%N ->
  exists found, FindPointCell3D g p m solids boxes true (N.of_nat start) = Ok found /\ Forall true_solid found /\
    ((found = [] /\ forall i, ~ solid_contains m solids p i) \/
     exists i r before after, found = [(i, r)] /\ from_polygon start (num D3 m) = before ++ i :: after /\ solid_contains m solids p i /\
       forall j, j ∈ before -> ~ solid_contains m solids p j).
Proof. exact (search_first _ _ _ _ look_solid_ok true_solid_contains solid_lt start). Qed.

(** ** The cells on which the point lies *)

Lemma place3_ok found : Forall true_solid found ->
  exists ps, FindPointMeshPosition3 found m = Ok ps /\ Forall2 (fun f x => lies_on_part pos m solids p f.1 x) found ps.
Proof.
  intros F. assert (forall l, Forall true_solid l -> exists ps, Forall2 (fun f x =>
    match f.2 with
    | SInside => Ok (D3, N.of_nat f.1)
    | SBorderFace k => x ← RelGet F3 f.1 k m; Ok (D2, x)
    | SBorderEdge k => x ← RelGet E3 f.1 (N.to_nat k) m; Ok (D1, x)
    | SBorderVertex k => x ← RelGet V3 f.1 (N.to_nat k) m; Ok (D0, x)
    | SOutside => Throw
    end = Ok x /\ lies_on_part pos m solids p f.1 x) l ps) as K.
  { intros l. induction 1 as [|[i r] l T _ [ps IH]]; [exists []; constructor|].
    destruct T as (C & NO & fs & SO & SP). cbn [fst snd] in *.
    destruct (DR i (proj1 C)) as (fs' & lo & hi & SO' & _ & PS & FO & _). rewrite SO in SO'. injection SO' as <-.
    destruct FO as (vs & es & polygons & RV & RE & RF & LINK).
    destruct r as [|f|e|v|]; [done| | | |].
    - destruct SP as (c & FC & SD & ST). destruct (LINK f c FC) as (x & row & FX & RX & PX & _).
      destruct (row_reads m RM _ _ _ RF) as [_ RD]. destruct (RD f x FX) as [GE _].
      exists ((D2, x) :: ps). constructor; [|exact IH]. cbn [fst snd]. rewrite GE. cbn [mbind outcome_bind]. split; [reflexivity|].
      exists polygons, row, fs, c. split; [exact RF|]. split; [exact (elem_of_list_lookup_2 _ _ _ FX)|]. split; [exact RX|].
      split; [exact SO|]. split; [exact (elem_of_list_lookup_2 _ _ _ FC)|]. split; [exact PX|]. split; [exact SD|exact ST].
    - destruct SP as (c & k & v & a & b & t & CF & CO & A & B & T0 & T1 & OL).
      apply elem_of_list_lookup in CF as [f FC]. destruct (LINK f c FC) as (x & row & _ & _ & PX & COLS).
      destruct (COLS k v e CO) as (u & w & eg & VU & RU & RW & EG & JO).
      destruct (row_reads m RM _ _ _ RE) as [_ RD]. destruct (RD _ _ EG) as [GE _].
      exists ((D1, eg) :: ps). constructor; [|exact IH]. cbn [fst snd]. rewrite GE. cbn [mbind outcome_bind]. split; [reflexivity|].
      exists es, u, w, t. split; [exact RE|]. split; [exact (elem_of_list_lookup_2 _ _ _ EG)|]. split; [exact JO|]. split; [exact T0|]. split; [exact T1|].
      rewrite PX in A, B. rewrite fmap_length in B. rewrite list_lookup_fmap, RU in A. rewrite list_lookup_fmap, RW in B.
      injection A as A. injection B as B. rewrite A, B. exact OL.
    - destruct SP as (c & k & e & CF & CO & A).
      apply elem_of_list_lookup in CF as [f FC]. destruct (LINK f c FC) as (x & row & _ & _ & PX & COLS).
      destruct (COLS k v e CO) as (u & w & eg & VU & RU & _).
      destruct (row_reads m RM _ _ _ RV) as [_ RD]. destruct (RD _ _ VU) as [GE _].
      exists ((D0, u) :: ps). constructor; [|exact IH]. cbn [fst snd]. rewrite GE. cbn [mbind outcome_bind]. split; [reflexivity|].
      exists vs. split; [exact RV|]. split; [exact (elem_of_list_lookup_2 _ _ _ VU)|]. cbn [snd].
      rewrite PX, list_lookup_fmap, RU in A. injection A as A. symmetry. exact A.
    - exists ((D3, N.of_nat i) :: ps). constructor; [|exact IH]. cbn [fst snd]. split; [reflexivity|]. split; [reflexivity|].
      exists fs. split; [exact SO|exact SP]. }
  destruct (K found F) as [ps P]. exists ps. split.
  - unfold FindPointMeshPosition3. apply omapM_ok. eapply Forall2_impl; [exact P|]. cbn. intros f x [H _]. exact H.
  - eapply Forall2_impl; [exact P|]. cbn. intros f x [_ H]. exact H.
Qed.
Lemma find3_place first start : (N.of_nat (start + num D3 m) <= 4294967296)%N ->
  exists found ps, FindPointCell3D g p m solids boxes first (N.of_nat start) = Ok found /\ FindPointMeshPosition3 found m = Ok ps /\
    Forall2 (fun f x => lies_on_part pos m solids p f.1 x) found ps.
Proof.
  intros W. assert (exists found, FindPointCell3D g p m solids boxes first (N.of_nat start) = Ok found /\ Forall true_solid found) as (found & E & F).
  { destruct first; [destruct (find3_first start W) as (f & ? & ? & _)|destruct (find3_all start W) as (f & ? & ? & _)]; by exists f. }
  destruct (place3_ok found F) as (ps & P & Q). exists found, ps. done.
Qed.
End Find3.
