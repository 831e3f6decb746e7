(** * Joining a fan of triangles. *)
From Coq Require Import QArith Qcanon Sorted.
From stdpp Require Import sorting.
From Coq Require Import ZifyBool ZifyNat ZifyN.
From Verif Require Import Base BaseProof QcTac FillModel FillProofG GeoModel MapModel PointModel PointSpec PointProof PolyModel PolySpec PolyProof HullModel CsrModel
  MeshModel MeshSpec MeshRep MeshHist MeshProof MeshProof8 MeshProof9 MeshProofE UtilSpec RefineModel RefineSpec CheckModel CheckSpec CheckProof CheckProof2
  CheckSolid AggloModel AggloSpec.
Local Open Scope nat_scope.

(** ** Intersections of sorted lists *)
Lemma intersection_cons x a y b : set_intersection (x :: a) (y :: b) =
  if (x <? y)%N then set_intersection a (y :: b) else if (y <? x)%N then set_intersection (x :: a) b else x :: set_intersection a b.
Proof. done. Qed.
Lemma intersection_elem a b z : StronglySorted N.lt a -> StronglySorted N.lt b -> z ∈ set_intersection a b <-> z ∈ a /\ z ∈ b.
Proof.
  intros SA. revert b. induction SA as [|x a SA IH FA]; intros b SB.
  { destruct b; cbn; split; [by intros ?%elem_of_nil|by intros [?%elem_of_nil _]|by intros ?%elem_of_nil|by intros [?%elem_of_nil _]]. }
  induction SB as [|y b SB IHb FB].
  { cbn. split; [by intros ?%elem_of_nil|by intros [_ ?%elem_of_nil]]. }
  rewrite intersection_cons. rewrite Forall_forall in FA, FB.
  destruct (x <? y)%N eqn:P; [|destruct (y <? x)%N eqn:Q].
  - rewrite IH by (constructor; [done|by rewrite Forall_forall]). rewrite !elem_of_cons. split; [tauto|].
    intros [[-> | H] [E|H']]; try tauto; [lia|]. specialize (FB _ H'). lia.
  - rewrite IHb. rewrite !elem_of_cons. split; [tauto|].
    intros [[E|H] [-> | H']]; try tauto; [lia|]. specialize (FA _ H). lia.
  - assert (x = y) as -> by lia. rewrite !elem_of_cons, IH by done. split; [tauto|].
    intros [[-> | H] [E|H']]; try tauto.
Qed.
Lemma sublist_sorted a b : a `sublist_of` b -> StronglySorted N.lt b -> StronglySorted N.lt a.
Proof.
  induction 1 as [|x a b S IH|x a b S IH]; intros H; [done|apply StronglySorted_inv in H as [H F]..]; [|by apply IH].
  constructor; [by apply IH|]. rewrite Forall_forall in *. intros z Z. apply F. eapply elem_of_submseteq; [exact Z|].
  by apply sublist_submseteq.
Qed.
Lemma intersection_sorted a b : StronglySorted N.lt a -> StronglySorted N.lt (set_intersection a b).
Proof. intros S. eapply sublist_sorted; [|exact S]. apply intersection_sub. Qed.
Lemma strict_sorted l : NoDup l -> StronglySorted N.lt (sorted l).
Proof.
  intros ND. unfold sorted. pose proof (merge_sort_Permutation N.le l) as P. rewrite <- P in ND. clear P.
  assert (StronglySorted N.le (merge_sort N.le l)) as S' by (apply StronglySorted_merge_sort; [intros x y z; lia|intros x y; lia]).
  induction S' as [|x s S IH F]; [constructor|]. apply NoDup_cons in ND as [NI ND]. constructor; [by apply IH|].
  rewrite Forall_forall in *. intros z Z. specialize (F z Z). assert (z <> x) by (intros ->; done). lia.
Qed.
Lemma sorted_elem l z : z ∈ sorted l <-> z ∈ l.
Proof. unfold sorted. by rewrite merge_sort_Permutation. Qed.
Lemma strict_nodup l : StronglySorted N.lt l -> NoDup l.
Proof. induction 1 as [|x s S IH F]; constructor; [|done]. intros M. rewrite Forall_forall in F. specialize (F x M). lia. Qed.
Lemma only_one (l : list N) x : NoDup l -> (forall z, z ∈ l <-> z = x) -> l = [x].
Proof.
  intros ND H. apply Permutation_singleton_r. apply NoDup_Permutation; [done|apply NoDup_singleton|].
  intros z. by rewrite H, elem_of_list_singleton.
Qed.

(** ** One triangle *)
Section mesh.
Context (m : mesh) (RM : reachable m).

Lemma find_0 x l : find_pos x (x :: l) = 0.
Proof. cbn. by rewrite N.eqb_refl. Qed.
Lemma find_S x y l : y <> x -> find_pos x (y :: l) = S (find_pos x l).
Proof. intros H. cbn. by destruct (N.eqb_spec y x). Qed.

Record triangle_reads (t : nat) (vs es : list N) (v p q s b s' : N) : Prop := {
  tr_centre : exists k, RelFind V2 t v m = Ok k /\ RelGet E2 t k m = Ok s /\
    RelGet V2 t ((k + 1) mod 3) m = Ok p /\ RelGet E2 t ((k + 1) mod 3) m = Ok b;
  tr_next : exists k, RelFind E2 t s' m = Ok k /\ RelGet V2 t ((k + 2) mod 3) m = Ok p /\ RelGet E2 t ((k + 2) mod 3) m = Ok b;
  tr_prev : exists k, RelFind E2 t s m = Ok k /\ RelGet V2 t ((k + 2) mod 3) m = Ok q /\ RelGet E2 t ((k + 2) mod 3) m = Ok s'
}.

Lemma triangle_read t v p q s b s' : triangle_is m t [v; p; q] [s; b; s'] -> NoDup [v; p; q] -> NoDup [s; b; s'] ->
  exists vs es, RelRow V2 t m = Ok vs /\ RelRow E2 t m = Ok es /\ vs ≡ₚ [v; p; q] /\ es ≡ₚ [s; b; s'] /\
    triangle_reads t vs es v p q s b s'.
Proof.
  intros (k & K & RV & RE) NV NE.
  assert (v <> p /\ v <> q /\ p <> q) as (V1 & V2' & V3) by (rewrite !NoDup_cons, !elem_of_cons in NV; tauto).
  assert (s <> b /\ s <> s' /\ b <> s') as (E1 & E2' & E3) by (rewrite !NoDup_cons, !elem_of_cons in NE; tauto).
  exists (rotate k [v; p; q]), (rotate k [s; b; s']). split; [done|]. split; [done|].
  assert (forall X (l : list X), rotate k l ≡ₚ l) as PR.
  { intros X l. unfold rotate. rewrite Permutation_app_comm. by rewrite take_drop. }
  split; [apply PR|]. split; [apply PR|].
  pose proof (fun j => get_row m RM V2 t j _ RV) as GV. pose proof (fun j => get_row m RM E2 t j _ RE) as GE.
  assert (forall z, RelFind V2 t z m = Ok (find_pos z (rotate k [v; p; q]))) as FV by (intros z; unfold RelFind; by rewrite RV).
  assert (forall z, RelFind E2 t z m = Ok (find_pos z (rotate k [s; b; s']))) as FE by (intros z; unfold RelFind; by rewrite RE).
  destruct k as [|[|[|k]]]; [| | |lia];
    [change (rotate 0 [v; p; q]) with [v; p; q] in *; change (rotate 0 [s; b; s']) with [s; b; s'] in *
    |change (rotate 1 [v; p; q]) with [p; q; v] in *; change (rotate 1 [s; b; s']) with [b; s'; s] in *
    |change (rotate 2 [v; p; q]) with [q; v; p] in *; change (rotate 2 [s; b; s']) with [s'; s; b] in *];
    split; eexists; (split; [first [apply FV|apply FE]|]); rewrite ?find_0; rewrite ?find_S by congruence; rewrite ?find_0;
    rewrite ?find_S by congruence; rewrite ?find_0; rewrite ?GV, ?GE; done.
Qed.

Lemma common_two r t u a b : RelRow r t m = Ok a -> RelRow r u m = Ok b -> NoDup a -> NoDup b ->
  exists c, common_of_two r t u m = Ok c /\ StronglySorted N.lt c /\ forall z, z ∈ c <-> z ∈ a /\ z ∈ b.
Proof.
  intros A B NA NB. unfold common_of_two. rewrite A, B. cbn [mbind outcome_bind]. eexists. split; [done|]. split.
  - apply intersection_sorted. by apply strict_sorted.
  - intros z. rewrite intersection_elem by (by apply strict_sorted). by rewrite !sorted_elem.
Qed.

(** ** Fans *)
Context (f : fan_data) (FAN : is_fan m f).
Notation n := (length (f_triangles f)).
Notation v := (f_centre f).

Lemma fan_tri k t : f_triangles f !! k = Some t -> exists p q s b s' vs es,
    f_rim f !! k = Some p /\ f_rim f !! S k = Some q /\
    f_spokes f !! k = Some s /\ f_outer f !! k = Some b /\ f_spokes f !! S k = Some s' /\
    RelRow V2 t m = Ok vs /\ RelRow E2 t m = Ok es /\ vs ≡ₚ [v; p; q] /\ es ≡ₚ [s; b; s'] /\ NoDup vs /\ NoDup es /\
    triangle_reads t vs es v p q s b s'.
Proof.
  intros T. destruct (fan_triangle _ _ FAN _ _ T) as (p & q & s & b & s' & P & Q & S0 & B & S1 & TR).
  assert (NoDup [v; p; q]) as NV.
  { pose proof (fan_points _ _ FAN) as ND. apply NoDup_cons in ND as [NI ND].
    assert (p <> q) by (intros ->; pose proof (NoDup_lookup _ _ _ _ ND P Q); lia).
    assert (v <> p) by (intros <-; apply NI; by eapply elem_of_list_lookup_2).
    assert (v <> q) by (intros <-; apply NI; by eapply elem_of_list_lookup_2).
    repeat constructor; rewrite ?elem_of_cons, ?elem_of_nil; tauto. }
  assert (NoDup [s; b; s']) as NE.
  { pose proof (fan_edges _ _ FAN) as ND. apply NoDup_app in ND as (ND & DJ & _).
    assert (s <> s') by (intros ->; pose proof (NoDup_lookup _ _ _ _ ND S0 S1); lia).
    assert (s <> b) by (intros ->; apply (DJ b); by eapply elem_of_list_lookup_2).
    assert (b <> s') by (intros ->; apply (DJ s'); by eapply elem_of_list_lookup_2).
    repeat constructor; rewrite ?elem_of_cons, ?elem_of_nil; tauto. }
  destruct (triangle_read t _ _ _ _ _ _ TR NV NE) as (vs & es & RV & RE & PV & PE & R).
  exists p, q, s, b, s', vs, es. split_and!; try done; [by rewrite PV|by rewrite PE].
Qed.

(** Consecutive triangles share one spoke. *)
Lemma fan_common_edge k t u : f_triangles f !! k = Some t -> f_triangles f !! S k = Some u ->
  exists s, f_spokes f !! S k = Some s /\ FindCell2DsCommonEdges [t; u] m = Ok [s].
Proof.
  intros T U. destruct (fan_tri _ _ T) as (p & q & s & b & s' & vs & es & P & Q & S0 & B & S1 & RV & RE & PV & PE & NV & NE & _).
  destruct (fan_tri _ _ U) as (p' & q' & s0 & b' & s2 & vs' & es' & P' & Q' & S0' & B' & S1' & RV' & RE' & PV' & PE' & NV' & NE' & _).
  rewrite S1 in S0'. injection S0' as <-. exists s'. split; [done|]. unfold FindCell2DsCommonEdges.
  destruct (common_two E2 t u es es' RE RE' NE NE') as (c & -> & SC & EC). cbn [mbind outcome_bind]. f_equal.
  apply only_one; [by apply strict_nodup|]. intros z. rewrite EC, PE, PE'. rewrite !elem_of_cons, !elem_of_nil.
  pose proof (fan_edges _ _ FAN) as ND. apply NoDup_app in ND as (ND & DJ & NB).
  split; [|intros ->; tauto]. intros [[-> | [-> | [-> | []]]] [H|[H|[H|[]]]]]; subst; try done.
  - exfalso. apply (DJ b'); by eapply elem_of_list_lookup_2.
  - pose proof (NoDup_lookup _ _ _ _ ND S0 S1'). lia.
  - pose proof (NoDup_lookup _ _ _ _ NB B B'). lia.
  - exfalso. apply (DJ s2); by eapply elem_of_list_lookup_2.
Qed.

(** From three triangles on, only the centre is shared. *)
Lemma fan_common_vertex : 3 <= n -> FindCell2DsCommonVertices (f_triangles f) m = Ok [v].
Proof.
  intros N3. destruct (f_triangles f) as [|t [|u [|w rest]]] eqn:ET; cbn in N3; try lia. rewrite <- ET in *.
  assert (f_triangles f !! 0 = Some t) as T0 by (by rewrite ET).
  assert (f_triangles f !! 1 = Some u) as T1 by (by rewrite ET).
  assert (f_triangles f !! 2 = Some w) as T2 by (by rewrite ET).
  destruct (fan_tri _ _ T0) as (p0 & p1 & s & b & s' & vs & es & P & Q & S0 & B & S1 & RV & RE & PV & PE & NV & NE & _).
  destruct (fan_tri _ _ T1) as (p1' & p2 & s1' & b1 & s2 & vs' & es' & P' & Q' & S0' & B' & S1' & RV' & RE' & PV' & PE' & NV' & NE' & _).
  destruct (fan_tri _ _ T2) as (p2' & p3 & s2' & b2 & s3 & vs2 & es2 & P2 & Q2 & S02 & B2 & S12 & RV2 & RE2 & PV2 & PE2 & NV2 & NE2 & _).
  rewrite Q in P'. injection P' as <-. rewrite Q' in P2. injection P2 as <-.
  rewrite ET. unfold FindCell2DsCommonVertices.
  destruct (common_two V2 t u vs vs' RV RV' NV NV') as (c & -> & SC & EC). rewrite RV2. cbn [mbind outcome_bind].
  assert (set_intersection c (sorted vs2) = [v]) as ->.
  { apply only_one; [apply strict_nodup; by apply intersection_sorted|]. intros z.
    rewrite intersection_elem by (done || by apply strict_sorted). rewrite sorted_elem, EC, PV, PV', PV2, !elem_of_cons, !elem_of_nil.
    pose proof (fan_points _ _ FAN) as ND. apply NoDup_cons in ND as [NI ND].
    assert (forall i x, f_rim f !! i = Some x -> x <> v) as NC by (intros i x X ->; apply NI; by eapply elem_of_list_lookup_2).
    pose proof (NC _ _ P). pose proof (NC _ _ Q). pose proof (NC _ _ Q'). pose proof (NC _ _ Q2).
    assert (forall i j x, f_rim f !! i = Some x -> f_rim f !! j = Some x -> i = j) as INJ by (intros i j x X Y; exact (NoDup_lookup _ _ _ _ ND X Y)).
    assert (p0 <> p1) by (intros ->; pose proof (INJ _ _ _ P Q); lia).
    assert (p0 <> p2) by (intros ->; pose proof (INJ _ _ _ P Q'); lia).
    assert (p0 <> p3) by (intros ->; pose proof (INJ _ _ _ P Q2); lia).
    assert (p1 <> p2) by (intros ->; pose proof (INJ _ _ _ Q Q'); lia).
    assert (p1 <> p3) by (intros ->; pose proof (INJ _ _ _ Q Q2); lia).
    assert (p2 <> p3) by (intros ->; pose proof (INJ _ _ _ Q' Q2); lia).
    split; [|intros ->; tauto]. intros [[I1 I2] I3]. destruct I1 as [-> | [-> | [-> | []]]]; [done|..]; exfalso;
    destruct I2 as [|[|[|[]]]]; destruct I3 as [|[|[|[]]]]; congruence. }
  cbn [mbind outcome_bind].
  assert (forall tt', ofold (fun (_ : unit) t0 => l ← RelRow V2 t0 m; require (bool_decide (v ∈ l))) rest tt' = Ok tt) as ->; [|done].
  assert (forall k x, rest !! k = Some x -> exists l, RelRow V2 x m = Ok l /\ v ∈ l) as HR.
  { intros k x X. assert (f_triangles f !! (3 + k) = Some x) as TX by (by rewrite ET).
    destruct (fan_tri _ _ TX) as (?&?&?&?&?&vsx&?&_&_&_&_&_&RX&_&PX&_). exists vsx. split; [done|]. rewrite PX. by left. }
  clear ET. induction rest as [|x rest IH]; intros []; [done|]. cbn [ofold].
  destruct (HR 0 x eq_refl) as (l & -> & IL). cbn [mbind outcome_bind]. rewrite bool_decide_true by done. cbn [require mbind outcome_bind].
  apply IH. { cbn in N3. cbn. lia. } intros k y Y. apply (HR (S k) y Y).
Qed.

Lemma take_more {X} (l : list X) k x : l !! k = Some x -> take (S k) l = take k l ++ [x].
Proof. apply take_S_r. Qed.

Lemma fan_middle rest k : (forall i tu, rest !! i = Some tu -> f_triangles f !! (k + i) = Some tu.1 /\ f_triangles f !! S (k + i) = Some tu.2) ->
  forall e0, ofold (join_pair m) rest (Joined (v :: take k (f_rim f)) (e0 :: take k (f_outer f)) (take k (tail (f_spokes f)))) =
  Ok (Joined (v :: take (k + length rest) (f_rim f)) (e0 :: take (k + length rest) (f_outer f)) (take (k + length rest) (tail (f_spokes f)))).
Proof.
  revert k. induction rest as [|[t u] rest IH]; intros k H e0; [cbn; by rewrite Nat.add_0_r|].
  destruct (H 0 (t, u) eq_refl) as [T U]. rewrite Nat.add_0_r in T, U. cbn [fst snd] in T, U.
  destruct (fan_common_edge _ _ _ T U) as (s1 & S1 & CE).
  destruct (fan_tri _ _ T) as (p & q & s & b & s' & vs & es & P & Q & S0 & B & S1' & RV & RE & PV & PE & NV & NE & TR).
  rewrite S1 in S1'. injection S1' as <-. destruct (tr_next _ _ _ _ _ _ _ _ _ TR) as (i & FI & GV & GE).
  cbn [ofold]. assert (forall r, join_pair m r (t, u) = Ok (Joined (j_vertices r ++ [p]) (j_edges r ++ [b]) (j_removed r ++ [s1]))) as ->.
  { intros r. unfold join_pair. cbn [fst snd]. rewrite CE. cbn [mbind outcome_bind]. rewrite FI. cbn [mbind outcome_bind]. rewrite GV.
    cbn [mbind outcome_bind]. rewrite GE. done. }
  cbn [mbind outcome_bind j_vertices j_edges j_removed].
  assert (tail (f_spokes f) !! k = Some s1) as ST by (by destruct (f_spokes f)).
  rewrite <- !app_comm_cons, <- (take_more _ _ _ P), <- (take_more _ _ _ B), <- (take_more _ _ _ ST).
  rewrite (IH (S k)).
  - cbn [length]. by replace (S k + length rest) with (k + S (length rest)) by lia.
  - intros i' tu I'. destruct (H (S i') tu I') as [A C]. by replace (S k + i') with (k + S i') by lia.
Qed.

Lemma agglomerate_fan : 3 <= n ->
  AgglomerateTriangles (f_triangles f) m = Ok (Joined (border_vertices f) (border_edges f) (inner_spokes f)).
Proof.
  intros N3. unfold AgglomerateTriangles. rewrite fan_common_vertex by done. cbn [mbind outcome_bind].
  destruct (lookup_lt_is_Some_2 (f_triangles f) 0 ltac:(lia)) as [t0 T0].
  destruct (lookup_lt_is_Some_2 (f_triangles f) (n - 1) ltac:(lia)) as [tn TN].
  destruct (lookup_lt_is_Some_2 (f_triangles f) (n - 2) ltac:(lia)) as [tp TP].
  assert (last (f_triangles f) = Some tn) as LT by (by rewrite last_lookup; replace (Nat.pred n) with (n - 1) by lia).
  assert (exists l, f_triangles f = t0 :: l) as [l EL] by (destruct (f_triangles f); [done|injection T0 as ->; eauto]).
  rewrite EL at 1. cbv iota. rewrite <- EL, LT. cbv iota.
  destruct (fan_tri _ _ T0) as (p0 & p1 & s0 & b0 & s1 & vs0 & es0 & P0 & _ & S0 & _ & _ & _ & _ & _ & _ & _ & _ & TR0).
  destruct (tr_centre _ _ _ _ _ _ _ _ _ TR0) as (k0 & F0 & G0 & _). rewrite F0. cbn [mbind outcome_bind]. rewrite G0. cbn [mbind outcome_bind].
  set (pairs := zip (f_triangles f) (tail (f_triangles f))).
  assert (length pairs = n - 1) as LP by (unfold pairs; rewrite zip_with_length, EL; cbn [tail length]; lia).
  pose proof (fan_middle pairs 0) as M. cbn [take Nat.add] in M. rewrite LP in M. rewrite M; clear M.
  2:{ intros i tu I. unfold pairs in I. apply lookup_zip_with_Some in I as (a & b & -> & A & B). cbn [fst snd]. split; [done|].
      rewrite EL in B |- *. done. }
  cbn [mbind outcome_bind j_removed j_vertices j_edges].
  destruct (fan_tri _ _ TN) as (p & q & s & b & s' & vs & es & P & Q & S1 & B & S2 & RV & RE & PV & PE & NV & NE & TR).
  assert (last (take (n - 1) (tail (f_spokes f))) = Some s) as ->.
  { rewrite last_lookup. rewrite take_length. pose proof (fan_spokes _ _ FAN) as LS.
    assert (length (tail (f_spokes f)) = n) as LTS by (destruct (f_spokes f); cbn in *; lia).
    rewrite LTS. replace (Nat.pred ((n - 1) `min` n)) with (n - 2) by lia. rewrite lookup_take by lia.
    destruct (f_spokes f) as [|x l']; [done|]. cbn [tail]. rewrite <- S1. replace (n - 1) with (S (n - 2)) by lia. done. }
  destruct (tr_prev _ _ _ _ _ _ _ _ _ TR) as (i & FI & GVI & GEI). destruct (tr_centre _ _ _ _ _ _ _ _ _ TR) as (j & FJ & _ & GVJ & GEJ).
  rewrite FI. cbn [mbind outcome_bind]. rewrite FJ. cbn [mbind outcome_bind]. rewrite GVJ. cbn [mbind outcome_bind]. rewrite GVI.
  cbn [mbind outcome_bind]. rewrite GEJ. cbn [mbind outcome_bind]. rewrite GEI. cbn [mbind outcome_bind]. f_equal. f_equal.
  - unfold border_vertices. rewrite <- app_comm_cons. f_equal.
    replace [p; q] with ([p] ++ [q]) by done. rewrite app_assoc, <- (take_more _ _ _ P). rewrite <- (take_more _ _ q).
    + apply take_ge. rewrite (fan_rim _ _ FAN). lia.
    + done.
  - unfold border_edges. pose proof (fan_outer _ _ FAN) as LB. pose proof (fan_spokes _ _ FAN) as LS.
    replace (take 1 (f_spokes f)) with [s0] by (destruct (f_spokes f); [done|]; injection S0 as ->; done).
    cbn [app]. f_equal. replace [b; s'] with ([b] ++ [s']) by done. rewrite app_assoc, <- (take_more _ _ _ B). f_equal.
    + apply take_ge. lia.
    + replace (S (n - 1)) with n in S2 by lia. apply list_eq. intros [|x].
      * rewrite lookup_drop, Nat.add_0_r. by rewrite S2.
      * rewrite lookup_drop. cbn. symmetry. apply lookup_ge_None_2. lia.
  - unfold inner_spokes. destruct (f_spokes f) as [|x l'] eqn:ES; [done|]. rewrite EL. cbn [length tail take]. by rewrite Nat.sub_0_r || by replace (S (length l) - 1) with (length l) by lia.
Qed.

(** One or two triangles have too many vertices in common. *)
Lemma agglomerate_few : 1 <= n <= 2 -> AgglomerateTriangles (f_triangles f) m = Abort.
Proof.
  intros N2. unfold AgglomerateTriangles.
  assert (exists c, FindCell2DsCommonVertices (f_triangles f) m = Ok c /\ length c <> 1) as (c & -> & LC).
  { destruct (f_triangles f) as [|t [|u [|w rest]]] eqn:ET; cbn in N2; try lia; rewrite <- ET in *.
    - assert (f_triangles f !! 0 = Some t) as T0 by (by rewrite ET).
      destruct (fan_tri _ _ T0) as (?&?&?&?&?&vs&?&_&_&_&_&_&RX&_&PX&_). rewrite ET. exists vs. split; [done|]. by rewrite PX.
    - assert (f_triangles f !! 0 = Some t) as T0 by (by rewrite ET).
      assert (f_triangles f !! 1 = Some u) as T1 by (by rewrite ET).
      destruct (fan_tri _ _ T0) as (p0&p1&?&?&?&vs&?&P0&P1&_&_&_&RX&_&PX&_&NV&_).
      destruct (fan_tri _ _ T1) as (p1'&p2&?&?&?&vs'&?&P1'&P2&_&_&_&RX'&_&PX'&_&NV'&_).
      rewrite P1 in P1'. injection P1' as <-.
      destruct (common_two V2 t u vs vs' RX RX' NV NV') as (c & C & SC & EC). rewrite ET. exists c. split; [done|].
      pose proof (fan_points _ _ FAN) as ND. apply NoDup_cons in ND as [NI _].
      assert (v ∈ c) as IV by (apply EC; rewrite PX, PX', !elem_of_cons; tauto).
      assert (p1 ∈ c) as IP by (apply EC; rewrite PX, PX', !elem_of_cons; tauto).
      destruct c as [|x9 [|y9 c]]; [done| |done]. apply elem_of_list_singleton in IV, IP.
      exfalso. apply NI. rewrite IV, <- IP. by eapply elem_of_list_lookup_2. }
  cbn [mbind outcome_bind]. destruct c as [|x [|y c]]; done.
Qed.
End mesh.
