(** * Joining edges in a mesh: the whole change. *)
From Coq Require Import ZifyBool ZifyNat ZifyN.
From Verif Require Import Base BaseProof CsrModel MeshModel MeshSpec MeshRep MeshHist MeshProof MeshProof8 MeshProof9 MeshProg UtilProofD FillProofA
  JoinModel JoinSpec JoinProof JoinMesh JoinAll.
Local Open Scope nat_scope.

Section neighbours.
Context (a : amesh) (m0 : mesh) (R0 : rr m0 a) (es : list N) (EL : forall e, e ∈ es -> is_cell D1 m0 e) (p q : N).
Notation c := (anum D1 a).
Notation b := (aappend D1 1 a).
Notation newF := (newF a es p q).

Definition polygons_ok (keep_sides : bool) (ps : list N) : Prop :=
  if keep_sides then
    (ps = [] /\ forall k x, ~ around R12 es m0 k x) \/
    (length ps = 2 /\ forall k x, is_cell D2 m0 x -> ps !! k = Some x <-> around R12 es m0 k x)
  else NoDup ps /\ forall x, x ∈ ps <-> exists k, around R12 es m0 k x.
Definition solids_ok (ss : list N) : Prop := NoDup ss /\ forall x, x ∈ ss <-> exists k, around R13 es m0 k x.

Lemma neighbours_ok order order2 keep_sides original h k : (forall l, order l ≡ₚ l) -> (forall l, order2 l ≡ₚ l) ->
  gathered m0 original es h -> (keep_sides = true -> sided es m0) ->
  exists ps ss, does (set_neighbours order order2 keep_sides c h) (amap (newF k [] []) b) (amap (newF k ps ss) b) /\ polygons_ok keep_sides ps /\ solids_ok ss.
Proof.
  intros O1 O2 G SD. pose proof (c_lt a) as CL.
  assert (forall d, num d m0 = anum d a) as NM by (intros d; apply (g_num _ _ (proj2 R0))).
  assert (exists ps, does (fun m => if decide (h_polygons h = []) then Ok m
       else if keep_sides then
         m ← RelInitOne R12 c 2 m;
         ofold (fun m pn => RelInsert R12 c pn.2 pn.1 m) (order2 (h_polygons h)) m
       else RelAdd R12 c (order2 (h_polygons h)).*1 m) (amap (newF k [] []) b) (amap (newF k ps []) b) /\ polygons_ok keep_sides ps) as (ps & D1 & P1).
  { destruct (decide (h_polygons h = [])) as [E|NE].
    - exists []. split; [apply does_ret|].
      assert (forall k x, ~ around R12 es m0 k x) as NO. { intros k' x A%(ga_all _ _ _ _ G). rewrite E in A. by apply elem_of_nil in A. }
      destruct keep_sides; [by left|]. split; [constructor|]. intros x. rewrite elem_of_nil. split; [done|]. intros [k' A]. by apply (NO k' x).
    - destruct keep_sides.
      + specialize (SD eq_refl). eexists. split.
        * apply (sides_ok a m0 R0 es EL). intros [x n] I. rewrite O2 in I. apply (ga_found _ _ _ _ G) in I. split; [by apply (si_two _ _ SD n x)|].
          by destruct I as (? & ? & _ & _ & _ & I).
        * right. split; [by rewrite side_rows|]. intros k' x X. rewrite (side_reads m0 es EL).
          -- assert ((x, k') ∈ order2 (h_polygons h) <-> around R12 es m0 k' x) as EQ.
             { rewrite O2. split; [apply (ga_found _ _ _ _ G)|]. intros A. pose proof (ga_all _ _ _ _ G x k' A) as I.
               apply elem_of_list_fmap in I as ([y n] & -> & I). cbn in *. pose proof (ga_found _ _ _ _ G y n I) as A'. by rewrite (si_side _ _ SD k' n y A A'). }
             rewrite EQ. split; [|tauto]. intros [?|[M _]]; [done|]. exfalso. pose proof (si_few _ _ SD). unfold is_cell in X.
             destruct k' as [|[|k']]; cbn in M; [injection M as <-|injection M as <-|done]; lia.
          -- intros [y n] I. rewrite O2 in I. apply (ga_found _ _ _ _ G) in I. by apply (si_two _ _ SD n y).
          -- intros y z n Y Z. rewrite O2 in Y, Z. apply (ga_found _ _ _ _ G) in Y. apply (ga_found _ _ _ _ G) in Z. by apply (si_one _ _ SD n y z).
      + exists (order2 (h_polygons h)).*1. split.
        * eapply does_aeq.
          -- apply (does_Add _ _ R12); [exact CL|done|]. cbn [tgt]. rewrite num_b, decide_False by done. apply Forall_forall. intros x X.
             rewrite O2 in X. apply elem_of_list_fmap in X as ([y n] & -> & I). apply (ga_found _ _ _ _ G) in I as (? & ? & _ & _ & _ & I).
             unfold is_cell in I. cbn [tgt] in I. rewrite NM in I. cbn. lia.
          -- pose proof (row_layer a es p q k [] [] (order2 (h_polygons h)).*1 [] R12 (or_introl (conj eq_refl eq_refl))) as H.
             rewrite decide_True in H by done. exact H.
        * split; [rewrite O2; apply (ga_once2 _ _ _ _ G)|]. intros x. rewrite O2. split; [|intros [n A]; by apply (ga_all _ _ _ _ G x n)].
          intros ([y n] & -> & I)%elem_of_list_fmap. exists n. by apply (ga_found _ _ _ _ G). }
  assert (exists ss, does (fun m => if decide (h_solids h = []) then Ok m else RelAdd R13 c (order (h_solids h)) m) (amap (newF k ps []) b) (amap (newF k ps ss) b) /\ solids_ok ss)
    as (ss & D2' & P2).
  { destruct (decide (h_solids h = [])) as [E|NE].
    - exists []. split; [apply does_ret|]. split; [constructor|]. intros x. by rewrite <- (ga_solids _ _ _ _ G), E.
    - exists (order (h_solids h)). split.
      + eapply does_aeq.
        * apply (does_Add _ _ R13); [exact CL|done|]. cbn [tgt]. rewrite num_b, decide_False by done. apply Forall_forall. intros x X.
          rewrite O1 in X. apply (ga_solids _ _ _ _ G) in X as (n & ? & ? & _ & _ & _ & I). unfold is_cell in I. cbn [tgt] in I. rewrite NM in I. lia.
        * pose proof (row_layer a es p q k ps [] ps (order (h_solids h)) R13 (or_intror (conj eq_refl eq_refl))) as H.
          rewrite decide_False in H by done. exact H.
      + split; [rewrite O1; apply (ga_once3 _ _ _ _ G)|]. intros x. rewrite O1. apply (ga_solids _ _ _ _ G). }
  exists ps, ss. split; [|done]. unfold set_neighbours. eapply does_bind; [exact D1|exact D2'].
Qed.
End neighbours.

Lemma vertex_of m a e x : rr m a -> am_cells a D1 !! e = Some x -> Cell1DVertex e 0 m = Ok (geo_pair x).1 /\ Cell1DVertex e 1 m = Ok (geo_pair x).2.
Proof.
  intros [RM R] X. pose proof (lookup_lt_Some _ _ _ X) as L.
  destruct (edge_vertices m RM (N.of_nat e)) as (o & t & O & T & V0 & V1). { unfold is_cell. rewrite (g_num _ _ R). unfold anum. lia. }
  rewrite Nat2N.id in *. rewrite V0, V1. rewrite (g_origin _ _ R) in O. rewrite (g_end _ _ R) in T. unfold look in O, T. rewrite X in O, T.
  injection O as <-. injection T as <-. done.
Qed.

Section reads.
Context (a : amesh) (m m' : mesh) (R : rr m a) (es : list N) (p q : N) (gone : list N) (k : N) (ps ss rp rq : list N).
Notation c := (anum D1 a).
Notation b := (aappend D1 1 a).
Definition allF : dim -> nat -> acell -> acell :=
  goneF (also (also (newF a es p q k ps ss) D0 (N.to_nat p) (row_update a m es rp)) D0 (N.to_nat q) (row_update a m es rq)) gone.
Context (R' : rr m' (amap allF b)).

Lemma update_same {B} (g : acell -> B) row y : (forall l z, g (with_row R01 l z) = g z) -> g (row_update a m es row y) = g y.
Proof. intros H. unfold row_update. case_decide; [done|apply H]. Qed.

(** A cell of before, apart from its state and the edges it knows. *)
Lemma old_cell {B} (g : acell -> B) d i : i < anum d a ->
  (forall v x, g (with_act v x) = g x) -> (forall l z, g (with_row R01 l z) = g z) -> look (amap allF b) d i g = look a d i g.
Proof.
  intros L HA HR. unfold look. rewrite amap_lookup, aappend_old by done. destruct (am_cells a d !! i) as [x|]; [|done]. cbn [fmap option_fmap option_map].
  f_equal. assert (g (newF a es p q k ps ss d i x) = g x) as N0.
  { unfold newF. rewrite decide_False by (intros [-> ->]; lia). unfold off. case_decide; [apply HA|done]. }
  assert (g (also (also (newF a es p q k ps ss) D0 (N.to_nat p) (row_update a m es rp)) D0 (N.to_nat q) (row_update a m es rq) d i x) = g x) as N1.
  { unfold also. repeat case_decide; rewrite ?update_same by done; exact N0. }
  unfold allF, goneF. case_decide; [rewrite HA|]; exact N1.
Qed.
Lemma new_cell_is : am_cells (amap allF b) D1 !! c = Some (fresh p q k ps ss (new_cell D1 (length (am_names a D1)))).
Proof.
  rewrite amap_lookup, aappend_new by lia. cbn [fmap option_fmap option_map]. f_equal. unfold allF, goneF, also, newF.
  rewrite decide_False by (intros [? _]; done). rewrite !(decide_False (P := D1 = D0 /\ _)) by (intros [? _]; done). by rewrite decide_True.
Qed.

Lemma all_read : can_join es p q gone (replicate (num D1 m) []) m -> RelRow R01 (N.to_nat p) m = Ok rp -> RelRow R01 (N.to_nat q) m = Ok rq ->
  (exists e, e ∈ es /\ Marker D1 (N.to_nat e) m = Ok k) -> (forall e k', e ∈ es -> Marker D1 (N.to_nat e) m = Ok k' -> (k' <= k)%N) ->
  forall keep_sides, polygons_ok m es keep_sides ps -> solids_ok m es ss -> edges_joined es p q gone keep_sides m m'.
Proof.
  intros CJ RP RQ MS MM keep_sides PK SK. pose proof (proj2 R) as RA. pose proof (proj2 R') as RA'.
  assert (forall d, num d m = anum d a) as NM by (intros d; apply (g_num _ _ RA)).
  assert (forall B d i (g : acell -> B), look (amap allF b) d i g = match am_cells (amap allF b) d !! i with Some x => Ok (g x) | None => Abort end) as LK by done.
  assert (forall d i, i < anum d a -> look (amap allF b) d i ac_act = if decide ((d = D1 /\ N.of_nat i ∈ es) \/ (d = D0 /\ N.of_nat i ∈ gone)) then Ok false else look a d i ac_act) as ACT.
  { intros d i L. unfold look. rewrite amap_lookup, aappend_old by done. unfold anum in L. destruct (lookup_lt_is_Some_2 _ _ L) as [x X]. fold (anum d a) in L. rewrite X.
    cbn [fmap option_fmap option_map]. unfold allF, goneF.
    assert (ac_act (also (also (newF a es p q k ps ss) D0 (N.to_nat p) (row_update a m es rp)) D0 (N.to_nat q) (row_update a m es rq) d i x) = ac_act (off es d i x)) as E.
    { assert (newF a es p q k ps ss d i x = off es d i x) as E0 by (unfold newF; by rewrite decide_False by (intros [-> ->]; lia)).
      unfold also. repeat case_decide; rewrite ?(update_same ac_act) by done; by rewrite E0. }
    destruct (decide (d = D0 /\ N.of_nat i ∈ gone)) as [G|NG].
    - rewrite decide_True by tauto. done.
    - rewrite E. unfold off. destruct (decide (d = D1 /\ N.of_nat i ∈ es)); [rewrite decide_True by tauto; done|rewrite decide_False by tauto; done]. }
  split.
  - by rewrite (r_dim _ _ RA), (r_dim _ _ RA').
  - intros d. rewrite NM, (g_num _ _ RA'), amap_num, num_b. done.
  - intros d i L H. rewrite NM in L. rewrite (g_active _ _ RA'), ACT by done. by rewrite decide_True.
  - intros d i L H. rewrite NM in L. rewrite (g_active _ _ RA'), (g_active _ _ RA), ACT by done. by rewrite decide_False.
  - intros d i L. rewrite NM in L. rewrite (g_marker _ _ RA), (g_marker _ _ RA'). by apply old_cell.
  - intros i L. rewrite NM in L. rewrite (g_coord _ _ RA), (g_coord _ _ RA'). by apply old_cell.
  - intros e L. rewrite NM in L. rewrite (g_origin _ _ RA), (g_origin _ _ RA'), (g_end _ _ RA), (g_end _ _ RA'). split; by apply old_cell.
  - intros d i ND L. rewrite NM in L. rewrite (g_original _ _ RA), (g_original _ _ RA') by done. by apply old_cell.
  - intros d i L. rewrite NM in L. rewrite (g_hasupdateds _ _ RA), (g_hasupdateds _ _ RA'). by apply old_cell.
  - intros r i L NR. rewrite NM in L. rewrite (g_row _ _ RA), (g_row _ _ RA').
    destruct (decide (r = R01)) as [-> |NE].
    + cbn [src] in *. unfold look. rewrite amap_lookup, aappend_old by done. unfold anum in L. destruct (lookup_lt_is_Some_2 _ _ L) as [x X]. rewrite X.
      cbn [fmap option_fmap option_map]. f_equal. unfold allF, goneF, also.
      rewrite !(decide_False (P := D0 = D0 /\ i = N.to_nat _)) by (intros [_ ->]; rewrite N2Nat.id in NR; tauto).
      unfold newF. rewrite !(decide_False (P := D0 = D1 /\ _)) by (intros [? _]; done). unfold off. rewrite !(decide_False (P := D0 = D1 /\ _)) by (intros [? _]; done).
      case_decide; done.
    + apply old_cell; [done|done|]. intros l z. unfold row_of. cbn. unfold upd_fun. by rewrite decide_False by done.
  - intros v row V RV. rewrite NM. destruct (cj_ends _ _ _ _ _ _ CJ) as (PL & QL & PQ). unfold is_cell in PL, QL. rewrite NM in PL, QL.
    assert (N.to_nat v < anum D0 a) as VL by (destruct V as [-> | ->]; lia). unfold anum in VL. destruct (lookup_lt_is_Some_2 _ _ VL) as [x X].
    assert (row_of R01 x = row) as RX. { rewrite (g_row _ _ RA) in RV. unfold look in RV. cbn [src] in RV. rewrite X in RV. by injection RV. }
    rewrite (g_row _ _ RA'). unfold look. cbn [src]. rewrite amap_lookup, aappend_old, X by done. cbn [fmap option_fmap option_map]. f_equal.
    assert (row_of R01 (also (also (newF a es p q k ps ss) D0 (N.to_nat p) (row_update a m es rp)) D0 (N.to_nat q) (row_update a m es rq) D0 (N.to_nat v) x)
      = if decide (others es m row = []) then row else others es m row ++ [N.of_nat c]) as E.
    { assert (newF a es p q k ps ss D0 (N.to_nat v) x = x) as E0.
      { unfold newF. rewrite decide_False by (intros [? _]; done). unfold off. by rewrite decide_False by (intros [? _]; done). }
      assert (row_of R01 (row_update a m es row x) = if decide (others es m row = []) then row else others es m row ++ [N.of_nat c]) as E1.
      { unfold row_update. case_decide; [exact RX|]. unfold row_of. cbn. unfold upd_fun. by rewrite decide_True. }
      unfold also. destruct V as [-> | ->].
      - rewrite (decide_False (P := D0 = D0 /\ N.to_nat p = N.to_nat q)) by lia. rewrite decide_True by done. rewrite E0.
        rewrite RP in RV. injection RV as ->. exact E1.
      - rewrite (decide_True (P := D0 = D0 /\ N.to_nat q = N.to_nat q)) by done. rewrite decide_False by lia. rewrite E0.
        rewrite RQ in RV. injection RV as ->. exact E1. }
    rewrite <- E. unfold allF, goneF. destruct (decide (D0 = D0 /\ N.of_nat (N.to_nat v) ∈ gone)); reflexivity.
  - cbn zeta. rewrite NM. rewrite (g_origin _ _ RA'), (g_end _ _ RA'), (g_active _ _ RA'), (g_hasupdateds _ _ RA'), (g_original _ _ RA') by done.
    rewrite !LK, new_cell_is. done.
  - destruct MS as (e & I & K). exists k, e. split; [|done]. rewrite NM, (g_marker _ _ RA'), LK, new_cell_is. done.
  - exists ss. split; [|exact SK]. rewrite NM, (g_row _ _ RA'), LK. cbn [src]. rewrite new_cell_is. done.
  - exists ps. split; [|exact PK]. rewrite NM, (g_row _ _ RA'), LK. cbn [src]. rewrite new_cell_is. done.
Qed.
End reads.

Lemma join_ok order order2 es p q gone original keep_sides m : reachable m -> can_join es p q gone original m ->
  (keep_sides = true -> sided es m) -> (forall l, order l ≡ₚ l) -> (forall l, order2 l ≡ₚ l) ->
  exists m' l, JoinEdges order order2 es [p; q] gone original keep_sides m = Ok (m', num D1 m, original ++ [l]) /\
    originals_of original es l /\ reachable m' /\ edges_joined es p q gone keep_sides m m'.
Proof.
  intros RM CJ SD O1 O2. destruct (rr_of m RM) as [a R]. pose proof (proj2 R) as RA.
  assert (forall d, num d m = anum d a) as NM by (intros d; apply (g_num _ _ RA)).
  pose proof (cj_original _ _ _ _ _ _ CJ) as LO. rewrite NM in LO.
  assert (forall e, e ∈ es -> is_cell D1 m e) as EL by (apply Forall_forall, (cj_edges _ _ _ _ _ _ CJ)).
  destruct (does_Append D1 1 a m R) as (m1 & EA & R1).
  destruct (retire_all a m R original LO es [] m1 (Harvest 0 [] [] [])) as (m2 & h & E2 & R2 & G); [done| | |].
  { eapply rr_aeq; [exact R1|apply off_nil]. }
  { split; cbn.
    - intros e k I. by apply elem_of_nil in I.
    - by left.
    - by exists [].
    - constructor.
    - intros x k I. by apply elem_of_nil in I.
    - intros x k (e & _ & I & _). by apply elem_of_nil in I.
    - constructor.
    - intros x. rewrite elem_of_nil. split; [done|]. intros (k & e & _ & I & _). by apply elem_of_nil in I. }
  cbn [app] in R2, G. pose proof (c_lt a) as CL.
  destruct (start_ok a m R es EL p q (h_marker h) m2 R2) as (m3 & E3 & R3).
  destruct (neighbours_ok a m R es EL p q order order2 keep_sides original h (h_marker h) O1 O2 G SD) as (ps & ss & DN & PK & SK).
  destruct (DN m3 R3) as (m4 & E4 & R4).
  destruct (cj_ends _ _ _ _ _ _ CJ) as (PL & QL & PQ). unfold is_cell in PL, QL. rewrite NM in PL, QL.
  destruct (lookup_lt_is_Some_2 (am_cells a D0) (N.to_nat p)) as [xp XP]; [unfold anum in PL; lia|].
  destruct (lookup_lt_is_Some_2 (am_cells a D0) (N.to_nat q)) as [xq XQ]; [unfold anum in QL; lia|].
  assert (RelRow R01 (N.to_nat p) m = Ok (row_of R01 xp)) as RP by (rewrite (g_row _ _ RA); unfold look; cbn [src]; by rewrite XP).
  assert (RelRow R01 (N.to_nat q) m = Ok (row_of R01 xq)) as RQ by (rewrite (g_row _ _ RA); unfold look; cbn [src]; by rewrite XQ).
  set (F4 := newF a es p q (h_marker h) ps ss) in *.
  assert (forall i x, F4 D0 i x = x) as F40.
  { intros i x. unfold F4, newF. rewrite decide_False by (intros [? _]; done). unfold off. by rewrite decide_False by (intros [? _]; done). }
  assert (forall v, v = p \/ v = q -> forall row, RelRow R01 (N.to_nat v) m = Ok row -> N.of_nat (anum D1 a) ∉ row) as ST.
  { intros v V row H. rewrite <- NM. exact (cj_stale _ _ _ _ _ _ CJ v row V H). }
  destruct (end_ok a m R es EL F4 p 0 xp (row_of R01 xp)) with (m := m4) as (m5 & E5 & R5); [| exact XP | by rewrite F40 | exact (ST p (or_introl eq_refl) _ RP) | exact R4 |].
  { intros n RN. assert (am_cells (amap F4 (aappend D1 1 a)) D1 !! anum D1 a = Some (fresh p q (h_marker h) ps ss (new_cell D1 (length (am_names a D1))))) as X.
    { rewrite amap_lookup, aappend_new by lia. cbn [fmap option_fmap option_map]. f_equal. unfold F4, newF. by rewrite decide_True. }
    destruct (vertex_of n _ _ _ RN X) as [-> _]. done. }
  set (F5 := also F4 D0 (N.to_nat p) (row_update a m es (row_of R01 xp))) in *.
  destruct (end_ok a m R es EL F5 q 1 xq (row_of R01 xq)) with (m := m5) as (m6 & E6 & R6); [| exact XQ | | exact (ST q (or_intror eq_refl) _ RQ) | exact R5 |].
  { intros n RN. assert (am_cells (amap F5 (aappend D1 1 a)) D1 !! anum D1 a = Some (fresh p q (h_marker h) ps ss (new_cell D1 (length (am_names a D1))))) as X.
    { rewrite amap_lookup, aappend_new by lia. cbn [fmap option_fmap option_map]. f_equal. unfold F5, also. rewrite decide_False by (intros [? _]; done). unfold F4, newF. by rewrite decide_True. }
    destruct (vertex_of n _ _ _ RN X) as [_ ->]. done. }
  { unfold F5, also. rewrite decide_False by lia. by rewrite F40. }
  destruct (gone_ok a m R es EL (also F5 D0 (N.to_nat q) (row_update a m es (row_of R01 xq))) gone (cj_gone _ _ _ _ _ _ CJ) m6 R6) as (m7 & E7 & R7).
  exists m7, (h_original h).
  assert (JoinEdges order order2 es [p; q] gone original keep_sides m = Ok (m7, num D1 m, original ++ [h_original h])) as ->.
  { pose proof (cj_many _ _ _ _ _ _ CJ) as L2. unfold JoinEdges. destruct es as [|e1 [|e2 es']]; [cbn in L2; lia|cbn in L2; lia|].
    rewrite EA. cbn [mbind outcome_bind fst snd]. rewrite E2. cbn [mbind outcome_bind fst snd].
    rewrite <- LO. destruct (Nat.ltb_spec (length original) (length original + 1)); [|lia]. cbn [mbind outcome_bind].
    rewrite insert_app_r_alt by lia. rewrite Nat.sub_diag. cbn [insert list_insert].
    rewrite LO. apply bind_ok in E3 as (m21 & -> & E3). cbn [mbind outcome_bind]. apply bind_ok in E3 as (m22 & -> & E3). cbn [mbind outcome_bind]. rewrite E3.
    cbn [mbind outcome_bind]. rewrite E4. cbn [mbind outcome_bind ofold]. rewrite E5. cbn [mbind outcome_bind]. rewrite E6. cbn [mbind outcome_bind].
    rewrite E7. cbn [mbind outcome_bind]. by rewrite NM. }
  split; [done|]. split; [apply (ga_original _ _ _ _ G)|]. split; [apply R7|].
  eapply (all_read a m m7 R es p q gone (h_marker h) ps ss _ _ R7); [|exact RP|exact RQ| |apply (ga_most _ _ _ _ G)|exact PK|exact SK].
  - destruct CJ. split; try done. by rewrite replicate_length.
  - destruct (ga_some _ _ _ _ G) as [Z|H]; [|done]. pose proof (cj_many _ _ _ _ _ _ CJ) as L2.
    destruct es as [|e es']; [cbn in L2; lia|]. exists e. split; [left|].
    pose proof (EL e ltac:(left)) as L. unfold is_cell in L. rewrite NM in L.
    destruct (lookup_lt_is_Some_2 (am_cells a D1) (N.to_nat e)) as [x X]; [unfold anum in L; lia|].
    assert (Marker D1 (N.to_nat e) m = Ok (ac_mark x)) as MK by (rewrite (g_marker _ _ RA); unfold look; by rewrite X).
    pose proof (ga_most _ _ _ _ G e _ ltac:(left) MK). rewrite MK. f_equal. lia.
Qed.

Lemma join_abort order order2 es ends gone original keep_sides m : reachable m -> 2 <= length es -> Forall (is_cell D1 m) es ->
  length original = num D1 m -> length ends <> 2 -> JoinEdges order order2 es ends gone original keep_sides m = Abort.
Proof.
  intros RM L2 EL LO NE. destruct (rr_of m RM) as [a R]. pose proof (proj2 R) as RA. rewrite Forall_forall in EL.
  rewrite (g_num _ _ RA) in LO.
  destruct (does_Append D1 1 a m R) as (m1 & EA & R1).
  destruct (retire_all a m R original LO es [] m1 (Harvest 0 [] [] [])) as (m2 & h & E2 & R2 & G); [done| | |].
  { eapply rr_aeq; [exact R1|apply off_nil]. }
  { split; cbn.
    - intros e k I. by apply elem_of_nil in I.
    - by left.
    - by exists [].
    - constructor.
    - intros x k I. by apply elem_of_nil in I.
    - intros x k (e & _ & I & _). by apply elem_of_nil in I.
    - constructor.
    - intros x. rewrite elem_of_nil. split; [done|]. intros (k & e & _ & I & _). by apply elem_of_nil in I. }
  unfold JoinEdges. destruct es as [|e1 [|e2 es']]; [cbn in L2; lia|cbn in L2; lia|].
  rewrite EA. cbn [mbind outcome_bind fst snd]. rewrite E2. cbn [mbind outcome_bind fst snd].
  rewrite <- LO. destruct (Nat.ltb_spec (length original) (length original + 1)); [|lia]. cbn [mbind outcome_bind].
  destruct ends as [|x [|y [|z ends]]]; try done.
Qed.

Lemma join_few order order2 es ends gone original keep_sides m : length es < 2 ->
  exists c, JoinEdges order order2 es ends gone original keep_sides m = Ok (m, c, original) /\
    (es = [] -> c = num D1 m) /\ forall e, es = [e] -> c = N.to_nat e.
Proof.
  intros L. destruct es as [|e [|e' es]]; [| |cbn in L; lia].
  - exists (num D1 m). split_and!; done.
  - exists (N.to_nat e). split_and!; [done|done|]. by intros ? [= <-].
Qed.

(** Both calls, one after the other. *)
Lemma join_path order order2 m vs es es' a b original keep_sides : reachable m -> is_path m vs es -> es' ≡ₚ es -> NoDup es -> edges_exist es m -> 2 <= length es ->
  vs !! 0 = Some a -> last vs = Some b -> length original = num D1 m ->
  (forall v row, v = a \/ v = b -> RelRow R01 (N.to_nat v) m = Ok row -> N.of_nat (num D1 m) ∉ row) -> (keep_sides = true -> sided es' m) ->
  (forall l, order l ≡ₚ l) -> (forall l, order2 l ≡ₚ l) ->
  exists o t gone m' l, JoinedVertices order es' m = Ok ([o; t], gone) /\ ((o = a /\ t = b) \/ (o = b /\ t = a)) /\
    gone ≡ₚ take (length es - 1) (drop 1 vs) /\
    JoinEdges order order2 es' [o; t] gone original keep_sides m = Ok (m', num D1 m, original ++ [l]) /\
    originals_of original es' l /\ reachable m' /\ edges_joined es' o t gone keep_sides m m'.
Proof.
  intros RM P PE ND EX L A B LO ST SD O1 O2.
  destruct (joined_path order m vs es es' a b RM P PE EX L O1 A B) as (stay & gone & E & S & G).
  assert (forall v, v ∈ vs -> is_cell D0 m v) as VC.
  { intros v V. apply (path_touched m vs es v P ltac:(lia)) in V as (e & I & H). destruct (EX e I) as [_ EV]. by apply EV. }
  assert (a <> b) as AB.
  { intros ->. rewrite last_lookup, (pa_length _ _ _ P) in B. cbn [Nat.pred] in B. pose proof (NoDup_lookup _ _ _ _ (pa_vertices _ _ _ P) A B). lia. }
  assert (a ∈ vs /\ b ∈ vs) as [AV BV].
  { split; [by eapply elem_of_list_lookup_2|]. rewrite last_lookup in B. by eapply elem_of_list_lookup_2. }
  assert (exists o t, stay = [o; t] /\ ((o = a /\ t = b) \/ (o = b /\ t = a))) as (o & t & -> & OT).
  { apply Permutation_sym, Permutation_length_2_inv in S as [-> | ->]; [exists a, b|exists b, a]; tauto. }
  destruct (join_ok order order2 es' o t gone original keep_sides m RM) as (m' & l & E2 & LS & RM' & J); [|done..|].
  - split.
    + by rewrite PE.
    + by rewrite PE.
    + apply Forall_forall. intros e. rewrite PE. intros I. by apply EX.
    + destruct OT as [[-> ->]|[-> ->]]; split_and!; auto.
    + apply Forall_forall. intros v. rewrite G. intros V. apply VC. apply elem_of_list_lookup in V as [k K].
      apply lookup_take_Some in K as [K _]. rewrite lookup_drop in K. by eapply elem_of_list_lookup_2.
    + done.
    + intros v row V. apply ST. destruct OT as [[-> ->]|[-> ->]]; tauto.
  - by exists o, t, gone, m', l.
Qed.
