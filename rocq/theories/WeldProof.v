(** * Joining polygons in a mesh. *)
From Coq Require Import ZifyBool ZifyNat ZifyN.
From Verif Require Import Base BaseProof CsrModel MeshModel MeshSpec MeshRep MeshHist MeshProof MeshProof8 MeshProof9 MeshProg UtilProofD FillProofA
  JoinModel JoinSpec JoinProof JoinMesh JoinAll WeldModel WeldSpec.
Local Open Scope nat_scope.

Lemma take_bodies m f row : reachable m -> RelRow R23 f m = Ok row -> forall n j s, j + n = length row ->
  exists s', ofold (take_body f m) (seq j n) s = Ok s' /\ (NoDup s -> NoDup s') /\
    (forall p, p ∈ s' <-> p ∈ s \/ exists k, j <= k /\ row !! k = Some p /\ is_cell D3 m p).
Proof.
  intros RM H. destruct (row_reads m RM _ _ _ H) as [_ RD]. induction n as [|n IH]; intros j s L.
  - exists s. split_and!; [done|done|]. intros p. split; [tauto|]. intros [?|(k & K & E & _)]; [done|]. apply lookup_lt_Some in E. lia.
  - cbn [seq ofold]. destruct (lookup_lt_is_Some_2 row j) as [q Q]; [lia|].
    assert (take_body f m s j = if (q <? N.of_nat (num D3 m))%N then Ok (set_add q s) else Ok s) as ->.
    { unfold take_body. destruct (RD j q Q) as [-> ->]. done. }
    destruct (N.ltb_spec q (N.of_nat (num D3 m))) as [QL|QL]; cbn [mbind outcome_bind].
    + destruct (IH (S j) (set_add q s)) as (s' & -> & A1 & A2); [lia|]. exists s'. split; [done|]. split.
      * intros ND. by apply A1, set_add_nodup.
      * intros p. rewrite A2, set_add_elem. split.
        -- intros [[-> |X]|(k & K & X)]; [right; exists j; done|by left|right; exists k; split; [lia|done]].
        -- intros [X|(k & K & E & P)]; [tauto|]. destruct (decide (k = j)) as [-> |]; [left; left; congruence|].
           right. exists k. split; [lia|done].
    + destruct (IH (S j) s) as (s' & -> & A1 & A2); [lia|]. exists s'. split; [done|]. split; [done|].
      intros p. rewrite A2. split.
      * intros [X|(k & K & X)]; [by left|right; exists k; split; [lia|done]].
      * intros [X|(k & K & E & P)]; [tauto|]. destruct (decide (k = j)) as [-> |].
        -- rewrite Q in E. injection E as ->. unfold is_cell in P. lia.
        -- right. exists k. split; [lia|done].
Qed.

(** Everything collected from the polygons [fs] of [m]. *)
Record cropped (m : mesh) (original : list (list N)) (fs : list N) (h : crop) : Prop := {
  cp_most : forall f k, f ∈ fs -> Marker D2 (N.to_nat f) m = Ok k -> (k <= cr_marker h)%N;
  cp_some : cr_marker h = 0%N \/ exists f, f ∈ fs /\ Marker D2 (N.to_nat f) m = Ok (cr_marker h);
  cp_original : originals_of original fs (cr_original h);
  cp_once : NoDup (cr_solids h);
  cp_solids : forall p, p ∈ cr_solids h <-> exists k, around R23 fs m k p
}.

Section polygons.
Context (a : amesh) (m0 : mesh) (R0 : rr m0 a).
Notation c := (anum D2 a).
Notation b := (aappend D2 1 a).

Definition off2 (fs : list N) (d : dim) (i : nat) (x : acell) : acell :=
  if decide (d = D2 /\ N.of_nat i ∈ fs) then with_act false x else x.

Lemma num_b2 d : anum d b = anum d a + if decide (d = D2) then 1 else 0.
Proof. by rewrite aappend_num. Qed.
Lemma c_lt2 : c < anum D2 b.
Proof. rewrite num_b2, decide_True by done. lia. Qed.

Lemma off2_nil : aeq b (amap (off2 []) b).
Proof. apply (FillProofA.aeq_trans _ (amap keep b)); [apply amap_keep|]. apply amap_ext. intros d i x X. unfold off2, keep. rewrite decide_False; [apply ceq_refl|]. intros [_ H%elem_of_nil]. done. Qed.

Lemma off2_reads fs B (h : acell -> B) d i : i < anum d a -> (forall v x, h (with_act v x) = h x) ->
  look (amap (off2 fs) b) d i h = look a d i h.
Proof.
  intros L HA. unfold look. rewrite amap_lookup, aappend_old by done. destruct (am_cells a d !! i) as [x|]; [|done]. cbn [fmap option_fmap option_map].
  f_equal. unfold off2. case_decide; [apply HA|done].
Qed.

Lemma weld_one_ok original fs f m h : length original = c -> is_cell D2 m0 f -> rr m (amap (off2 fs) b) -> cropped m0 original fs h ->
  exists m' h', weld_one original (m, h) f = Ok (m', h') /\ rr m' (amap (off2 (fs ++ [f])) b) /\ cropped m0 original (fs ++ [f]) h'.
Proof.
  intros LO EL R G. pose proof (proj2 R0) as RA. unfold is_cell in EL. rewrite (g_num _ _ RA) in EL. cbn [fst snd].
  assert (N.to_nat f < c) as EL' by lia.
  assert (does (SetState D2 (N.to_nat f) false) (amap (off2 fs) b) (amap (off2 (fs ++ [f])) b)) as DS.
  { eapply does_aeq; [apply does_State; pose proof c_lt2; lia|]. apply amap_ext. intros d i x X. unfold also, off2.
    destruct (decide (d = D2 /\ i = N.to_nat f)) as [[-> ->]|NE].
    - rewrite N2Nat.id. rewrite (decide_True (P := D2 = D2 /\ f ∈ fs ++ [f])); [|split; [done|]; apply elem_of_app; right; by left].
      case_decide; apply ceq_refl.
    - destruct (decide (d = D2 /\ N.of_nat i ∈ fs)) as [[-> I]|NI].
      + rewrite decide_True; [apply ceq_refl|]. split; [done|]. apply elem_of_app. by left.
      + rewrite decide_False; [apply ceq_refl|]. intros [-> [I|I%elem_of_list_singleton]%elem_of_app]; [tauto|]. apply NE. split; [done|lia]. }
  unfold weld_one. cbn [fst snd]. destruct (DS m R) as (m1 & -> & R1). cbn [mbind outcome_bind]. pose proof (proj2 R1) as RA1.
  destruct (lookup_lt_is_Some_2 (am_cells a D2) (N.to_nat f) EL') as [x X].
  assert (Marker D2 (N.to_nat f) m0 = Ok (ac_mark x)) as MK0 by (rewrite (g_marker _ _ RA); unfold look; by rewrite X).
  assert (Marker D2 (N.to_nat f) m1 = Ok (ac_mark x)) as ->.
  { rewrite (g_marker _ _ RA1). rewrite off2_reads by done. unfold look. by rewrite X. }
  cbn [mbind outcome_bind].
  destruct (lookup_lt_is_Some_2 original (N.to_nat f)) as [l OL]; [lia|]. unfold vat at 1. rewrite OL. cbn [mbind outcome_bind].
  assert (RelRow R23 (N.to_nat f) m0 = Ok (row_of R23 x) /\ RelRow R23 (N.to_nat f) m1 = Ok (row_of R23 x)) as [W3 W3'].
  { rewrite (g_row _ _ RA), (g_row _ _ RA1). cbn [src]. rewrite off2_reads by done. unfold look. by rewrite X. }
  assert (num D3 m1 = num D3 m0) as NM.
  { rewrite (g_num _ _ RA1), (g_num _ _ RA), amap_num, num_b2, decide_False by done. lia. }
  rewrite (proj1 (row_reads m1 (proj1 R1) _ _ _ W3')). cbn [mbind outcome_bind]. rewrite !Nat2N.id.
  destruct (take_bodies m1 _ _ (proj1 R1) W3' (length (row_of R23 x)) 0 (cr_solids h) eq_refl) as (ss & -> & S1 & S2). cbn [mbind outcome_bind].
  unfold is_cell in S2. rewrite NM in S2.
  eexists _, _. split; [done|]. split; [done|].
  assert (AR : forall k p, around R23 [f] m0 k p <-> row_of R23 x !! k = Some p /\ is_cell D3 m0 p).
  { intros k p. unfold around. split.
    - intros (e' & row & ->%elem_of_list_singleton & H & K & P). rewrite W3 in H. injection H as <-. done.
    - intros [K P]. exists f, (row_of R23 x). split; [by left|]. split; [done|done]. }
  destruct G as [G1 G2 G3 G7 G8]. split; cbn [cr_marker cr_original cr_solids].
  - intros e' k [I|I%elem_of_list_singleton]%elem_of_app K; [specialize (G1 e' k I K); destruct (N.ltb_spec (cr_marker h) (ac_mark x)); lia|].
    subst e'. rewrite MK0 in K. injection K as <-. destruct (N.ltb_spec (cr_marker h) (ac_mark x)); lia.
  - destruct (N.ltb_spec (cr_marker h) (ac_mark x)).
    + right. exists f. split; [apply elem_of_app; right; by left|done].
    + destruct G2 as [G2|(e' & I & K)]; [by left|right]. exists e'. split; [apply elem_of_app; by left|done].
  - destruct G3 as (ls & F & ->). exists (ls ++ [l]). split; [by apply Forall2_app; [|repeat constructor]|].
    rewrite concat_app. cbn. by rewrite app_nil_r.
  - by apply S1.
  - intros p. rewrite S2, G8. setoid_rewrite around_cons. setoid_rewrite AR. split.
    + intros [[k K]|(k & _ & K & P)]; exists k; [by left|by right].
    + intros (k & [K|[K P]]); [left; by exists k|right]. exists k. split; [lia|done].
Qed.

Lemma weld_all original : length original = c -> forall rest fs m h, (forall f, f ∈ rest -> is_cell D2 m0 f) ->
  rr m (amap (off2 fs) b) -> cropped m0 original fs h ->
  exists m' h', ofold (weld_one original) rest (m, h) = Ok (m', h') /\ rr m' (amap (off2 (fs ++ rest)) b) /\ cropped m0 original (fs ++ rest) h'.
Proof.
  intros LO. induction rest as [|f rest IH]; intros fs m h SUB R G.
  - exists m, h. by rewrite app_nil_r.
  - cbn [ofold]. destruct (weld_one_ok original fs f m h) as (m1 & h1 & -> & R1 & G1); [done|apply SUB; left|done|done|]. cbn [mbind outcome_bind].
    destruct (IH (fs ++ [f]) m1 h1) as (m2 & h2 & E2 & R2 & G2); [intros e' I; apply SUB; by right|done|done|].
    rewrite <- app_assoc in R2, G2. exists m2, h2. done.
Qed.
End polygons.

Lemma other_polygons_ok m fs v row : reachable m -> RelRow R02 v m = Ok row -> forall n j l, j + n = length row ->
  ofold (other_polygons fs v m) (seq j n) l = Ok (l ++ others2 fs m (drop j row)).
Proof.
  intros RM H. destruct (row_reads m RM _ _ _ H) as [_ RD]. induction n as [|n IH]; intros j l L.
  - rewrite drop_ge by lia. cbn. by rewrite app_nil_r.
  - cbn [seq ofold]. destruct (lookup_lt_is_Some_2 row j) as [q Q]; [lia|]. rewrite (drop_S _ _ _ Q). unfold others2. rewrite filter_cons. fold (others2 fs m (drop (S j) row)).
    assert (other_polygons fs v m l j = Ok (if decide ((q < N.of_nat (num D2 m))%N /\ q ∉ fs) then l ++ [q] else l)) as ->.
    { unfold other_polygons. destruct (RD j q Q) as [-> ->]. cbn [mbind outcome_bind tgt]. destruct (N.ltb_spec q (N.of_nat (num D2 m))).
      - case_bool_decide; case_decide; tauto.
      - rewrite decide_False by lia. done. }
    cbn [mbind outcome_bind]. rewrite IH by lia. case_decide; [by rewrite <- app_assoc|done].
Qed.

Section tail.
Context (a : amesh) (m0 : mesh) (R0 : rr m0 a) (fs : list N) (FL : forall f, f ∈ fs -> is_cell D2 m0 f).
Notation c := (anum D2 a).
Notation b := (aappend D2 1 a).
Context (vs es : list N).

Definition fresh2 (k : N) (ss : list N) (x : acell) : acell :=
  with_row R23 ss (with_act true (with_mark k (with_row E2 es (with_row V2 vs x)))).
Definition newF2 (k : N) (ss : list N) (d : dim) (i : nat) (x : acell) : acell :=
  if decide (d = D2 /\ i = c) then fresh2 k ss x else off2 fs d i x.

Lemma c_new2 : N.of_nat c ∉ fs.
Proof. intros I%FL. unfold is_cell in I. rewrite (g_num _ _ (proj2 R0)) in I. lia. Qed.
Lemma off2_c x : off2 fs D2 c x = x.
Proof. unfold off2. rewrite decide_False; [done|]. intros [_ I]. by apply c_new2. Qed.

Lemma start2_ok k : Forall (is_cell D0 m0) vs -> Forall (is_cell D1 m0) es ->
  does (fun m => m ← RelAdd V2 c vs m; m ← RelAdd E2 c es m; m ← SetMarker D2 c k m; SetState D2 c true m) (amap (off2 fs) b) (amap (newF2 k []) b).
Proof.
  intros V E. pose proof (c_lt2 a) as CL. eapply does_aeq.
  - eapply does_bind.
    { apply (does_Add _ _ V2); [exact CL|done|]. cbn [tgt]. rewrite num_b2, decide_False by done. eapply Forall_impl; [exact V|]. intros v L. unfold is_cell in L. rewrite (g_num _ _ (proj2 R0)) in L. lia. }
    eapply does_bind.
    { apply (does_Add _ _ E2); [exact CL|done|]. cbn [tgt]. rewrite num_b2, decide_False by done. eapply Forall_impl; [exact E|]. intros v L. unfold is_cell in L. rewrite (g_num _ _ (proj2 R0)) in L. lia. }
    eapply does_bind; [apply does_Marker; exact CL|]. apply does_State; exact CL.
  - apply amap_ext. intros d i x X. cbn [src]. unfold also, newF2. destruct (decide (d = D2 /\ i = c)) as [[-> ->]|NE]; [|apply ceq_refl].
    rewrite off2_c. rewrite aappend_new in X by lia. injection X as <-. repeat split. intros r. cbn. unfold upd_fun. repeat case_decide; subst; done.
Qed.

Lemma solids2_ok k ss : all_below (anum D3 a) ss -> does (RelAdd R23 c ss) (amap (newF2 k []) b) (amap (newF2 k ss) b).
Proof.
  intros H. pose proof (c_lt2 a) as CL. eapply does_aeq.
  - apply (does_Add _ _ R23); [exact CL|done|]. cbn [tgt]. rewrite num_b2, decide_False by done. by rewrite Nat.add_0_r.
  - apply amap_ext. intros d i x X. cbn [src]. unfold also, newF2. destruct (decide (d = D2 /\ i = c)) as [[-> ->]|NE]; [|apply ceq_refl].
    repeat split. intros r. unfold fresh2. cbn. unfold upd_fun. repeat case_decide; subst; done.
Qed.

Definition row_update2 (y : acell) : acell :=
  with_row R02 (if decide (others2 fs m0 (ac_rel y R02) = []) then ac_rel y R02 else others2 fs m0 (ac_rel y R02) ++ [N.of_nat c]) y.

Lemma same_row r y : ceq (with_row r (ac_rel y r) y) y.
Proof. repeat split. intros r'. cbn. unfold upd_fun. by case_decide; subst. Qed.

Lemma corner_ok F v k x : (forall m, rr m (amap F b) -> RelGet V2 c k m = Ok v) ->
  am_cells a D0 !! N.to_nat v = Some x -> N.of_nat c ∉ ac_rel (F D0 (N.to_nat v) x) R02 ->
  does (fun m => update_corner fs c m k) (amap F b) (amap (also F D0 (N.to_nat v) row_update2) b).
Proof.
  intros V X CN. pose proof (lookup_lt_Some _ _ _ X) as XL. fold (anum D0 a) in XL.
  set (row := ac_rel (F D0 (N.to_nat v) x) R02) in *.
  assert (forall m, rr m (amap F b) -> update_corner fs c m k = match others2 fs m0 row with [] => Ok m | l => RelAdd R02 (N.to_nat v) (l ++ [N.of_nat c]) m end) as E.
  { intros m R. unfold update_corner. rewrite (V m R). cbn [mbind outcome_bind].
    assert (RelRow R02 (N.to_nat v) m = Ok row) as H. { rewrite (g_row _ _ (proj2 R)). unfold look. cbn [src]. rewrite amap_lookup, aappend_old, X by done. done. }
    rewrite (proj1 (row_reads m (proj1 R) _ _ _ H)). cbn [mbind outcome_bind]. rewrite Nat2N.id.
    rewrite (other_polygons_ok m fs _ _ (proj1 R) H _ 0 []) by done. cbn [mbind outcome_bind app]. rewrite drop_0.
    assert (others2 fs m row = others2 fs m0 row) as ->; [|by destruct (others2 fs m0 row)].
    unfold others2. apply filter_same. intros e I. rewrite (g_num _ _ (proj2 R)), (g_num _ _ (proj2 R0)), amap_num, num_b2, decide_True by done.
    split; intros [? ?]; (split; [|done]); [|lia]. assert (e <> N.of_nat c) by (by intros ->). lia. }
  assert (forall i y, am_cells b D0 !! i = Some y -> i = N.to_nat v -> y = x) as YX.
  { intros i y Y ->. rewrite aappend_old in Y by done. congruence. }
  eapply does_ext; [exact E|]. destruct (others2 fs m0 row) as [|e l] eqn:O.
  - eapply does_aeq; [apply does_ret|]. apply amap_ext. intros d i y Y. unfold also. destruct (decide (d = D0 /\ i = N.to_nat v)) as [[-> ->]|NE]; [|apply ceq_refl].
    rewrite (YX _ _ Y eq_refl). unfold row_update2. fold row. rewrite O. rewrite (decide_True (P := @nil N = [])) by done. apply ceq_sym, same_row.
  - eapply does_aeq.
    + apply (does_Add F b R02 (N.to_nat v)); [cbn [src]; rewrite num_b2; lia|done|]. cbn [tgt]. rewrite num_b2, decide_True by done.
      apply Forall_app. split.
      * rewrite <- O. apply Forall_forall. intros e' I. unfold others2 in I. apply elem_of_list_filter in I as [[I _] _]. rewrite (g_num _ _ (proj2 R0)) in I. lia.
      * constructor; [lia|constructor].
    + apply amap_ext. intros d i y Y. cbn [src]. unfold also. destruct (decide (d = D0 /\ i = N.to_nat v)) as [[-> ->]|NE]; [|apply ceq_refl].
      rewrite (YX _ _ Y eq_refl). unfold row_update2. fold row. rewrite O. rewrite (decide_False (P := e :: l = [])) by done. apply ceq_refl.
Qed.

Definition cornersF (F : dim -> nat -> acell -> acell) (l : list N) (d : dim) (i : nat) (x : acell) : acell :=
  if decide (d = D0 /\ N.of_nat i ∈ l) then row_update2 (F d i x) else F d i x.

Lemma corners_ok F : (forall i x, F D0 i x = x) -> (forall x, ac_rel (F D2 c x) V2 = vs) -> Forall (is_cell D0 m0) vs -> NoDup vs ->
  (forall v row, v ∈ vs -> RelRow R02 (N.to_nat v) m0 = Ok row -> N.of_nat c ∉ row) ->
  does (fun m => n ← RelNumber V2 c m; ofold (update_corner fs c) (seq 0 (N.to_nat n)) m) (amap F b) (amap (cornersF F vs) b).
Proof.
  intros F0 FV VC ND ST.
  assert (forall l m, rr m (amap (cornersF F l) b) -> RelRow V2 c m = Ok vs) as RW.
  { intros l m R. rewrite (g_row _ _ (proj2 R)). unfold look. cbn [src]. rewrite amap_lookup, aappend_new by lia. cbn [fmap option_fmap option_map].
    f_equal. unfold cornersF. rewrite decide_False by (intros [? _]; done). apply FV. }
  eapply does_aeq_l.
  { apply (amap_ext F (cornersF F [])). intros d i x X. unfold cornersF. rewrite decide_False; [apply ceq_refl|]. intros [_ I%elem_of_nil]. done. }
  eapply does_ext.
  { intros m R. rewrite (proj1 (row_reads m (proj1 R) _ _ _ (RW _ _ R))). cbn [mbind outcome_bind]. rewrite Nat2N.id. reflexivity. }
  pose proof (does_seq (update_corner fs c) (length vs) (fun i => amap (cornersF F (take i vs)) b)) as D.
  cbn beta in D. rewrite firstn_all in D. apply D. intros k K. destruct (lookup_lt_is_Some_2 vs k K) as [v V]. rewrite (take_S_r _ _ _ V).
  pose proof (Forall_lookup_1 _ _ _ _ VC V) as VL. unfold is_cell in VL. rewrite (g_num _ _ (proj2 R0)) in VL.
  destruct (lookup_lt_is_Some_2 (am_cells a D0) (N.to_nat v)) as [x X]; [unfold anum in VL; lia|].
  assert (v ∉ take k vs) as NV.
  { intros I. apply elem_of_list_lookup in I as [j J]. apply lookup_take_Some in J as [J JK]. pose proof (NoDup_lookup _ _ _ _ ND J V). lia. }
  eapply does_aeq.
  - apply (corner_ok (cornersF F (take k vs)) v k x); [|exact X|].
    + intros m R. by apply (row_reads m (proj1 R) _ _ _ (RW _ _ R)).
    + unfold cornersF. rewrite decide_False by (rewrite N2Nat.id; tauto). rewrite F0. apply (ST v); [by eapply elem_of_list_lookup_2|].
      rewrite (g_row _ _ (proj2 R0)). unfold look. cbn [src]. by rewrite X.
  - apply amap_ext. intros d i y Y. unfold also, cornersF. destruct (decide (d = D0 /\ i = N.to_nat v)) as [[-> ->]|NE].
    + rewrite N2Nat.id. rewrite (decide_False (P := D0 = D0 /\ v ∈ take k vs)) by tauto. rewrite decide_True; [apply ceq_refl|].
      split; [done|]. apply elem_of_app. right. by left.
    + destruct (decide (d = D0 /\ N.of_nat i ∈ take k vs)) as [[-> I]|NI].
      * rewrite decide_True; [apply ceq_refl|]. split; [done|]. apply elem_of_app. by left.
      * rewrite decide_False; [apply ceq_refl|]. intros [-> [I|I%elem_of_list_singleton]%elem_of_app]; [tauto|]. apply NE. split; [done|lia].
Qed.

(** ** Edges *)
Definition swapped (y : acell) : acell := with_row R12 (renamed fs (N.of_nat c) (ac_rel y R12)) y.

Lemma renamed_twice row : renamed fs (N.of_nat c) (renamed fs (N.of_nat c) row) = renamed fs (N.of_nat c) row.
Proof.
  unfold renamed. rewrite <- list_fmap_compose. apply list_fmap_ext. intros i f _. cbn. destruct (decide (f ∈ fs)) as [I|I].
  - by rewrite decide_False by apply c_new2.
  - by rewrite decide_False.
Qed.

Lemma swap_ok F e x : am_cells a D1 !! e = Some x ->
  does (fun m => n ← RelNumber R12 e m; ofold (swap_polygon fs c e) (seq 0 (N.to_nat n)) m) (amap F b) (amap (also F D1 e swapped) b).
Proof.
  intros X. pose proof (lookup_lt_Some _ _ _ X) as XL. fold (anum D1 a) in XL. set (row := ac_rel (F D1 e x) R12).
  set (G := fun k => also F D1 e (with_row R12 (renamed fs (N.of_nat c) (take k row) ++ drop k row))).
  assert (am_cells b D1 !! e = Some x) as XB by (by rewrite aappend_old).
  assert (forall k m, rr m (amap (G k) b) -> RelRow R12 e m = Ok (renamed fs (N.of_nat c) (take k row) ++ drop k row)) as RW.
  { intros k m R. rewrite (g_row _ _ (proj2 R)). unfold look. cbn [src]. rewrite amap_lookup, XB. cbn [fmap option_fmap option_map].
    unfold G, also. rewrite decide_True by done. unfold row_of. cbn. unfold upd_fun. by rewrite decide_True. }
  assert (forall m, rr m (amap F b) -> RelNumber R12 e m = Ok (N.of_nat (length row))) as RN.
  { intros m R. rewrite (g_count _ _ (proj2 R)). unfold look. cbn [src]. by rewrite amap_lookup, XB. }
  eapply does_ext. { intros m R. rewrite (RN m R). cbn [mbind outcome_bind]. rewrite Nat2N.id. reflexivity. }
  eapply does_aeq_l.
  { apply (amap_ext F (G 0)). intros d i y Y. unfold G, also. destruct (decide (d = D1 /\ i = e)) as [[-> ->]|NE]; [|apply ceq_refl].
    rewrite XB in Y. injection Y as <-. cbn [take renamed fmap list_fmap app]. rewrite drop_0. unfold row. apply ceq_sym, same_row. }
  eapply does_aeq; [apply (does_seq (swap_polygon fs c e) (length row) (fun k => amap (G k) b))|].
  - intros k K. destruct (lookup_lt_is_Some_2 row k K) as [f FK].
    assert (length (renamed fs (N.of_nat c) (take k row)) = k) as LR by (unfold renamed; rewrite fmap_length, take_length; lia).
    assert (forall m, rr m (amap (G k) b) -> swap_polygon fs c e m k = if decide (f ∈ fs) then RelInsert R12 e k (N.of_nat c) m else Ok m) as E.
    { intros m R. destruct (row_reads m (proj1 R) _ _ _ (RW k m R)) as [_ RD]. destruct (RD k f) as [HG HH].
      { rewrite lookup_app_r by lia. rewrite LR, Nat.sub_diag, lookup_drop. by rewrite Nat.add_0_r. }
      unfold swap_polygon. rewrite HH. cbn [mbind outcome_bind tgt]. rewrite HG. destruct (decide (f ∈ fs)) as [I|I].
      - pose proof (FL f I) as L. unfold is_cell in L. rewrite (g_num _ _ (proj2 R0)) in L.
        rewrite (g_num _ _ (proj2 R)), amap_num, num_b2, decide_True by done.
        destruct (N.ltb_spec f (N.of_nat (c + 1))); [|lia]. cbn [mbind outcome_bind]. by rewrite bool_decide_eq_true_2.
      - destruct (N.ltb_spec f (N.of_nat (num D2 m))); [|done]. cbn [mbind outcome_bind]. by rewrite bool_decide_eq_false_2. }
    eapply does_ext; [exact E|].
    assert (renamed fs (N.of_nat c) (take (S k) row) ++ drop (S k) row =
      <[k := if decide (f ∈ fs) then N.of_nat c else f]> (renamed fs (N.of_nat c) (take k row) ++ drop k row)) as ST.
    { rewrite (take_S_r _ _ _ FK), (drop_S _ _ _ FK). rewrite insert_app_r_alt by lia. rewrite LR, Nat.sub_diag. cbn [insert list_insert].
      unfold renamed. rewrite fmap_app, <- app_assoc. done. }
    destruct (decide (f ∈ fs)) as [I|I].
    + eapply does_aeq.
      * apply (does_Insert (G k) b R12 e k (N.of_nat c) x); [exact XB| |].
        -- cbn [src]. unfold G, also. rewrite decide_True by done. cbn. unfold upd_fun. rewrite decide_True by done. rewrite app_length, LR, drop_length. lia.
        -- cbn [tgt]. rewrite num_b2, decide_True by done. lia.
      * apply amap_ext. intros d i y Y. cbn [src]. unfold G, also. destruct (decide (d = D1 /\ i = e)) as [[-> ->]|NE]; [|apply ceq_refl].
        rewrite ST. repeat split. intros r. cbn. unfold upd_fun. repeat case_decide; subst; done.
    + eapply does_aeq; [apply does_ret|]. apply amap_ext. intros d i y Y. unfold G, also. destruct (decide (d = D1 /\ i = e)) as [[-> ->]|NE]; [|apply ceq_refl].
      rewrite ST. rewrite list_insert_id; [apply ceq_refl|]. rewrite lookup_app_r by lia. rewrite LR, Nat.sub_diag, lookup_drop. by rewrite Nat.add_0_r.
  - apply amap_ext. intros d i y Y. unfold G, also. destruct (decide (d = D1 /\ i = e)) as [[-> ->]|NE]; [|apply ceq_refl].
    rewrite XB in Y. injection Y as <-. rewrite firstn_all, drop_all, app_nil_r. apply ceq_refl.
Qed.

Definition sidesF (F : dim -> nat -> acell -> acell) (l : list N) (d : dim) (i : nat) (x : acell) : acell :=
  if decide (d = D1 /\ N.of_nat i ∈ l) then swapped (F d i x) else F d i x.

Lemma sides2_ok F : (forall x, ac_rel (F D2 c x) E2 = es) -> Forall (is_cell D1 m0) es ->
  does (fun m => n ← RelNumber E2 c m; ofold (update_side fs c) (seq 0 (N.to_nat n)) m) (amap F b) (amap (sidesF F es) b).
Proof.
  intros FV VC.
  assert (forall l m, rr m (amap (sidesF F l) b) -> RelRow E2 c m = Ok es) as RW.
  { intros l m R. rewrite (g_row _ _ (proj2 R)). unfold look. cbn [src]. rewrite amap_lookup, aappend_new by lia. cbn [fmap option_fmap option_map].
    f_equal. unfold sidesF. rewrite decide_False by (intros [? _]; done). apply FV. }
  eapply does_aeq_l.
  { apply (amap_ext F (sidesF F [])). intros d i x X. unfold sidesF. rewrite decide_False; [apply ceq_refl|]. intros [_ I%elem_of_nil]. done. }
  eapply does_ext.
  { intros m R. rewrite (proj1 (row_reads m (proj1 R) _ _ _ (RW _ _ R))). cbn [mbind outcome_bind]. rewrite Nat2N.id. reflexivity. }
  pose proof (does_seq (update_side fs c) (length es) (fun i => amap (sidesF F (take i es)) b)) as D.
  cbn beta in D. rewrite firstn_all in D. apply D. intros k K. destruct (lookup_lt_is_Some_2 es k K) as [e V]. rewrite (take_S_r _ _ _ V).
  pose proof (Forall_lookup_1 _ _ _ _ VC V) as VL. unfold is_cell in VL. rewrite (g_num _ _ (proj2 R0)) in VL.
  destruct (lookup_lt_is_Some_2 (am_cells a D1) (N.to_nat e)) as [x X]; [unfold anum in VL; lia|].
  eapply does_ext.
  { intros m R. unfold update_side. rewrite (proj1 (proj2 (row_reads m (proj1 R) _ _ _ (RW _ _ R)) k e V)). cbn [mbind outcome_bind]. reflexivity. }
  eapply does_aeq; [apply (swap_ok (sidesF F (take k es)) (N.to_nat e) x X)|].
  apply amap_ext. intros d i y Y. unfold also, sidesF. destruct (decide (d = D1 /\ i = N.to_nat e)) as [[-> ->]|NE].
  - rewrite N2Nat.id. rewrite (decide_True (P := D1 = D1 /\ e ∈ take k es ++ [e])); [|split; [done|]; apply elem_of_app; right; by left].
    case_decide; [|apply ceq_refl]. repeat split. intros r. unfold swapped. cbn. unfold upd_fun. repeat case_decide; subst; try done. by apply renamed_twice.
  - destruct (decide (d = D1 /\ N.of_nat i ∈ take k es)) as [[-> I]|NI].
    + rewrite decide_True; [apply ceq_refl|]. split; [done|]. apply elem_of_app. by left.
    + rewrite decide_False; [apply ceq_refl|]. intros [-> [I|I%elem_of_list_singleton]%elem_of_app]; [tauto|]. apply NE. split; [done|lia].
Qed.

Definition lostF (dd : dim) (F : dim -> nat -> acell -> acell) (l : list N) (d : dim) (i : nat) (x : acell) : acell :=
  if decide (d = dd /\ N.of_nat i ∈ l) then with_act false (F d i x) else F d i x.
Lemma lost_ok dd F l : Forall (is_cell dd m0) l -> does (ofold (fun m v => SetState dd (N.to_nat v) false m) l) (amap F b) (amap (lostF dd F l) b).
Proof.
  intros H. eapply does_aeq_l.
  { apply (amap_ext F (lostF dd F [])). intros d i x X. unfold lostF. rewrite decide_False; [apply ceq_refl|]. intros [_ I%elem_of_nil]. done. }
  pose proof (does_loop (fun m v => SetState dd (N.to_nat v) false m) l (fun i => amap (lostF dd F (take i l)) b)) as D.
  cbn beta in D. rewrite firstn_all in D. apply D. intros k v V. rewrite (take_S_r _ _ _ V).
  eapply Forall_lookup_1 in H; [|exact V]. unfold is_cell in H. rewrite (g_num _ _ (proj2 R0)) in H.
  eapply does_aeq; [apply does_State; rewrite num_b2; lia|]. apply amap_ext. intros d i x X. unfold also, lostF.
  destruct (decide (d = dd /\ i = N.to_nat v)) as [[-> ->]|NE].
  - rewrite N2Nat.id. rewrite (decide_True (P := dd = dd /\ v ∈ take k l ++ [v])); [|split; [done|]; apply elem_of_app; right; by left].
    case_decide; apply ceq_refl.
  - destruct (decide (d = dd /\ N.of_nat i ∈ take k l)) as [[-> I]|NI].
    + rewrite decide_True; [apply ceq_refl|]. split; [done|]. apply elem_of_app. by left.
    + rewrite decide_False; [apply ceq_refl|]. intros [-> [I|I%elem_of_list_singleton]%elem_of_app]; [tauto|]. apply NE. split; [done|lia].
Qed.
End tail.
