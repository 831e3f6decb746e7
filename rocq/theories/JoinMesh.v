(** * Joining edges in a mesh. *)
From Coq Require Import ZifyBool ZifyNat ZifyN.
From Verif Require Import Base BaseProof CsrModel MeshModel MeshSpec MeshRep MeshHist MeshProof MeshProof8 MeshProof9 MeshProg UtilProofD FillProofA
  JoinModel JoinSpec JoinProof.
Local Open Scope nat_scope.

(** ** What is collected *)
Lemma take_polygons m e row : reachable m -> RelRow R12 e m = Ok row -> forall n j s, j + n = length row ->
  exists s', ofold (take_polygon e m) (seq j n) s = Ok s' /\ (NoDup (s.*1) -> NoDup (s'.*1)) /\ (forall q, q ∈ s -> q ∈ s') /\
    (forall p k, (p, k) ∈ s' -> (p, k) ∈ s \/ (row !! k = Some p /\ is_cell D2 m p)) /\
    (forall p k, j <= k -> row !! k = Some p -> is_cell D2 m p -> p ∈ s'.*1).
Proof.
  intros RM H. destruct (row_reads m RM _ _ _ H) as [_ RD]. induction n as [|n IH]; intros j s L.
  - exists s. split_and!; [done|done|done|tauto|]. intros p k K E. apply lookup_lt_Some in E. lia.
  - cbn [seq ofold]. destruct (lookup_lt_is_Some_2 row j) as [q Q]; [lia|].
    assert (take_polygon e m s j = if (q <? N.of_nat (num D2 m))%N then Ok (if bool_decide (q ∈ s.*1) then s else s ++ [(q, j)]) else Ok s) as ->.
    { unfold take_polygon. destruct (RD j q Q) as [-> ->]. done. }
    assert (exists s1, (if (q <? N.of_nat (num D2 m))%N then Ok (if bool_decide (q ∈ s.*1) then s else s ++ [(q, j)]) else Ok s) = Ok s1 /\
      (NoDup (s.*1) -> NoDup (s1.*1)) /\ (forall q, q ∈ s -> q ∈ s1) /\
      (forall p k, (p, k) ∈ s1 -> (p, k) ∈ s \/ (row !! k = Some p /\ is_cell D2 m p)) /\ (is_cell D2 m q -> q ∈ s1.*1)) as (s1 & E1 & A1 & A2 & A3 & A4).
    { destruct (N.ltb_spec q (N.of_nat (num D2 m))) as [QL|QL].
      - case_bool_decide as I.
        + exists s. split_and!; try done. tauto.
        + exists (s ++ [(q, j)]). split; [done|]. rewrite fmap_app. split_and!.
          * intros ND. apply NoDup_app. split_and!; [done| |apply NoDup_singleton]. intros x X ->%elem_of_list_singleton. done.
          * intros x X. apply elem_of_app. by left.
          * intros p k [PK|[= -> ->]%elem_of_list_singleton]%elem_of_app; [by left|by right].
          * intros _. apply elem_of_app. right. by left.
      - exists s. split_and!; try done; [tauto|]. unfold is_cell. lia. }
    rewrite E1. cbn [mbind outcome_bind]. destruct (IH (S j) s1) as (s' & -> & B1 & B2 & B3 & B4); [lia|]. exists s'. split; [done|]. split_and!.
    + tauto.
    + intros x X. by apply B2, A2.
    + intros p k X. destruct (B3 p k X) as [X'|X']; [by apply A3|by right].
    + intros p k JK K P. destruct (decide (k = j)) as [-> |].
      * rewrite Q in K. injection K as ->. specialize (A4 P). apply elem_of_list_fmap in A4 as (x & -> & X). apply elem_of_list_fmap_1. by apply B2.
      * apply (B4 p k); [lia|done|done].
Qed.

Lemma take_solids m e row : reachable m -> RelRow R13 e m = Ok row -> forall n j s, j + n = length row ->
  exists s', ofold (take_solid e m) (seq j n) s = Ok s' /\ (NoDup s -> NoDup s') /\
    (forall p, p ∈ s' <-> p ∈ s \/ exists k, j <= k /\ row !! k = Some p /\ is_cell D3 m p).
Proof.
  intros RM H. destruct (row_reads m RM _ _ _ H) as [_ RD]. induction n as [|n IH]; intros j s L.
  - exists s. split_and!; [done|done|]. intros p. split; [tauto|]. intros [?|(k & K & E & _)]; [done|]. apply lookup_lt_Some in E. lia.
  - cbn [seq ofold]. destruct (lookup_lt_is_Some_2 row j) as [q Q]; [lia|].
    assert (take_solid e m s j = if (q <? N.of_nat (num D3 m))%N then Ok (set_add q s) else Ok s) as ->.
    { unfold take_solid. destruct (RD j q Q) as [-> ->]. done. }
    destruct (N.ltb_spec q (N.of_nat (num D3 m))) as [QL|QL]; cbn [mbind outcome_bind].
    + destruct (IH (S j) (set_add q s)) as (s' & -> & A1 & A2); [lia|]. exists s'. split; [done|]. split.
      * intros ND. by apply A1, set_add_nodup.
      * intros p. rewrite A2, set_add_elem. split.
        -- intros [[-> |X]|(k & K & X)]; [right; exists j; done|by left|right; exists k; split; [lia|done]].
        -- intros [X|(k & K & E & P)]; [tauto|]. destruct (decide (k = j)) as [-> |]; [left; left; congruence|].
           right. exists k. split; [lia|done].
    + destruct (IH (S j) s) as (s' & -> & A1 & A2); [lia|]. exists s'. split; [done|]. split; [done|].
      intros p. rewrite A2. split.
      * intros [X|(k & K & X)]; [by left|right; exists k; split; [lia|done]].
      * intros [X|(k & K & E & P)]; [tauto|]. destruct (decide (k = j)) as [-> |].
        -- rewrite Q in E. injection E as ->. unfold is_cell in P. lia.
        -- right. exists k. split; [lia|done].
Qed.

(** Everything collected from the edges [es] of [m]. *)
Record gathered (m : mesh) (original : list (list N)) (es : list N) (h : harvest) : Prop := {
  ga_most : forall e k, e ∈ es -> Marker D1 (N.to_nat e) m = Ok k -> (k <= h_marker h)%N;
  ga_some : h_marker h = 0%N \/ exists e, e ∈ es /\ Marker D1 (N.to_nat e) m = Ok (h_marker h);
  ga_original : originals_of original es (h_original h);
  ga_once2 : NoDup ((h_polygons h).*1);
  ga_found : forall p k, (p, k) ∈ h_polygons h -> around R12 es m k p;
  ga_all : forall p k, around R12 es m k p -> p ∈ (h_polygons h).*1;
  ga_once3 : NoDup (h_solids h);
  ga_solids : forall p, p ∈ h_solids h <-> exists k, around R13 es m k p
}.

Section edges.
Context (a : amesh) (m0 : mesh) (R0 : rr m0 a).
Notation c := (anum D1 a).
Notation b := (aappend D1 1 a).

Definition off (es : list N) (d : dim) (i : nat) (x : acell) : acell :=
  if decide (d = D1 /\ N.of_nat i ∈ es) then with_act false x else x.

Lemma num_b d : anum d b = anum d a + if decide (d = D1) then 1 else 0.
Proof. by rewrite aappend_num. Qed.
Lemma c_lt : c < anum D1 b.
Proof. rewrite num_b, decide_True by done. lia. Qed.

Lemma off_nil : aeq b (amap (off []) b).
Proof. apply (FillProofA.aeq_trans _ (amap keep b)); [apply amap_keep|]. apply amap_ext. intros d i x X. unfold off, keep. rewrite decide_False; [apply ceq_refl|]. intros [_ H%elem_of_nil]. done. Qed.

Lemma off_reads es m B (h : acell -> B) d i : rr m (amap (off es) b) -> i < anum d a -> (forall v x, h (with_act v x) = h x) ->
  look (amap (off es) b) d i h = look a d i h.
Proof.
  intros R L HA. unfold look. rewrite amap_lookup, aappend_old by done. destruct (am_cells a d !! i) as [x|]; [|done]. cbn [fmap option_fmap option_map].
  f_equal. unfold off. case_decide; [apply HA|done].
Qed.

Lemma around_cons r es e m k p : around r (es ++ [e]) m k p <-> around r es m k p \/ around r [e] m k p.
Proof.
  unfold around. split.
  - intros (e' & row & [I|I]%elem_of_app & H); [left|right]; by exists e', row.
  - intros [(e' & row & I & H)|(e' & row & I & H)]; exists e', row; (split; [apply elem_of_app|done]); tauto.
Qed.

Lemma retire_one_ok original es e m h : length original = c -> is_cell D1 m0 e -> rr m (amap (off es) b) -> gathered m0 original es h ->
  exists m' h', retire_one original (m, h) e = Ok (m', h') /\ rr m' (amap (off (es ++ [e])) b) /\ gathered m0 original (es ++ [e]) h'.
Proof.
  intros LO EL R G. pose proof (proj2 R0) as RA. unfold is_cell in EL. rewrite (g_num _ _ RA) in EL. cbn [fst snd].
  assert (N.to_nat e < c) as EL' by lia.
  assert (does (SetState D1 (N.to_nat e) false) (amap (off es) b) (amap (off (es ++ [e])) b)) as DS.
  { eapply does_aeq; [apply does_State; pose proof c_lt; lia|]. apply amap_ext. intros d i x X. unfold also, off.
    destruct (decide (d = D1 /\ i = N.to_nat e)) as [[-> ->]|NE].
    - rewrite N2Nat.id. rewrite (decide_True (P := D1 = D1 /\ e ∈ es ++ [e])); [|split; [done|]; apply elem_of_app; right; by left].
      case_decide; apply ceq_refl.
    - destruct (decide (d = D1 /\ N.of_nat i ∈ es)) as [[-> I]|NI].
      + rewrite decide_True; [apply ceq_refl|]. split; [done|]. apply elem_of_app. by left.
      + rewrite decide_False; [apply ceq_refl|]. intros [-> [I|I%elem_of_list_singleton]%elem_of_app]; [tauto|]. apply NE. split; [done|lia]. }
  unfold retire_one. cbn [fst snd]. destruct (DS m R) as (m1 & -> & R1). cbn [mbind outcome_bind]. pose proof (proj2 R1) as RA1.
  destruct (lookup_lt_is_Some_2 (am_cells a D1) (N.to_nat e) EL') as [x X].
  assert (Marker D1 (N.to_nat e) m0 = Ok (ac_mark x)) as MK0 by (rewrite (g_marker _ _ RA); unfold look; by rewrite X).
  assert (Marker D1 (N.to_nat e) m1 = Ok (ac_mark x)) as ->.
  { rewrite (g_marker _ _ RA1). rewrite (off_reads _ m1) by done. unfold look. by rewrite X. }
  cbn [mbind outcome_bind].
  destruct (lookup_lt_is_Some_2 original (N.to_nat e)) as [l OL]; [lia|]. unfold vat at 1. rewrite OL. cbn [mbind outcome_bind].
  assert (forall r, src r = D1 -> RelRow r (N.to_nat e) m0 = Ok (row_of r x) /\ RelRow r (N.to_nat e) m1 = Ok (row_of r x)) as RW.
  { intros r S. rewrite (g_row _ _ RA), (g_row _ _ RA1), S. rewrite (off_reads _ m1) by done. unfold look. by rewrite X. }
  assert (forall d, d <> D1 -> num d m1 = num d m0) as NM.
  { intros d ND. rewrite (g_num _ _ RA1), (g_num _ _ RA), amap_num, num_b, decide_False by done. lia. }
  destruct (RW R12 eq_refl) as [W2 W2']. destruct (RW R13 eq_refl) as [W3 W3'].
  rewrite (proj1 (row_reads m1 (proj1 R1) _ _ _ W2')), (proj1 (row_reads m1 (proj1 R1) _ _ _ W3')). cbn [mbind outcome_bind]. rewrite !Nat2N.id.
  destruct (take_polygons m1 _ _ (proj1 R1) W2' (length (row_of R12 x)) 0 (h_polygons h) eq_refl) as (ps & -> & P1 & P2 & P3 & P4). cbn [mbind outcome_bind].
  destruct (take_solids m1 _ _ (proj1 R1) W3' (length (row_of R13 x)) 0 (h_solids h) eq_refl) as (ss & -> & S1 & S2). cbn [mbind outcome_bind].
  unfold is_cell in P3, P4, S2. rewrite NM in P3, P4, S2 by done.
  eexists _, _. split; [done|]. split; [done|].
  assert (AR : forall r k p, src r = D1 -> around r [e] m0 k p <-> row_of r x !! k = Some p /\ is_cell (tgt r) m0 p).
  { intros r k p SR. unfold around. split.
    - intros (e' & row & ->%elem_of_list_singleton & H & K & P). rewrite (proj1 (RW r SR)) in H. injection H as <-. done.
    - intros [K P]. exists e, (row_of r x). split; [by left|]. split; [by apply RW|done]. }
  destruct G as [G1 G2 G3 G4 G5 G6 G7 G8]. split; cbn [h_marker h_original h_polygons h_solids].
  - intros e' k [I|I%elem_of_list_singleton]%elem_of_app K; [specialize (G1 e' k I K); destruct (N.ltb_spec (h_marker h) (ac_mark x)); lia|].
    subst e'. rewrite MK0 in K. injection K as <-. destruct (N.ltb_spec (h_marker h) (ac_mark x)); lia.
  - destruct (N.ltb_spec (h_marker h) (ac_mark x)).
    + right. exists e. split; [apply elem_of_app; right; by left|done].
    + destruct G2 as [G2|(e' & I & K)]; [by left|right]. exists e'. split; [apply elem_of_app; by left|done].
  - destruct G3 as (ls & F & ->). exists (ls ++ [l]). split; [by apply Forall2_app; [|repeat constructor]|].
    rewrite concat_app. cbn. by rewrite app_nil_r.
  - by apply P1.
  - intros p k K. rewrite around_cons, AR by done. destruct (P3 p k K) as [K'|K']; [left; by apply G5|by right].
  - intros p k K. rewrite around_cons, AR in K by done. destruct K as [K|[K P]].
    + specialize (G6 p k K). apply elem_of_list_fmap in G6 as (y & -> & Y). apply elem_of_list_fmap_1. by apply P2.
    + apply (P4 p k); [lia|done|exact P].
  - by apply S1.
  - intros p. rewrite S2, G8. setoid_rewrite around_cons. setoid_rewrite AR; [|done..]. split.
    + intros [[k K]|(k & _ & K & P)]; exists k; [by left|by right].
    + intros (k & [K|[K P]]); [left; by exists k|right]. exists k. split; [lia|done].
Qed.

Lemma retire_all original : length original = c -> forall rest es m h, (forall e, e ∈ rest -> is_cell D1 m0 e) ->
  rr m (amap (off es) b) -> gathered m0 original es h ->
  exists m' h', ofold (retire_one original) rest (m, h) = Ok (m', h') /\ rr m' (amap (off (es ++ rest)) b) /\ gathered m0 original (es ++ rest) h'.
Proof.
  intros LO. induction rest as [|e rest IH]; intros es m h SUB R G.
  - exists m, h. by rewrite app_nil_r.
  - cbn [ofold]. destruct (retire_one_ok original es e m h) as (m1 & h1 & -> & R1 & G1); [done|apply SUB; left|done|done|]. cbn [mbind outcome_bind].
    destruct (IH (es ++ [e]) m1 h1) as (m2 & h2 & E2 & R2 & G2); [intros e' I; apply SUB; by right|done|done|].
    rewrite <- app_assoc in R2, G2. exists m2, h2. done.
Qed.
End edges.
