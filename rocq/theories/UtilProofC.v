(** Extraction of the active mesh, seen through the queries. *)
From Verif Require Import Base BaseProof CsrModel CsrSpec CsrProof MeshModel MeshSpec MeshRep MeshHist
  MeshProof MeshProof2 MeshProof3 MeshProof4 MeshProof5 MeshProof6 MeshProof7 MeshProof8 MeshProof9 MeshProofA MeshProofB
  MeshProg MeshWit UtilModel UtilSpec UtilProofA UtilProofB.
From Coq Require Import ZifyBool ZifyNat ZifyN Sorted.

Lemma extract_inv m m' dat :
  reachable m -> (forall d, N.of_nat (num d m) <= UINT_MAX)%N -> ExtractActiveMesh m no_active_data = Ok (m', dat) ->
  exists a b, rr m a /\ rr m' b /\ renamed (fun d i => old_to_new dat d !! i) a b /\
    forall d, maps_ok a d (anum d a) (old_to_new dat d) (new_to_old dat d).
Proof.
  intros Hm Hmax E. destruct (rr_of m Hm) as [a Ha].
  destruct (extract_ok m a Ha) as (m1 & b & dat1 & E1 & Hb & Hren & Hmaps).
  { intros d. rewrite <- (g_num _ _ (proj2 Ha)). apply Hmax. }
  rewrite E in E1. injection E1 as <- <-. by exists a, b.
Qed.

Lemma extract_succeeds m :
  reachable m -> (forall d, N.of_nat (num d m) <= UINT_MAX)%N ->
  exists m' dat, ExtractActiveMesh m no_active_data = Ok (m', dat) /\ reachable m'.
Proof.
  intros Hm Hmax. destruct (rr_of m Hm) as [a Ha].
  destruct (extract_ok m a Ha) as (m1 & b & dat1 & E1 & Hb & _).
  { intros d. rewrite <- (g_num _ _ (proj2 Ha)). apply Hmax. }
  exists m1, dat1. split; [done|apply Hb].
Qed.

Lemma active_true m a d i : represents m a -> aact a d i = true <-> IsActive d i m = Ok true.
Proof.
  intros H. unfold aact. rewrite (g_active _ _ H). unfold look. destruct (am_cells a d !! i) as [x|]; [|done].
  destruct (ac_act x); done.
Qed.

Lemma extract_maps m m' dat :
  reachable m -> (forall d, N.of_nat (num d m) <= UINT_MAX)%N -> ExtractActiveMesh m no_active_data = Ok (m', dat) ->
  forall d,
    (forall i j, old_to_new dat d !! i = Some j <-> i < num d m /\ IsActive d i m = Ok true /\ j = rank d m i) /\
    (forall i j, new_to_old dat d !! j = Some i <-> old_to_new dat d !! i = Some j) /\
    num d m' = rank d m (num d m) /\
    (forall j, (exists i, new_to_old dat d !! j = Some i) <-> j < num d m') /\
    (forall i j i' j', old_to_new dat d !! i = Some j -> old_to_new dat d !! i' = Some j' -> i < i' -> j < j').
Proof.
  intros Hm Hmax E d. destruct (extract_inv m m' dat Hm Hmax E) as (a & b & Ha & Hb & Hren & Hmaps).
  destruct (Hmaps d) as [Hu Hv].
  rewrite (g_num _ _ (proj2 Ha)), (g_num _ _ (proj2 Hb)), (rank_arank _ _ _ _ (proj2 Ha)).
  assert (Hon : forall j, (exists i, new_to_old dat d !! j = Some i) <-> j < anum d b).
  { intros j. split.
    - intros [i Hi]. apply Hv in Hi. apply Hu in Hi. apply (rn_range _ _ _ Hren) in Hi as [_ ?]. done.
    - intros Hj. destruct (rn_onto _ _ _ Hren d j Hj) as [i Hi]. exists i. apply Hv. by apply Hu. }
  split_and!.
  - intros i j. rewrite Hu, (active_true _ _ _ _ (proj2 Ha)). by rewrite (rank_arank _ _ _ _ (proj2 Ha)).
  - intros i j. by rewrite Hu, Hv.
  - assert (Hlt : forall j, j < arank a d (anum d a) <-> exists i, new_to_old dat d !! j = Some i).
    { intros j. split.
      - generalize (le_n (anum d a)). generalize (anum d a) at 1 3 as n. intros n. induction n as [|n IH]; [cbn; lia|].
        intros Hn. rewrite arank_S. destruct (aact a d n) eqn:En; [|rewrite Nat.add_0_r; intros; by apply IH; [lia|]].
        intros Hj. destruct (decide (j = arank a d n)) as [->|]; [|apply IH; lia].
        exists n. apply Hv. split_and!; [lia|done|done].
      - intros [i Hi]. apply Hv in Hi as (Hi & Hai & ->). by apply arank_lt. }
    destruct (Nat.lt_trichotomy (anum d b) (arank a d (anum d a))) as [H|[H|H]]; [|done|].
    + apply Hlt in H. apply Hon in H. lia.
    + apply Hon in H. apply Hlt in H. lia.
  - exact Hon.
  - intros i j i' j'. apply (rn_mono _ _ _ Hren d).
Qed.

Lemma look_renamed {B} f a b d i j (g h : acell -> B) :
  renamed f a b -> f d i = Some j ->
  (forall x y, cell_ren f (fun d => anum d a) (fun d => anum d b) d x y -> h y = g x) ->
  look b d j h = look a d i g.
Proof.
  intros H Hf Hg. unfold look. destruct (rn_range _ _ _ H _ _ _ Hf) as [Hi _].
  destruct (lookup_lt_is_Some_2 (am_cells a d) i Hi) as [x Hx].
  destruct (rn_cell _ _ _ H d i j x Hf Hx) as (y & Hy & C). rewrite Hx, Hy. f_equal. by apply Hg.
Qed.

Lemma extract_attributes m m' dat d i j :
  reachable m -> (forall d, N.of_nat (num d m) <= UINT_MAX)%N -> ExtractActiveMesh m no_active_data = Ok (m', dat) ->
  old_to_new dat d !! i = Some j ->
  Marker d j m' = Marker d i m /\ IsActive d j m' = Ok true /\
  (d = D0 -> Cell0DCoordinates j m' = Cell0DCoordinates i m) /\
  (forall p, PropSize d j p m' = PropSize d i p m) /\ (forall p k, PropValue d j p k m' = PropValue d i p k m).
Proof.
  intros Hm Hmax E Hij. destruct (extract_inv m m' dat Hm Hmax E) as (a & b & [_ Ha] & [_ Hb] & Hren & Hmaps).
  destruct (rn_range _ _ _ Hren _ _ _ Hij) as [Hi Hj].
  destruct (lookup_lt_is_Some_2 (am_cells a d) i Hi) as [x Hx].
  destruct (rn_cell _ _ _ Hren d i j x Hij Hx) as (y & Hy & C).
  split_and!.
  - rewrite (g_marker _ _ Ha), (g_marker _ _ Hb). eapply look_renamed; [done..|]. intros x' y' C'. apply C'.
  - rewrite (g_active _ _ Hb). unfold look. rewrite Hy. f_equal. rewrite (cr_act _ _ _ _ _ _ C).
    destruct (Hmaps d) as [Hu _]. pose proof (proj1 (Hu i j) Hij) as (_ & Hact & _). unfold aact in Hact. by rewrite Hx in Hact.
  - intros ->. rewrite (g_coord _ _ Ha), (g_coord _ _ Hb). eapply look_renamed; [done..|]. intros x' y' C'. unfold geo_triple.
    by rewrite (cr_geo _ _ _ _ _ _ C').
  - intros p. rewrite (g_propsize _ _ Ha), (g_propsize _ _ Hb), Hx, Hy, (rn_names _ _ _ Hren). unfold prop_of.
    by rewrite (cr_prop _ _ _ _ _ _ C).
  - intros p k. rewrite (g_propvalue _ _ Ha), (g_propvalue _ _ Hb), Hx, Hy, (rn_names _ _ _ Hren). unfold prop_of.
    by rewrite (cr_prop _ _ _ _ _ _ C).
Qed.

Lemma ref_ren_renamed (f : dim -> gmap nat nat) a b m' d v w :
  renamed (fun d i => f d !! i) a b -> represents m' b ->
  ref_ren (fun i => f d !! i) (anum d a) (anum d b) v w -> ref_renamed (f d) d m' v w.
Proof.
  intros Hren Hb. unfold ref_ren, ref_renamed. rewrite (g_num _ _ Hb).
  destruct (decide (v < N.of_nat (anum d a))%N) as [Hv|Hv].
  - destruct (f d !! N.to_nat v) as [j|] eqn:Ej.
    + intros ->. left. exists (N.to_nat v), j. split_and!; [lia|done|done].
    + intros Hw. right. split; [|done]. intros i ->. by rewrite Nat2N.id in Ej.
  - intros Hw. right. split; [|done]. intros i ->. destruct (f d !! i) as [j|] eqn:Ej; [|done].
    apply (rn_range _ _ _ Hren d) in Ej as [? _]. lia.
Qed.

Lemma extract_rows m m' dat r i j :
  reachable m -> (forall d, N.of_nat (num d m) <= UINT_MAX)%N -> ExtractActiveMesh m no_active_data = Ok (m', dat) ->
  old_to_new dat (src r) !! i = Some j ->
  exists l l', RelRow r i m = Ok l /\ RelRow r j m' = Ok l' /\
    (r <> S2 -> Forall2 (ref_renamed (old_to_new dat (tgt r)) (tgt r) m') l l') /\ (r = S2 -> l' = l).
Proof.
  intros Hm Hmax E Hij. destruct (extract_inv m m' dat Hm Hmax E) as (a & b & [_ Ha] & [_ Hb] & Hren & Hmaps).
  destruct (rn_range _ _ _ Hren _ _ _ Hij) as [Hi Hj].
  destruct (lookup_lt_is_Some_2 (am_cells a (src r)) i Hi) as [x Hx].
  destruct (rn_cell _ _ _ Hren (src r) i j x Hij Hx) as (y & Hy & C).
  exists (ac_rel x r), (ac_rel y r). rewrite (g_row _ _ Ha), (g_row _ _ Hb). unfold look. rewrite Hx, Hy.
  split; [done|]. split; [done|]. split.
  - intros Hr. eapply Forall2_impl; [by apply (cr_rel _ _ _ _ _ _ C)|]. intros v w. by apply ref_ren_renamed.
  - intros ->. apply C.
Qed.

Lemma extract_extremes m m' dat e e' :
  reachable m -> (forall d, N.of_nat (num d m) <= UINT_MAX)%N -> ExtractActiveMesh m no_active_data = Ok (m', dat) ->
  old_to_new dat D1 !! e = Some e' ->
  exists o o' t t', Cell1DOrigin e m = Ok o /\ Cell1DOrigin e' m' = Ok o' /\ Cell1DEnd e m = Ok t /\ Cell1DEnd e' m' = Ok t' /\
    ref_renamed (old_to_new dat D0) D0 m' o o' /\ ref_renamed (old_to_new dat D0) D0 m' t t'.
Proof.
  intros Hm Hmax E Hij. destruct (extract_inv m m' dat Hm Hmax E) as (a & b & [_ Ha] & [_ Hb] & Hren & Hmaps).
  destruct (rn_range _ _ _ Hren _ _ _ Hij) as [Hi Hj].
  destruct (lookup_lt_is_Some_2 (am_cells a D1) e Hi) as [x Hx].
  destruct (rn_cell _ _ _ Hren D1 e e' x Hij Hx) as (y & Hy & C).
  destruct (geo2 m a Ha e x Hx) as (o & t & Hg). destruct (geo2 m' b Hb e' y Hy) as (o' & t' & Hg').
  exists o, o', t, t'. rewrite (g_origin _ _ Ha), (g_origin _ _ Hb), (g_end _ _ Ha), (g_end _ _ Hb). unfold look, geo_pair.
  rewrite Hx, Hy, Hg, Hg'. pose proof (cr_ext _ _ _ _ _ _ C eq_refl) as HF. rewrite Hg, Hg' in HF.
  inversion HF as [|? ? ? ? F1 F2]; subst. inversion F2 as [|? ? ? ? F3 _]; subst.
  split_and!; try done; by eapply (ref_ren_renamed (old_to_new dat)).
Qed.

Lemma extract_origin m m' dat d i j :
  reachable m -> (forall d, N.of_nat (num d m) <= UINT_MAX)%N -> ExtractActiveMesh m no_active_data = Ok (m', dat) ->
  d <> D0 -> old_to_new dat d !! i = Some j ->
  exists o o', Original d i m = Ok o /\ Original d j m' = Ok o' /\ ref_renamed (old_to_new dat d) d m' o o'.
Proof.
  intros Hm Hmax E Hd Hij. destruct (extract_inv m m' dat Hm Hmax E) as (a & b & [_ Ha] & [_ Hb] & Hren & Hmaps).
  destruct (rn_range _ _ _ Hren _ _ _ Hij) as [Hi Hj].
  destruct (lookup_lt_is_Some_2 (am_cells a d) i Hi) as [x Hx].
  destruct (rn_cell _ _ _ Hren d i j x Hij Hx) as (y & Hy & C).
  exists (ac_orig x), (ac_orig y). rewrite (g_original _ _ Ha), (g_original _ _ Hb) by done. unfold look. rewrite Hx, Hy.
  split_and!; [done..|]. eapply (ref_ren_renamed (old_to_new dat)); [done..|]. by apply (cr_orig _ _ _ _ _ _ C).
Qed.

Lemma extract_replaced m m' dat d i j :
  reachable m -> (forall d, N.of_nat (num d m) <= UINT_MAX)%N -> ExtractActiveMesh m no_active_data = Ok (m', dat) ->
  old_to_new dat d !! i = Some j ->
  forall k', replaced_by d m' j k' <-> exists k, old_to_new dat d !! k = Some k' /\ replaced_by d m i k.
Proof.
  intros Hm Hmax E Hij k'. destruct (extract_inv m m' dat Hm Hmax E) as (a & b & [_ Ha] & [_ Hb] & Hren & Hmaps).
  destruct (rn_range _ _ _ Hren _ _ _ Hij) as [Hi Hj].
  destruct (lookup_lt_is_Some_2 (am_cells a d) i Hi) as [x Hx].
  destruct (rn_cell _ _ _ Hren d i j x Hij Hx) as (y & Hy & C).
  assert (Hup : forall z v, (exists s, ac_upd z = Some s /\ v ∈ s) <-> v ∈ upds z).
  { intros z v. unfold upds. destruct (ac_upd z); cbn; [|set_solver]. split; [by intros (? & [= <-] & ?)|eauto]. }
  rewrite (replaced_by_abs _ _ _ _ _ Hb). split.
  - intros (_ & y' & s & Hy' & Hs & Hin). rewrite Hy in Hy'. injection Hy' as <-.
    assert (Hv : N.of_nat k' ∈ upds y) by (apply Hup; eauto).
    apply (cr_upd _ _ _ _ _ _ C) in Hv as (v & k & Hv & Hk & Ek). assert (k = k') as -> by lia.
    exists v. split; [done|]. rewrite (replaced_by_abs _ _ _ _ _ Ha).
    destruct (rn_range _ _ _ Hren _ _ _ Hk) as [Hvl _]. split; [done|]. apply Hup in Hv as (s' & ? & ?). by exists x, s'.
  - intros (k & Hk & Hr). apply (replaced_by_abs _ _ _ _ _ Ha) in Hr as (_ & x' & s & Hx' & Hs & Hin).
    rewrite Hx in Hx'. injection Hx' as <-.
    destruct (rn_range _ _ _ Hren _ _ _ Hk) as [_ Hkl]. split; [done|].
    assert (Hv : N.of_nat k' ∈ upds y).
    { apply (cr_upd _ _ _ _ _ _ C). exists k, k'. split_and!; [apply Hup; eauto|done|done]. }
    apply Hup in Hv as (s' & ? & ?). by exists y, s'.
Qed.

Lemma filter_active_ok m d : reachable m -> FilterActiveMesh d m = Ok (filter (fun i => active d m i = true) (seq 0 (num d m))).
Proof.
  intros Hm. destruct (rr_of m Hm) as [a [_ Ha]]. unfold FilterActiveMesh. rewrite (g_num _ _ Ha).
  generalize (le_n (anum d a)). generalize (anum d a) at 1 3 4 as n. intros n. induction n as [|n IH]; intros Hn; [done|].
  rewrite seq_snoc, ofold_app, IH by lia. cbn [mbind outcome_bind ofold].
  destruct (lookup_lt_is_Some_2 (am_cells a d) n ltac:(unfold anum in Hn; lia)) as [x Hx].
  rewrite filter_app, filter_cons, filter_nil. rewrite (active_aact _ _ _ _ Ha). unfold aact.
  rewrite (g_active _ _ Ha). unfold look. rewrite Hx. cbn [mbind outcome_bind].
  destruct (ac_act x); [by rewrite decide_True|]. rewrite decide_False by done. by rewrite app_nil_r.
Qed.

(** ** Concrete runs *)

(** Two triangles sharing an edge; vertex 0, the edges 0 and 3 and the first triangle are inactive. *)
Definition w_two : list op :=
  [OAppend D0 4; OCoordinates 0 10 0 0; OCoordinates 1 11 0 0; OCoordinates 2 12 0 0; OCoordinates 3 13 0 0;
   OAppend D1 5; OExtremes 0 0 1; OExtremes 1 1 2; OExtremes 2 2 0; OExtremes 3 1 3; OExtremes 4 3 2;
   OAppend D2 2; OAdd V2 0 [0; 1; 2]%N; OAdd E2 0 [0; 1; 2]%N; OAdd V2 1 [1; 3; 2]%N; OAdd E2 1 [3; 4; 1]%N;
   OMarker D0 2 7; OMarker D1 4 9; OUpdated D2 0 1;
   OState D0 0 true; OState D0 1 true; OState D0 2 true; OState D0 3 true;
   OState D1 0 true; OState D1 1 true; OState D1 2 true; OState D1 3 true; OState D1 4 true;
   OState D2 0 true; OState D2 1 true].
Definition w_part : list op := w_two ++ [OState D0 0 false; OState D1 0 false; OState D1 2 false; OState D2 0 false].

Lemma w_two_reachable : reachable (after w_two).
Proof. apply after_reachable, plain_allowed. done. Qed.
Lemma w_part_reachable : reachable (after w_part).
Proof. apply after_reachable, plain_allowed. done. Qed.

Definition extracted {A} (ops : list op) (f : mesh * active_data -> A) : outcome A :=
  m ← run ops empty_mesh; s ← ExtractActiveMesh m no_active_data; Ok (f s).

(** The maps of a previous extraction are not forgotten. *)
Lemma twice_run :
  (m1 ← run w_part empty_mesh; s1 ← ExtractActiveMesh m1 no_active_data;
   m2 ← run w_two empty_mesh; s2 ← ExtractActiveMesh m2 s1.2;
   Ok (old_to_new s2.2 D0 !! 1)) = Ok (Some 0).
Proof. vm_compute. reflexivity. Qed.
Lemma w_two_active : IsActive D0 1 (after w_two) = Ok true.
Proof. apply okq_after. vm_compute. done. Qed.
Lemma w_two_rank : (rank D0 (after w_two) 1 =? 1) = true.
Proof. vm_compute. done. Qed.

Lemma stale_maps :
  exists m0 m m1 m' dat dat' i j,
    reachable m0 /\ ExtractActiveMesh m0 no_active_data = Ok (m1, dat) /\
    reachable m /\ ExtractActiveMesh m dat = Ok (m', dat') /\ IsActive D0 i m = Ok true /\
    old_to_new dat' D0 !! i = Some j /\ j <> rank D0 m i.
Proof.
  pose proof twice_run as Ht.
  apply bind_ok in Ht as (m0 & E0 & Ht). apply bind_ok in Ht as ([m1 dat] & E1 & Ht).
  apply bind_ok in Ht as (m & E2 & Ht). apply bind_ok in Ht as ([m' dat'] & E3 & Ht). injection Ht as Ht.
  assert (Hm0 : m0 = after w_part) by (unfold after; by rewrite E0).
  assert (Hm : m = after w_two) by (unfold after; by rewrite E2).
  exists m0, m, m1, m', dat, dat', 1, 0. split_and!.
  - rewrite Hm0. apply w_part_reachable.
  - exact E1.
  - rewrite Hm. apply w_two_reachable.
  - exact E3.
  - rewrite Hm. apply w_two_active.
  - exact Ht.
  - rewrite Hm. pose proof w_two_rank. lia.
Qed.
