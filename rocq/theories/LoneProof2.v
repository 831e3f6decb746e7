(** The mesh of one polygon is conforming and passes the checks. *)
From Coq Require Import QArith Qcanon.
From Verif Require Import Base BaseProof QcTac FillModel FillSpec GeoModel MapModel PointModel PointSpec PolyModel PolySpec HullModel HullSpec CsrModel MeshModel MeshSpec MeshHist
  UtilModel UtilSpec RefineModel RefineSpec CheckModel CheckSpec CheckProof LoneModel LoneSpec LoneProof.
From Coq Require Import ZifyBool ZifyNat ZifyN.
Local Open Scope nat_scope.

Lemma origin_lt m e v : Cell1DOrigin e m = Ok v -> e < num D1 m.
Proof. intros H. unfold Cell1DOrigin in H. apply bind_ok in H as (u & H & _). apply require_ok, Nat.ltb_lt in H. exact H. Qed.
Lemma end_lt m e v : Cell1DEnd e m = Ok v -> e < num D1 m.
Proof. intros H. unfold Cell1DEnd in H. apply bind_ok in H as (u & H & _). apply require_ok, Nat.ltb_lt in H. exact H. Qed.
Lemma coordinates_lt m e v : Cell0DCoordinates e m = Ok v -> e < num D0 m.
Proof. intros H. unfold Cell0DCoordinates in H. apply bind_ok in H as (u & H & _). apply require_ok, Nat.ltb_lt in H. exact H. Qed.
Lemma is_active_lt d m i : active d m i = true -> i < num d m.
Proof.
  unfold active. destruct (IsActive d i m) as [b| | | |] eqn:E; try done. intros ->. unfold IsActive in E.
  apply bind_ok in E as (u & E & _). apply require_ok, Nat.ltb_lt in E. exact E.
Qed.

Section lone.
Context (pts : list (N * N * N)) (mark0 mark1 : nat -> N) (m : mesh) (L : lone pts mark0 mark1 m) (R : reachable m).
Context (H2 : 2 < length pts) (Hf : (N.of_nat (length pts) < UINT_MAX)%N).
Notation n := (length pts).
Notation numbers := (N.of_nat <$> seq 0 n).
Notation sides := ((fun i => (N.of_nat i, N.of_nat i)) <$> seq 0 n).
Notation nxt i := (if decide (i + 1 = n) then 0 else i + 1).

Lemma lone_num : num D0 m = n /\ num D1 m = n /\ num D2 m = 1.
Proof. destruct L as [_ [? _] [? _] [? _] _ _ _ _ _ _ _ _]. done. Qed.

Lemma lone_active d i : d <> D3 -> i < num d m -> active d m i = true.
Proof.
  intros Hd Hi. unfold active. destruct L as [_ [N0 P0] [N1 P1] [N2 P2] _ _ _ _ _ _ _ _]. destruct d; try done.
  - rewrite N0 in Hi. by destruct (P0 i Hi) as (-> & _).
  - rewrite N1 in Hi. by destruct (P1 i Hi) as (-> & _).
  - rewrite N2 in Hi. by destruct (P2 i Hi) as (-> & _).
Qed.

Lemma lone_ends i : i < n -> Cell1DOrigin i m = Ok (N.of_nat i) /\ Cell1DEnd i m = Ok (N.of_nat (nxt i)).
Proof. intros Hi. destruct (ln_ends _ _ _ _ L i Hi) as [-> ->]. split; [done|]. by case_decide. Qed.

Lemma numbers_at k e : numbers !! k = Some e -> e = N.of_nat k /\ k < n.
Proof. rewrite list_lookup_fmap. destruct (seq 0 n !! k) as [j|] eqn:E; [|done]. apply lookup_seq in E as [-> E]. intros [= <-]. done. Qed.
Lemma numbers_lookup k : k < n -> numbers !! k = Some (N.of_nat k).
Proof. intros Hk. by rewrite list_lookup_fmap, lookup_seq_lt. Qed.
Lemma numbers_len : length numbers = n.
Proof. by rewrite fmap_length, seq_length. Qed.
Lemma numbers_nodup : NoDup numbers.
Proof. apply NoDup_fmap; [intros x y; lia|apply NoDup_seq]. Qed.
Lemma next_mod k : k < n -> (k + 1) mod n = nxt k.
Proof. intros Hk. case_decide as E; [by rewrite E, Nat.mod_same by lia|]. by rewrite Nat.mod_small by lia. Qed.

Lemma sides_split : sides.*1 = numbers /\ sides.*2 = numbers.
Proof. split; rewrite <- list_fmap_compose; done. Qed.
Lemma lone_polygon : polygon m 0 sides.
Proof. unfold polygon. destruct sides_split as [-> ->]. split; [apply (ln_vertices _ _ _ _ L)|apply (ln_sides _ _ _ _ L)]. Qed.
Lemma in_sides v e : (v, e) ∈ sides <-> exists i, i < n /\ v = N.of_nat i /\ e = N.of_nat i.
Proof.
  rewrite elem_of_list_fmap. split.
  - intros (i & E & [_ H]%elem_of_seq). injection E as -> ->. by exists i.
  - intros (i & H & -> & ->). exists i. split; [done|]. apply elem_of_seq. lia.
Qed.
Lemma polygon_only c l : polygon m c l -> c = 0 /\ l = sides.
Proof.
  intros [V E]. pose proof (row_lt m R V2 c _ V) as Hc. cbn [src] in Hc. destruct lone_num as (_ & _ & N2). rewrite N2 in Hc.
  assert (c = 0) as -> by lia. split; [done|]. rewrite (ln_vertices _ _ _ _ L) in V. rewrite (ln_sides _ _ _ _ L) in E.
  injection V as V. injection E as E. rewrite <- (zip_fst_snd l), <- V, <- E. apply list_eq. intros i.
  rewrite lookup_zip_with, !list_lookup_fmap. by destruct (seq 0 n !! i).
Qed.

Lemma lone_joins k : k < n -> joins m (N.of_nat k) (N.of_nat k) (N.of_nat (nxt k)).
Proof. intros Hk. left. rewrite Nat2N.id. by apply lone_ends. Qed.

Lemma lone_chain : closed_chain m sides.
Proof.
  destruct sides_split as [S1 S2]. destruct lone_num as (N0 & N1 & _). split_and!.
  - rewrite fmap_length, seq_length. lia.
  - rewrite S1. apply numbers_nodup.
  - rewrite S2. apply numbers_nodup.
  - intros v e (i & Hi & -> & ->)%in_sides. rewrite !Nat2N.id. split; apply lone_active; (done || lia).
  - intros p v e w e' Hp Hq. rewrite list_lookup_fmap in Hp, Hq. rewrite fmap_length, seq_length in Hq.
    destruct (seq 0 n !! p) as [i|] eqn:E; [|done]. apply lookup_seq in E as [-> Hlt]. rewrite Nat.add_0_l in *. cbn in Hp. injection Hp as <- <-.
    rewrite next_mod in Hq by done. destruct (seq 0 n !! _) as [j|] eqn:E; [|done]. apply lookup_seq in E as [-> _]. injection Hq as <- <-.
    by apply lone_joins.
Qed.

Lemma lone_conforming : conforming m.
Proof.
  destruct lone_num as (N0 & N1 & N2). split.
  - intros c Hc. apply is_active_lt in Hc. rewrite N2 in Hc. assert (c = 0) as -> by lia. split.
    + destruct L as [_ _ _ [_ P] _ _ _ _ _ _ _ _]. by destruct (P 0 ltac:(lia)) as (_ & _ & H & _).
    + exists sides. split; [apply lone_polygon|apply lone_chain].
  - intros e He. apply is_active_lt in He. rewrite N1 in He. destruct (lone_ends e He) as [E1 E2].
    exists (N.of_nat e), (N.of_nat (nxt e)), UINT_MAX, 0%N. split; [done|]. split; [done|]. rewrite !Nat2N.id.
    split; [apply lone_active; [done|lia]|]. split; [apply lone_active; [done|case_decide; lia]|].
    split; [apply (ln_neighbours _ _ _ _ L e He)|]. split; split.
    + intros c _ (l & v & P & Ev & M). destruct (polygon_only _ _ P) as [-> ->]. apply in_sides in M as (i & Hi & -> & Hv).
      apply Nat2N.inj in Hv. subst i. rewrite E2 in Ev. injection Ev as Ev. apply Nat2N.inj in Ev. case_decide; lia.
    + by left.
    + intros c Hc _. apply is_active_lt in Hc. lia.
    + right. exists 0. split; [done|]. split; [apply lone_active; [done|lia]|]. exists sides, (N.of_nat e). split; [apply lone_polygon|].
      split; [done|]. apply in_sides. by exists e.
Qed.

(** ** The checks *)
Context (A : arith) (Ap : forall i j p q, i <> j -> pts !! i = Some p -> pts !! j = Some q -> apart (geo A) (point_of A p) (point_of A q)).
Context (Ac : accepted (geo A) (point_of A <$> pts)).
Context (Ar : (MinTolerance (geo A) < CheckSpec.signed_area (point_of A <$> pts) /\ qabs (Tolerance2D A) < CheckSpec.signed_area (point_of A <$> pts))%Qc).

Lemma lone_placed v p : placed A m v p <-> exists c, pts !! v = Some c /\ p = point_of A c.
Proof.
  split.
  - intros (x & y & z & C & ->). pose proof (coordinates_lt _ _ _ C) as Hv. destruct lone_num as (N0 & _). rewrite N0 in Hv.
    destruct (lookup_lt_is_Some_2 pts v Hv) as [c Hc]. exists c. split; [done|]. rewrite (ln_at _ _ _ _ L v c Hc) in C. by injection C as ->.
  - intros (c & Hc & ->). exists c.1.1, c.1.2, c.2. split; [|done]. rewrite (ln_at _ _ _ _ L v c Hc). by destruct c as [[? ?] ?].
Qed.

Lemma lone_plane k : plane_mesh A k m.
Proof.
  destruct lone_num as (N0 & N1 & N2). split.
  - apply (ln_dim _ _ _ _ L).
  - intros _. split; [lia|]. intros v p (c & Hc & ->)%lone_placed. destruct Ac as [_ F]. rewrite Forall_fmap, Forall_lookup in F. apply (F v c Hc).
  - intros _ v w p q Hvw (c & Hc & ->)%lone_placed (d & Hd & ->)%lone_placed. by apply (Ap v w).
  - intros e He. rewrite N1 in He. exists (N.of_nat e), (N.of_nat (nxt e)). split; [by apply lone_ends|]. unfold exists_in. rewrite N0.
    split; [lia|]. split; [case_decide; lia|]. split; [case_decide; lia|]. intros f Hfe J. unfold joins in J. rewrite Nat2N.id in J.
    assert (Hlf : f < n) by (destruct J as [[J _]|[J _]]; apply origin_lt in J; lia). destruct (lone_ends f Hlf) as [F1 F2]. rewrite F1, F2 in J.
    destruct J as [[J1 _]|[J1 J2]]; [injection J1 as J1; lia|]. injection J1 as J1. injection J2 as J2. repeat case_decide; lia.
  - intros _ e He. rewrite N1 in He. exists [UINT_MAX; 0%N]. split; [by apply (ln_neighbours _ _ _ _ L)|]. split; [done|].
    intros c _ Hc. rewrite N2 in Hc. assert (c = 0) as -> by lia.
    exists numbers, numbers, e, (N.of_nat e), (N.of_nat (nxt e)). rewrite (ln_vertices _ _ _ _ L), (ln_sides _ _ _ _ L). split_and!; try done.
    + apply Forall_fmap, Forall_forall. intros i [_ Hi]%elem_of_seq. unfold exists_in. cbn. lia.
    + by apply numbers_lookup.
    + intros j Hj Hx. apply numbers_at in Hx as [Hx _]. lia.
    + by apply numbers_lookup.
    + rewrite numbers_len, next_mod by done. apply numbers_lookup. case_decide; lia.
    + by apply lone_joins.
  - intros _ e o t p q [E1 E2] (c & Hc & ->)%lone_placed (d & Hd & ->)%lone_placed. pose proof (origin_lt _ _ _ E1) as He. rewrite N1 in He.
    destruct (lone_ends e He) as [F1 F2]. rewrite F1 in E1. rewrite F2 in E2. injection E1 as <-. injection E2 as <-. rewrite Nat2N.id in Hc, Hd.
    apply (Ap e (nxt e)); [case_decide; lia|done..].
  - intros _ c Hc. rewrite N2 in Hc. assert (c = 0) as -> by lia. exists numbers, numbers. rewrite (ln_vertices _ _ _ _ L), (ln_sides _ _ _ _ L).
    split_and!; try done.
    + apply numbers_nodup.
    + apply Forall_fmap, Forall_forall. intros i [_ Hi]%elem_of_seq. unfold exists_in. cbn. lia.
    + intros j e v w [-> Hj]%numbers_at [-> _]%numbers_at Hw. rewrite numbers_len, next_mod in Hw by done. apply numbers_at in Hw as [-> _].
      by apply lone_joins.
  - intros _ c d Hcd vs vs' es es' V V' _ _. apply (row_lt m R V2) in V. apply (row_lt m R V2) in V'. cbn [src] in V, V'. lia.
  - intros _ c Hc. rewrite N2 in Hc. assert (c = 0) as -> by lia. exists (point_of A <$> pts). split; [|by split].
    exists numbers. split; [apply (ln_vertices _ _ _ _ L)|]. apply Forall2_same_length_lookup. rewrite numbers_len, fmap_length. split; [done|].
    intros i x y [-> _]%numbers_at. rewrite list_lookup_fmap. intros (c & Hc' & ->)%fmap_Some. apply lone_placed. rewrite Nat2N.id. by exists c.
Qed.

Lemma lone_balanced : balanced m.
Proof.
  intros c vs es V E. pose proof (row_lt m R V2 c _ V) as Hc. cbn [src] in Hc. destruct lone_num as (_ & _ & N2). rewrite N2 in Hc.
  assert (c = 0) as -> by lia. rewrite (ln_vertices _ _ _ _ L) in V. rewrite (ln_sides _ _ _ _ L) in E. injection V as <-. injection E as <-. done.
Qed.
End lone.
