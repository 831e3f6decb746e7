(** Structured rectangles and triangles are conforming. *)
From Coq Require Import QArith Qcanon.
From Verif Require Import Base BaseProof CsrModel MeshModel MeshSpec MeshRep MeshHist MeshProg FillModel FillSpec FillProofA FillProofB GridModel GridSpec GridProofA GridProofB.
From Coq Require Import ZifyBool ZifyNat ZifyN.
Local Open Scope nat_scope.

(** ** From lists of cells to queries *)
Section lists.
  Context (n0 : nat) (p1 : list (N * N * N)) (p2 : list (list N * list N * N)).
  Definition ljoins (e a b : N) : Prop :=
    exists k, p1 !! N.to_nat e = Some (a, b, k) \/ p1 !! N.to_nat e = Some (b, a, k).
  Definition lclosed (k : nat) : Prop := forall c q, p2 !! c = Some q ->
    length q.1.1 = k /\ length q.1.2 = k /\ NoDup q.1.1 /\ NoDup q.1.2 /\
    forall v a b e, q.1.1 !! v = Some a -> q.1.1 !! ((v + 1) mod k) = Some b -> q.1.2 !! v = Some e -> ljoins e a b.
  Definition lborders (e c : nat) : Prop := exists q, p2 !! c = Some q /\ N.of_nat e ∈ q.1.2.
  Definition lshared : Prop := forall e x, p1 !! e = Some x -> exists cs, NoDup cs /\ (forall c, c ∈ cs <-> lborders e c) /\
    length cs = if (x.2 =? 0)%N then 2 else 1.
  Definition lsimple : Prop :=
    (forall e x, p1 !! e = Some x -> x.1.1 <> x.1.2 /\ N.to_nat x.1.1 < n0 /\ N.to_nat x.1.2 < n0) /\
    (forall e f x y, p1 !! e = Some x -> p1 !! f = Some y -> x.1 = y.1 \/ (x.1.1 = y.1.2 /\ x.1.2 = y.1.1) -> e = f).
  Definition lbelow : Prop := Forall (polygon_below n0 (length p1)) p2.
End lists.

Section reads.
  Context (p0 : list (N * N * N * N)) (p1 : list (N * N * N)) (p2 : list (list N * list N * N)) (p3 : list (polyhedron * N)) (m : mesh).
  Context (Hbal : Forall balanced p2).
  Context (R : reads_back (p0.*1) (p1.*1) (sides_of <$> p2) (p3.*1) (fun _ _ => true) (marks_of p0 p1 p2 p3) m).

  Lemma rd_num : num D0 m = length p0 /\ num D1 m = length p1 /\ num D2 m = length p2 /\ num D3 m = length p3.
  Proof.
    destruct R as ([H0 _] & [H1 _] & [H2 _] & [H3 _] & _). rewrite H0, H1, H2, H3, !fmap_length. done.
  Qed.
  Lemma rd_active : all_active m.
  Proof.
    intros d i Hi. destruct rd_num as (E0 & E1 & E2' & E3').
    destruct R as ([H0 A0] & [H1 A1] & [H2 A2] & [H3 A3] & _). destruct d.
    - apply A0. by rewrite <-H0. - apply A1. by rewrite <-H1. - apply A2. by rewrite <-H2. - apply A3. by rewrite <-H3.
  Qed.
  Lemma rd_marker d i : i < num d m -> Marker d i m = Ok (marks_of p0 p1 p2 p3 d i).
  Proof.
    intros Hi. destruct R as ([H0 A0] & [H1 A1] & [H2 A2] & [H3 A3] & _). destruct d.
    - apply A0. by rewrite <-H0. - apply A1. by rewrite <-H1. - apply A2. by rewrite <-H2. - apply A3. by rewrite <-H3.
  Qed.
  Lemma rd_point i q : p0 !! i = Some q -> Cell0DCoordinates i m = Ok q.1 /\ Marker D0 i m = Ok q.2.
  Proof.
    intros H. split.
    - destruct R as (_ & _ & _ & _ & C & _). apply C. by rewrite list_lookup_fmap, H.
    - rewrite rd_marker; [|destruct rd_num as [-> _]; by eapply lookup_lt_Some]. unfold marks_of. by rewrite H.
  Qed.
  Lemma rd_edge i q : p1 !! i = Some q -> Cell1DOrigin i m = Ok q.1.1 /\ Cell1DEnd i m = Ok q.1.2 /\ Marker D1 i m = Ok q.2.
  Proof.
    intros H. destruct R as (_ & _ & _ & _ & _ & C & _). destruct (C i q.1) as [C1 C2]; [by rewrite list_lookup_fmap, H|].
    split_and!; [done..|]. rewrite rd_marker; [|destruct rd_num as (_ & -> & _); by eapply lookup_lt_Some]. unfold marks_of. by rewrite H.
  Qed.
  Lemma rd_polygon i q : p2 !! i = Some q -> RelRow V2 i m = Ok q.1.1 /\ RelRow E2 i m = Ok q.1.2 /\ Marker D2 i m = Ok q.2.
  Proof.
    intros H. destruct R as (_ & _ & _ & _ & _ & _ & C & _). destruct (C i (sides_of q)) as (C1 & C2 & _); [by rewrite list_lookup_fmap, H|].
    pose proof (Forall_lookup_1 _ _ _ _ Hbal H) as B. unfold balanced in B. unfold sides_of in *. rewrite fst_zip in C1 by lia. rewrite snd_zip in C2 by lia.
    split_and!; [done..|]. rewrite rd_marker; [|destruct rd_num as (_ & _ & -> & _); by eapply lookup_lt_Some]. unfold marks_of. by rewrite H.
  Qed.
  Lemma rd_joins e a b : ljoins p1 e a b -> edge_joins m e a b.
  Proof.
    intros (k & [H|H]); destruct (rd_edge _ _ H) as (H1 & H2 & _); [by left|by right].
  Qed.
  Lemma rd_closed k c : lclosed p1 p2 k -> c < num D2 m -> closed_polygon k m c.
  Proof.
    intros L Hc. destruct rd_num as (_ & _ & E & _). rewrite E in Hc. destruct (lookup_lt_is_Some_2 p2 c Hc) as [q Hq].
    destruct (L c q Hq) as (L1 & L2 & L3 & L4 & L5). destruct (rd_polygon c q Hq) as (R1 & R2 & _).
    exists q.1.1, q.1.2. split_and!; [done..|]. intros v a b e Ha Hb He. apply rd_joins. by eapply L5.
  Qed.
  Lemma rd_borders e c : borders m e c <-> lborders p2 e c.
  Proof.
    destruct rd_num as (_ & _ & E & _). split.
    - intros (Hc & es & H1 & H2). rewrite E in Hc. destruct (lookup_lt_is_Some_2 p2 c Hc) as [q Hq]. exists q. split; [done|].
      destruct (rd_polygon c q Hq) as (_ & R2 & _). congruence.
    - intros (q & Hq & He). split; [rewrite E; by eapply lookup_lt_Some|]. exists q.1.2. split; [|done]. by apply rd_polygon.
  Qed.
  Lemma rd_shared : lshared p1 p2 -> two_sided m.
  Proof.
    intros L e He. destruct rd_num as (_ & E & _). rewrite E in He. destruct (lookup_lt_is_Some_2 p1 e He) as [x Hx].
    destruct (L e x Hx) as (cs & L1 & L2 & L3). exists x.2, cs. split_and!; [by apply (rd_edge e x)|done| |done].
    intros c. by rewrite rd_borders.
  Qed.
  Lemma rd_simple : lsimple (length p0) p1 -> simple_edges m.
  Proof.
    intros [L1 L2]. destruct rd_num as (E0 & E & _). split.
    - intros e He. rewrite E in He. destruct (lookup_lt_is_Some_2 p1 e He) as [x Hx]. destruct (rd_edge e x Hx) as (R1 & R2 & _).
      destruct (L1 e x Hx) as (? & ? & ?). exists x.1.1, x.1.2. rewrite E0. done.
    - intros e f a b He Hf J1 J2. rewrite E in He, Hf.
      destruct (lookup_lt_is_Some_2 p1 _ He) as [x Hx]. destruct (lookup_lt_is_Some_2 p1 _ Hf) as [y Hy].
      destruct (rd_edge _ x Hx) as (R1 & R2 & _). destruct (rd_edge _ y Hy) as (R3 & R4 & _).
      apply N2Nat.inj. eapply L2; [done|done|].
      unfold edge_joins in J1, J2. rewrite R1, R2 in J1. rewrite R3, R4 in J2.
      destruct J1 as [[[= K1] [= K2]]|[[= K1] [= K2]]], J2 as [[[= K3] [= K4]]|[[= K3] [= K4]]].
      + left. apply injective_projections; congruence.
      + right. split; congruence.
      + right. split; congruence.
      + left. apply injective_projections; congruence.
  Qed.
End reads.

(** The edges of a grid. *)
Lemma rd_marked p0 p1 p2 p3 m :
  reads_back (p0.*1) (p1.*1) (sides_of <$> p2) (p3.*1) (fun _ _ => true) (marks_of p0 p1 p2 p3) m ->
  forall e a b k, p1 !! e = Some (a, b, k) -> marked_edge m a b k.
Proof.
  intros R e a b k H. destruct (rd_num _ _ _ _ _ R) as (_ & N1 & _).
  exists (N.of_nat e). destruct (rd_edge _ _ _ _ _ R _ _ H) as (R1 & R2 & R3). unfold edge_joins. rewrite !Nat2N.id. split_and!; [|by left|done].
  rewrite N1. by eapply lookup_lt_Some.
Qed.
Lemma rd_grid_edges p0 p1 p2 p3 m w t :
  reads_back (p0.*1) (p1.*1) (sides_of <$> p2) (p3.*1) (fun _ _ => true) (marks_of p0 p1 p2 p3) m ->
  (forall h b, h <= t -> b < w -> p1 !! hor w h b = Some (N.of_nat (vtx w h b), N.of_nat (vtx w h (S b)), hmark t h)) ->
  (forall h b, h < t -> b <= w -> p1 !! ver w t h b = Some (N.of_nat (vtx w h b), N.of_nat (vtx w (S h) b), vmark w b)) ->
  0 < w -> 0 < t -> grid_edges (S w) (S t) m.
Proof.
  intros R Hh Hv Hw Ht. destruct (rd_num _ _ _ _ _ R) as (_ & N1 & _).
  pose proof (rd_marked _ _ _ _ _ R) as X.
  split; intros h b H1 H2.
  - replace (if h =? 0 then _ else _) with (hmark t h); [eapply X, Hh; lia|].
    unfold hmark, flag, first, final. destruct (Nat.eqb_spec h 0), (Nat.eqb_spec h (S t - 1)); try done. lia.
  - replace (if b =? 0 then _ else _) with (vmark w b); [eapply X, Hv; lia|].
    unfold vmark, flag, first, final. destruct (Nat.eqb_spec b 0), (Nat.eqb_spec b (S w - 1)); try done. lia.
Qed.

(** ** Rectangles *)
Lemma hmark_zero t h : 0 < t -> h <= t -> (hmark t h =? 0)%N = negb (h =? 0) && negb (h =? t).
Proof.
  intros H0 Hh. unfold hmark, flag, first, final. replace (S t - 1) with t by lia.
  destruct (Nat.eqb_spec h 0), (Nat.eqb_spec h t); cbn; done.
Qed.
Lemma vmark_zero w b : 0 < w -> b <= w -> (vmark w b =? 0)%N = negb (b =? 0) && negb (b =? w).
Proof.
  intros H0 Hh. unfold vmark, flag, first, final. replace (S w - 1) with w by lia.
  destruct (Nat.eqb_spec b 0), (Nat.eqb_spec b w); cbn; done.
Qed.

Section rect.
  Context (w t : nat) (Hw : 0 < w) (Ht : 0 < t).
  Notation nB := (S w).
  Notation nH := (S t).

  Lemma vtx_lt h b : h <= t -> b <= w -> vtx w h b < nB * nH.
  Proof. intros. unfold vtx. nia. Qed.
  Lemma redges_len : length (redges w t) = nH * w + t * nB.
  Proof. apply redges_length. Qed.

  Ltac of_nat := rewrite ?Nat2N.id.
  Lemma in_row h b e : N.of_nat e ∈ (rect_row w t h b).1.2 <->
    e = hor w h b \/ e = ver w t h (S b) \/ e = hor w (S h) b \/ e = ver w t h b.
  Proof.
    unfold rect_row. cbn [fst snd fmap list_fmap]. rewrite !elem_of_cons, elem_of_nil, !Nat2N.inj_iff. tauto.
  Qed.

  Lemma rect_shared : lshared (redges w t) (rect_cells nB nH).
  Proof.
    intros e x Hx. pose proof (lookup_lt_Some _ _ _ Hx) as Hl. rewrite redges_len in Hl.
    destruct (redges_cases w t e Hl) as [(h & b & Hh & Hb & ->)|(h & b & Hh & Hb & ->)].
    - rewrite redges_hor in Hx by done. apply Some_inj in Hx; subst x. cbn [snd]. rewrite hmark_zero by done.
      assert (K : forall c, lborders (rect_cells nB nH) (hor w h b) c <-> (h < t /\ c = cel w h b) \/ (0 < h /\ c = cel w (h - 1) b)).
      { intros c. split.
        - intros (q & Hq & He). apply rect_cells_lookup in Hq as (h' & b' & Hh' & Hb' & -> & ->). apply in_row in He as [He|[He|[He|He]]].
          + apply hor_inj in He as [-> ->]; [|done..]. by left.
          + by apply hor_ver in He.
          + apply hor_inj in He as [-> ->]; [|done..]. right. split; [lia|]. by rewrite Nat.sub_succ, Nat.sub_0_r.
          + by apply hor_ver in He.
        - intros [[H1 ->]|[H1 ->]].
          + exists (rect_row w t h b). split; [apply rect_cells_lookup; by exists h, b|]. apply in_row. tauto.
          + exists (rect_row w t (h - 1) b). split; [apply rect_cells_lookup; exists (h - 1), b; split_and!; [lia|done..]|].
            apply in_row. right; right; left. f_equal. lia. }
      destruct (Nat.eqb_spec h 0) as [->|H0]; [|destruct (Nat.eqb_spec h t) as [->|H1]]; cbn [negb andb].
      + exists [cel w 0 b]. split; [apply NoDup_singleton|]. split; [|done]. intros c. rewrite K, elem_of_list_singleton. split; [by left|].
        intros [[_ ?]|[? _]]; [done|lia].
      + exists [cel w (t - 1) b]. split; [apply NoDup_singleton|]. split; [|done]. intros c. rewrite K, elem_of_list_singleton. split; [by right|].
        intros [[? _]|[_ ?]]; [lia|done].
      + exists [cel w h b; cel w (h - 1) b]. split; [|split; [|done]].
        * apply NoDup_cons. split; [|apply NoDup_singleton]. rewrite elem_of_list_singleton. intros [? _]%cel_inj; lia.
        * intros c. rewrite K, elem_of_cons, elem_of_list_singleton. split; [intros [->| ->]; [left|right]; split; (done || lia)|tauto].
    - rewrite redges_ver in Hx by done. apply Some_inj in Hx; subst x. cbn [snd]. rewrite vmark_zero by done.
      assert (K : forall c, lborders (rect_cells nB nH) (ver w t h b) c <-> (b < w /\ c = cel w h b) \/ (0 < b /\ c = cel w h (b - 1))).
      { intros c. split.
        - intros (q & Hq & He). apply rect_cells_lookup in Hq as (h' & b' & Hh' & Hb' & -> & ->). apply in_row in He as [He|[He|[He|He]]].
          + symmetry in He. apply hor_ver in He; [done|lia|done].
          + apply ver_inj in He as [-> ->]; [|lia..]. right. split; [lia|]. by rewrite Nat.sub_succ, Nat.sub_0_r.
          + symmetry in He. apply hor_ver in He; [done|lia|done].
          + apply ver_inj in He as [-> ->]; [|lia..]. by left.
        - intros [[H1 ->]|[H1 ->]].
          + exists (rect_row w t h b). split; [apply rect_cells_lookup; by exists h, b|]. apply in_row. tauto.
          + exists (rect_row w t h (b - 1)). split; [apply rect_cells_lookup; exists h, (b - 1); split_and!; [done|lia|done..]|].
            apply in_row. right; left. f_equal. lia. }
      destruct (Nat.eqb_spec b 0) as [->|H0]; [|destruct (Nat.eqb_spec b w) as [->|H1]]; cbn [negb andb].
      + exists [cel w h 0]. split; [apply NoDup_singleton|]. split; [|done]. intros c. rewrite K, elem_of_list_singleton. split; [by left|].
        intros [[_ ?]|[? _]]; [done|lia].
      + exists [cel w h (w - 1)]. split; [apply NoDup_singleton|]. split; [|done]. intros c. rewrite K, elem_of_list_singleton. split; [by right|].
        intros [[? _]|[_ ?]]; [lia|done].
      + exists [cel w h b; cel w h (b - 1)]. split; [|split; [|done]].
        * apply NoDup_cons. split; [|apply NoDup_singleton]. rewrite elem_of_list_singleton. intros [_ ?]%cel_inj; lia.
        * intros c. rewrite K, elem_of_cons, elem_of_list_singleton. split; [intros [->| ->]; [left|right]; split; (done || lia)|tauto].
  Qed.

  Lemma nodup_of_nat l : NoDup l -> NoDup (N.of_nat <$> l).
  Proof. apply NoDup_fmap_2. intros x y. apply Nat2N.inj. Qed.

  Lemma joins_of e a b k : redges w t !! e = Some (a, b, k) -> ljoins (redges w t) (N.of_nat e) a b /\ ljoins (redges w t) (N.of_nat e) b a.
  Proof. intros H. split; exists k; of_nat; [by left|by right]. Qed.

  Lemma rect_closed : lclosed (redges w t) (rect_cells nB nH) 4.
  Proof.
    intros c q Hq. apply rect_cells_lookup in Hq as (h & b & Hh & Hb & -> & ->).
    split; [done|]. split; [done|]. split; [|split].
    - apply nodup_of_nat. repeat (apply NoDup_cons; split; [rewrite ?elem_of_cons, ?elem_of_nil|]); [..|constructor].
      + intros [E|[E|[E|[]]]]; apply vtx_inj in E; lia.
      + intros [E|[E|[]]]; apply vtx_inj in E; lia.
      + intros [E|[]]; apply vtx_inj in E; lia.
      + tauto.
    - apply nodup_of_nat. repeat (apply NoDup_cons; split; [rewrite ?elem_of_cons, ?elem_of_nil|]); [..|constructor].
      + intros [E|[E|[E|[]]]]; [apply hor_ver in E; lia|apply hor_inj in E; lia|apply hor_ver in E; lia].
      + intros [E|[E|[]]]; [symmetry in E; apply hor_ver in E; lia|apply ver_inj in E; lia].
      + intros [E|[]]; apply hor_ver in E; lia.
      + tauto.
    - intros v a b' e. cbn [rect_row fst snd fmap list_fmap].
      destruct v as [|[|[|[|v]]]]; [..|done]; cbn [Nat.add lookup list_lookup]; rewrite ?Nat.mod_small, ?Nat.mod_same by lia; cbn [lookup list_lookup];
        intros Ka Kb Ke; apply Some_inj in Ka, Kb, Ke; subst a b' e.
      + exact (proj1 (joins_of _ _ _ _ (redges_hor w t h b ltac:(lia) ltac:(lia)))).
      + exact (proj1 (joins_of _ _ _ _ (redges_ver w t h (S b) ltac:(lia) ltac:(lia)))).
      + exact (proj2 (joins_of _ _ _ _ (redges_hor w t (S h) b ltac:(lia) ltac:(lia)))).
      + exact (proj2 (joins_of _ _ _ _ (redges_ver w t h b ltac:(lia) ltac:(lia)))).
  Qed.

  Lemma rect_simple : lsimple (nB * nH) (redges w t).
  Proof.
    split.
    - intros e x Hx. pose proof (lookup_lt_Some _ _ _ Hx) as Hl. rewrite redges_len in Hl.
      destruct (redges_cases w t e Hl) as [(h & b & Hh & Hb & ->)|(h & b & Hh & Hb & ->)].
      + rewrite redges_hor in Hx by done. apply Some_inj in Hx; subst x. cbn [fst snd]. of_nat. split_and!; [|apply vtx_lt; lia..].
        rewrite Nat2N.inj_iff. intros E. apply vtx_inj in E; lia.
      + rewrite redges_ver in Hx by done. apply Some_inj in Hx; subst x. cbn [fst snd]. of_nat. split_and!; [|apply vtx_lt; lia..].
        rewrite Nat2N.inj_iff. intros E. apply vtx_inj in E; lia.
    - intros e f x y Hx Hy. pose proof (lookup_lt_Some _ _ _ Hx) as Hl. pose proof (lookup_lt_Some _ _ _ Hy) as Hl'. rewrite redges_len in Hl, Hl'.
      destruct (redges_cases w t e Hl) as [(h & b & Hh & Hb & ->)|(h & b & Hh & Hb & ->)];
        destruct (redges_cases w t f Hl') as [(h' & b' & Hh' & Hb' & ->)|(h' & b' & Hh' & Hb' & ->)];
        first [rewrite redges_hor in Hx by done|rewrite redges_ver in Hx by done]; first [rewrite redges_hor in Hy by done|rewrite redges_ver in Hy by done]; apply Some_inj in Hx; subst x; apply Some_inj in Hy; subst y; cbn [fst snd];
        (intros [[K1 K2]%pair_equal_spec|[K1 K2]]); (apply Nat2N.inj, vtx_inj in K1; [|lia..]); (apply Nat2N.inj, vtx_inj in K2; [|lia..]);
        first [lia | (destruct K1 as [-> ->]; done) | f_equal; lia].
  Qed.

  Lemma rect_below : lbelow (nB * nH) (redges w t) (rect_cells nB nH).
  Proof.
    apply Forall_lookup. intros c q Hq. apply rect_cells_lookup in Hq as (h & b & Hh & Hb & -> & ->).
    unfold polygon_below, all_below. cbn [rect_row fst snd]. rewrite redges_len.
    assert (V : forall h b, h <= t -> b <= w -> (N.of_nat (vtx w h b) < N.of_nat (nB * nH))%N) by (intros h' b' ? ?; pose proof (vtx_lt h' b'); lia).
    split; repeat constructor; try (apply V; lia).
    - pose proof (hor_lt w t h b). lia.
    - pose proof (ver_lt w t h (S b)). lia.
    - pose proof (hor_lt w t (S h) b). lia.
    - pose proof (ver_lt w t h b). lia.
  Qed.
End rect.

(** ** Triangles *)
Section tri.
  Context (w t : nat) (Hw : 0 < w) (Ht : 0 < t).
  Notation nB := (S w).
  Notation nH := (S t).
  Definition lower (h b : nat) : list N * list N * N :=
    (N.of_nat <$> [vtx w h b; vtx w h (S b); vtx w (S h) (S b)], N.of_nat <$> [hor w h b; ver w t h (S b); obl w t h b], 0%N).
  Definition upper (h b : nat) : list N * list N * N :=
    (N.of_nat <$> [vtx w h b; vtx w (S h) (S b); vtx w (S h) b], N.of_nat <$> [obl w t h b; hor w (S h) b; ver w t h b], 0%N).
  Lemma tri_cells_lookup c q : tri_cells nB nH !! c = Some q <-> exists h b, h < t /\ b < w /\
    ((c = 2 * cel w h b /\ q = lower h b) \/ (c = 2 * cel w h b + 1 /\ q = upper h b)).
  Proof.
    assert (X : forall h b, (let v := b + h * nB in let eh := b + h * (nB - 1) in let ev := v + nH * (nB - 1) in
      let eo := nH * (nB - 1) + (nH - 1) * nB + b + h * (nB - 1) in
      [(N.of_nat <$> [v; v + 1; v + nB + 1], N.of_nat <$> [eh; ev + 1; eo], 0%N);
       (N.of_nat <$> [v; v + nB + 1; v + nB], N.of_nat <$> [eo; eh + (nB - 1); ev], 0%N)]) = [lower h b; upper h b]).
    { intros h b. unfold lower, upper, vtx, hor, ver, obl. replace (nB - 1) with w by lia. replace (nH - 1) with t by lia. cbv zeta. cbn [fmap list_fmap].
      repeat first [reflexivity | lia | f_equal]. }
    unfold tri_cells. rewrite (bind_uniform _ 2) by (by intros [h b]). split.
    - intros (i & j & [h b] & Hg & Hj & Hl & ->). apply grid2_lookup in Hg as (H1 & H2 & ->). cbn [fst snd] in *. rewrite X in Hj.
      exists h, b. split; [lia|]. split; [lia|]. unfold cel. replace (nB - 1) with w by lia.
      destruct j as [|[|j]]; [..|lia]; apply Some_inj in Hj; subst q; [left|right]; (split; [lia|done]).
    - intros (h & b & Hh & Hb & H).
      assert (G : grid2 (nH - 1) (nB - 1) !! cel w h b = Some (h, b)).
      { apply grid2_lookup. cbn [fst snd]. unfold cel. replace (nB - 1) with w by lia. lia. }
      destruct H as [[-> ->]|[-> ->]]; [exists (cel w h b), 0, (h, b)|exists (cel w h b), 1, (h, b)]; rewrite X; (split_and!; [done|done|lia|lia]).
  Qed.
  Lemma tri_cells_length : length (tri_cells nB nH) = w * t * 2.
  Proof.
    unfold tri_cells. rewrite (bind_length _ 2) by (by intros [h b] _). rewrite grid2_length. rewrite !Nat.sub_1_r. cbn [Nat.pred]. lia.
  Qed.

  Lemma in_lower h b e : N.of_nat e ∈ (lower h b).1.2 <-> e = hor w h b \/ e = ver w t h (S b) \/ e = obl w t h b.
  Proof. unfold lower. cbn [fst snd fmap list_fmap]. rewrite !elem_of_cons, elem_of_nil, !Nat2N.inj_iff. tauto. Qed.
  Lemma in_upper h b e : N.of_nat e ∈ (upper h b).1.2 <-> e = obl w t h b \/ e = hor w (S h) b \/ e = ver w t h b.
  Proof. unfold upper. cbn [fst snd fmap list_fmap]. rewrite !elem_of_cons, elem_of_nil, !Nat2N.inj_iff. tauto. Qed.

  Lemma tri_borders e c : lborders (tri_cells nB nH) e c <-> exists h b, h < t /\ b < w /\
    ((c = 2 * cel w h b /\ (e = hor w h b \/ e = ver w t h (S b) \/ e = obl w t h b)) \/
     (c = 2 * cel w h b + 1 /\ (e = obl w t h b \/ e = hor w (S h) b \/ e = ver w t h b))).
  Proof.
    split.
    - intros (q & Hq & He). apply tri_cells_lookup in Hq as (h & b & Hh & Hb & [[-> ->]|[-> ->]]); exists h, b; (split; [done|]); (split; [done|]).
      + left. split; [done|]. by apply in_lower.
      + right. split; [done|]. by apply in_upper.
    - intros (h & b & Hh & Hb & [[-> He]|[-> He]]).
      + exists (lower h b). split; [apply tri_cells_lookup; exists h, b; tauto|by apply in_lower].
      + exists (upper h b). split; [apply tri_cells_lookup; exists h, b; tauto|by apply in_upper].
  Qed.

  Lemma one_cell (P : nat -> Prop) (c : nat) : (forall d, P d <-> d = c) -> exists cs, NoDup cs /\ (forall d, d ∈ cs <-> P d) /\ length cs = 1.
  Proof. intros H. exists [c]. split; [apply NoDup_singleton|]. split; [|done]. intros d. by rewrite elem_of_list_singleton, H. Qed.
  Lemma two_cells (P : nat -> Prop) (c c' : nat) : c <> c' -> (forall d, P d <-> d = c \/ d = c') ->
    exists cs, NoDup cs /\ (forall d, d ∈ cs <-> P d) /\ length cs = 2.
  Proof.
    intros Hc H. exists [c; c']. split; [|split; [|done]].
    - apply NoDup_cons. split; [by rewrite elem_of_list_singleton|apply NoDup_singleton].
    - intros d. by rewrite elem_of_cons, elem_of_list_singleton, H.
  Qed.

  Ltac absurd_edge := match goal with
    | H : hor _ _ _ = ver _ _ _ _ |- _ => apply hor_ver in H; [done|lia|lia]
    | H : ver _ _ _ _ = hor _ _ _ |- _ => symmetry in H; apply hor_ver in H; [done|lia|lia]
    | H : hor _ _ _ = obl _ _ _ _ |- _ => apply hor_obl in H; [done|lia|lia]
    | H : obl _ _ _ _ = hor _ _ _ |- _ => symmetry in H; apply hor_obl in H; [done|lia|lia]
    | H : ver _ _ _ _ = obl _ _ _ _ |- _ => apply ver_obl in H; [done|lia|lia]
    | H : obl _ _ _ _ = ver _ _ _ _ |- _ => symmetry in H; apply ver_obl in H; [done|lia|lia]
    end.
  Ltac same_edge H := first [apply hor_inj in H | apply ver_inj in H | apply obl_inj in H]; [destruct H as [? ?]; subst|lia|lia].

  Lemma tri_hor h b c : h <= t -> b < w -> lborders (tri_cells nB nH) (hor w h b) c <->
    (h < t /\ c = 2 * cel w h b) \/ (0 < h /\ c = 2 * cel w (h - 1) b + 1).
  Proof.
    intros Hh Hb. rewrite tri_borders. split.
    - intros (h' & b' & Hh' & Hb' & [[-> [He|[He|He]]]|[-> [He|[He|He]]]]); try absurd_edge; same_edge He; [by left|].
      right. split; [lia|]. do 3 f_equal. lia.
    - intros [[H1 ->]|[H1 ->]]; [exists h, b|exists (h - 1), b]; (split; [lia|]); (split; [lia|]); [left; tauto|].
      right. split; [done|]. right; left. f_equal. lia.
  Qed.
  Lemma tri_ver h b c : h < t -> b <= w -> lborders (tri_cells nB nH) (ver w t h b) c <->
    (b < w /\ c = 2 * cel w h b + 1) \/ (0 < b /\ c = 2 * cel w h (b - 1)).
  Proof.
    intros Hh Hb. rewrite tri_borders. split.
    - intros (h' & b' & Hh' & Hb' & [[-> [He|[He|He]]]|[-> [He|[He|He]]]]); try absurd_edge; same_edge He; [|by left].
      right. split; [lia|]. do 2 f_equal. lia.
    - intros [[H1 ->]|[H1 ->]]; [exists h, b|exists h, (b - 1)]; (split; [lia|]); (split; [lia|]); [right; tauto|].
      left. split; [done|]. right; left. f_equal. lia.
  Qed.
  Lemma tri_obl h b c : h < t -> b < w -> lborders (tri_cells nB nH) (obl w t h b) c <-> c = 2 * cel w h b \/ c = 2 * cel w h b + 1.
  Proof.
    intros Hh Hb. rewrite tri_borders. split.
    - intros (h' & b' & Hh' & Hb' & [[-> [He|[He|He]]]|[-> [He|[He|He]]]]); try absurd_edge; same_edge He; tauto.
    - intros [->| ->]; exists h, b; tauto.
  Qed.

  Lemma tri_shared : lshared (tedges w t) (tri_cells nB nH).
  Proof.
    intros e x Hx. pose proof (lookup_lt_Some _ _ _ Hx) as Hl. rewrite tedges_length in Hl.
    destruct (tedges_cases w t e Hl) as [(h & b & Hh & Hb & ->)|[(h & b & Hh & Hb & ->)|(h & b & Hh & Hb & ->)]].
    - rewrite tedges_hor in Hx by done. apply Some_inj in Hx; subst x. cbn [snd]. rewrite hmark_zero by done.
      destruct (Nat.eqb_spec h 0) as [->|H0]; [|destruct (Nat.eqb_spec h t) as [->|H1]]; cbn [negb andb].
      + apply (one_cell _ (2 * cel w 0 b)). intros d. rewrite tri_hor by lia. split; [intros [[_ ?]|[? _]]; [done|lia]|intros ->; left; done].
      + apply (one_cell _ (2 * cel w (t - 1) b + 1)). intros d. rewrite tri_hor by lia. split; [intros [[? _]|[_ ?]]; [lia|done]|intros ->; right; done].
      + apply (two_cells _ (2 * cel w h b) (2 * cel w (h - 1) b + 1)); [lia|]. intros d. rewrite tri_hor by lia.
        split; [tauto|intros [->| ->]; [left|right]; split; (done || lia)].
    - rewrite tedges_ver in Hx by done. apply Some_inj in Hx; subst x. cbn [snd]. rewrite vmark_zero by done.
      destruct (Nat.eqb_spec b 0) as [->|H0]; [|destruct (Nat.eqb_spec b w) as [->|H1]]; cbn [negb andb].
      + apply (one_cell _ (2 * cel w h 0 + 1)). intros d. rewrite tri_ver by lia. split; [intros [[_ ?]|[? _]]; [done|lia]|intros ->; left; done].
      + apply (one_cell _ (2 * cel w h (w - 1))). intros d. rewrite tri_ver by lia. split; [intros [[? _]|[_ ?]]; [lia|done]|intros ->; right; done].
      + apply (two_cells _ (2 * cel w h b + 1) (2 * cel w h (b - 1))); [lia|]. intros d. rewrite tri_ver by lia.
        split; [tauto|intros [->| ->]; [left|right]; split; (done || lia)].
    - rewrite tedges_obl in Hx by done. apply Some_inj in Hx; subst x. cbn [snd N.eqb].
      apply (two_cells _ (2 * cel w h b) (2 * cel w h b + 1)); [lia|]. intros d. by rewrite tri_obl.
  Qed.

  Lemma tjoins_of e a b k : tedges w t !! e = Some (a, b, k) -> ljoins (tedges w t) (N.of_nat e) a b /\ ljoins (tedges w t) (N.of_nat e) b a.
  Proof. intros H. split; exists k; rewrite Nat2N.id; [by left|by right]. Qed.

  Lemma tri_closed : lclosed (tedges w t) (tri_cells nB nH) 3.
  Proof.
    intros c q Hq. apply tri_cells_lookup in Hq as (h & b & Hh & Hb & [[-> ->]|[-> ->]]); (split; [done|]); (split; [done|]); (split; [|split]).
    - apply nodup_of_nat. repeat (apply NoDup_cons; split; [rewrite ?elem_of_cons, ?elem_of_nil|]); [..|constructor].
      + intros [E|[E|[]]]; apply vtx_inj in E; lia.
      + intros [E|[]]; apply vtx_inj in E; lia.
      + tauto.
    - apply nodup_of_nat. repeat (apply NoDup_cons; split; [rewrite ?elem_of_cons, ?elem_of_nil|]); [..|constructor].
      + intros [E|[E|[]]]; absurd_edge.
      + intros [E|[]]; absurd_edge.
      + tauto.
    - intros v a b' e. cbn [lower fst snd fmap list_fmap].
      destruct v as [|[|[|v]]]; [..|done]; cbn [Nat.add lookup list_lookup]; rewrite ?Nat.mod_small, ?Nat.mod_same by lia; cbn [lookup list_lookup];
        intros Ka Kb Ke; apply Some_inj in Ka, Kb, Ke; subst a b' e.
      + exact (proj1 (tjoins_of _ _ _ _ (tedges_hor w t h b ltac:(lia) ltac:(lia)))).
      + exact (proj1 (tjoins_of _ _ _ _ (tedges_ver w t h (S b) ltac:(lia) ltac:(lia)))).
      + exact (proj2 (tjoins_of _ _ _ _ (tedges_obl w t h b ltac:(lia) ltac:(lia)))).
    - apply nodup_of_nat. repeat (apply NoDup_cons; split; [rewrite ?elem_of_cons, ?elem_of_nil|]); [..|constructor].
      + intros [E|[E|[]]]; apply vtx_inj in E; lia.
      + intros [E|[]]; apply vtx_inj in E; lia.
      + tauto.
    - apply nodup_of_nat. repeat (apply NoDup_cons; split; [rewrite ?elem_of_cons, ?elem_of_nil|]); [..|constructor].
      + intros [E|[E|[]]]; absurd_edge.
      + intros [E|[]]; absurd_edge.
      + tauto.
    - intros v a b' e. cbn [upper fst snd fmap list_fmap].
      destruct v as [|[|[|v]]]; [..|done]; cbn [Nat.add lookup list_lookup]; rewrite ?Nat.mod_small, ?Nat.mod_same by lia; cbn [lookup list_lookup];
        intros Ka Kb Ke; apply Some_inj in Ka, Kb, Ke; subst a b' e.
      + exact (proj1 (tjoins_of _ _ _ _ (tedges_obl w t h b ltac:(lia) ltac:(lia)))).
      + exact (proj2 (tjoins_of _ _ _ _ (tedges_hor w t (S h) b ltac:(lia) ltac:(lia)))).
      + exact (proj2 (tjoins_of _ _ _ _ (tedges_ver w t h b ltac:(lia) ltac:(lia)))).
  Qed.

  Ltac edge_at H := first [rewrite tedges_hor in H by done|rewrite tedges_ver in H by done|rewrite tedges_obl in H by done].
  Lemma tri_simple : lsimple (nB * nH) (tedges w t).
  Proof.
    split.
    - intros e x Hx. pose proof (lookup_lt_Some _ _ _ Hx) as Hl. rewrite tedges_length in Hl.
      destruct (tedges_cases w t e Hl) as [(h & b & Hh & Hb & ->)|[(h & b & Hh & Hb & ->)|(h & b & Hh & Hb & ->)]];
        edge_at Hx; apply Some_inj in Hx; subst x; cbn [fst snd]; rewrite ?Nat2N.id; (split_and!; [|apply vtx_lt; lia..]);
        rewrite Nat2N.inj_iff; intros E; apply vtx_inj in E; lia.
    - intros e f x y Hx Hy. pose proof (lookup_lt_Some _ _ _ Hx) as Hl. pose proof (lookup_lt_Some _ _ _ Hy) as Hl'. rewrite tedges_length in Hl, Hl'.
      destruct (tedges_cases w t e Hl) as [(h & b & Hh & Hb & ->)|[(h & b & Hh & Hb & ->)|(h & b & Hh & Hb & ->)]];
        destruct (tedges_cases w t f Hl') as [(h' & b' & Hh' & Hb' & ->)|[(h' & b' & Hh' & Hb' & ->)|(h' & b' & Hh' & Hb' & ->)]];
        edge_at Hx; edge_at Hy; apply Some_inj in Hx; subst x; apply Some_inj in Hy; subst y; cbn [fst snd];
        (intros [[K1 K2]%pair_equal_spec|[K1 K2]]); (apply Nat2N.inj, vtx_inj in K1; [|lia..]); (apply Nat2N.inj, vtx_inj in K2; [|lia..]);
        first [lia | (destruct K1 as [-> ->]; done) | f_equal; lia].
  Qed.

  Lemma obl_lt h b : h < t -> b < w -> obl w t h b < nH * w + t * nB + t * w.
  Proof. intros. unfold obl. nia. Qed.
  Lemma tri_below : lbelow (nB * nH) (tedges w t) (tri_cells nB nH).
  Proof.
    apply Forall_lookup. intros c q Hq. apply tri_cells_lookup in Hq as (h & b & Hh & Hb & Hq).
    assert (V : forall h b, h <= t -> b <= w -> (N.of_nat (vtx w h b) < N.of_nat (nB * nH))%N) by (intros h' b' ? ?; pose proof (vtx_lt w t Hw Ht h' b'); lia).
    pose proof (hor_lt w t h b). pose proof (ver_lt w t h (S b)). pose proof (hor_lt w t (S h) b). pose proof (ver_lt w t h b). pose proof (obl_lt h b).
    unfold polygon_below, all_below. destruct Hq as [[-> ->]|[-> ->]]; cbn [lower upper fst snd]; rewrite tedges_length;
      (split; repeat constructor; first [apply V; lia | lia]).
  Qed.
  Lemma tri_sizes : Forall (fun q => length q.1.1 = 3 /\ length q.1.2 = 3) (tri_cells nB nH).
  Proof. apply Forall_lookup. intros c q Hq. apply tri_cells_lookup in Hq as (h & b & _ & _ & [[_ ->]|[_ ->]]); done. Qed.
End tri.

Lemma rect_sizes w t : Forall (fun q => length q.1.1 = 4 /\ length q.1.2 = 4) (rect_cells (S w) (S t)).
Proof. apply Forall_lookup. intros c q Hq. apply rect_cells_lookup in Hq as (h & b & _ & _ & _ & ->). done. Qed.

Lemma rectangle_ok m o tb th bs hs :
  blank m -> 2 <= length bs -> 2 <= length hs -> few (2 * length bs * length hs) ->
  exists m', CreateRectangleMesh o tb th bs hs m = Ok m' /\ reachable m' /\ mdim m' = 2 /\
    num D0 m' = length bs * length hs /\
    num D1 m' = length hs * (length bs - 1) + length bs * (length hs - 1) /\
    num D2 m' = (length bs - 1) * (length hs - 1) /\ num D3 m' = 0 /\ num D0 m' + num D2 m' = num D1 m' + 1 /\
    all_active m' /\
    (forall h b x y, hs !! h = Some y -> bs !! b = Some x ->
       Cell0DCoordinates (b + h * length bs) m' = Ok (dbl3 (rect_point o tb th x y)) /\
       Marker D0 (b + h * length bs) m' = Ok (rect_marker (length bs) (length hs) h b)) /\
    (forall h b, S h < length hs -> S b < length bs -> let v := grid_vertex (length bs) in
       polygon_is m' (b + h * (length bs - 1)) [v h b; v h (S b); v (S h) (S b); v (S h) b]) /\
    grid_edges (length bs) (length hs) m' /\
    simple_edges m' /\ (forall c, c < num D2 m' -> closed_polygon 4 m' c) /\ two_sided m'.
Proof.
  intros Hb HB HH Hf. destruct (blank_rr m Hb) as (a & Hm & Ha).
  remember (length bs - 1) as w eqn:Ew. remember (length hs - 1) as t eqn:Et.
  assert (EB : length bs = S w) by lia. assert (EH : length hs = S t) by lia.
  set (p0 := rect_points o tb th bs hs). set (p1 := redges w t). set (p2 := rect_cells (S w) (S t)).
  assert (L0 : length p0 = S w * S t) by (unfold p0; rewrite rect_points_length; congruence).
  assert (L1 : length p1 = S t * w + t * S w) by apply redges_length.
  assert (L2 : length p2 = w * t) by apply rect_cells_length.
  pose proof (rect_below w t ltac:(lia) ltac:(lia)) as Hbel. unfold lbelow in Hbel. rewrite <-L0 in Hbel.
  destruct (generate2_does p0 p1 p2 [] a Ha 4 eq_refl (rect_sizes w t) Hbel m Hm) as (m' & E & Hr).
  exists m'. split.
  { unfold CreateRectangleMesh. rewrite EB, EH. rewrite L0, L1, L2 in E. rewrite !Nat.sub_1_r. cbn [Nat.pred].
    replace (S w * t) with (t * S w) by lia. exact E. }
  split; [apply Hr|]. split; [destruct Hr as [_ Rp]; by rewrite (r_dim _ _ Rp)|].
  assert (Rb : reads_back (p0.*1) (p1.*1) (sides_of <$> p2) (([] : list (polyhedron * N)).*1) (fun _ _ => true) (marks_of p0 p1 p2 ([] : list (polyhedron * N))) m').
  { eapply built_reads; [|apply Hr]. unfold fits. rewrite !fmap_length, L0, L1, L2. unfold few in Hf. rewrite EB, EH in Hf.
    split_and!; [..|done]; nia. }
  assert (Hbal : Forall balanced p2).
  { eapply Forall_impl; [apply rect_sizes|]. intros q [H1 H2]. unfold balanced. congruence. }
  destruct (rd_num _ _ _ _ _ Rb) as (N0 & N1 & N2 & N3).
  rewrite N0, N1, N2, N3, L0, L1, L2, EB, EH. split_and!; [done|lia|done|done|lia|by eapply rd_active| | | | | |].
  - intros h b x y Hy Hx.
    assert (Hq : p0 !! (b + h * length bs) = Some (dbl3 (rect_coordinate o tb th x y), rect_point_mark (length bs) (length hs) h b)).
    { apply rect_points_lookup. exists h, b, x, y. done. }
    rewrite EB in Hq. destruct (rd_point _ _ _ _ _ Rb _ _ Hq) as [P1 P2]. cbn [fst snd] in P1, P2.
    rewrite P1, P2, rect_coordinate_spec. split; [done|]. rewrite EH. rewrite rect_point_mark_spec; [done|..|lia|lia].
    + apply lookup_lt_Some in Hy. lia. + apply lookup_lt_Some in Hx. lia.
  - intros h b Hh Hb'. cbv zeta. replace (S w - 1) with w by lia.
    assert (Hq : p2 !! (b + h * w) = Some (rect_row w t h b)) by (apply rect_cells_lookup; exists h, b; split_and!; [lia|lia|done|done]).
    destruct (rd_polygon _ _ _ _ _ Hbal Rb _ _ Hq) as (P1 & _ & P3). split; [exact P1|exact P3].
  - eapply rd_grid_edges; [exact Rb|..]; [intros; apply redges_hor; lia|intros; apply redges_ver; lia|lia|lia].
  - eapply rd_simple; [done|]. rewrite L0. apply rect_simple; lia.
  - intros c Hc. eapply rd_closed; [done..| |]; [apply rect_closed; lia|by rewrite N2, L2].
  - eapply rd_shared; [done..|]. apply rect_shared; lia.
Qed.

Lemma triangular_ok m o tb th bs hs :
  blank m -> 2 <= length bs -> 2 <= length hs -> few (3 * length bs * length hs) ->
  exists m', CreateStructuredTriangularMesh o tb th bs hs m = Ok m' /\ reachable m' /\ mdim m' = 2 /\
    num D0 m' = length bs * length hs /\
    num D1 m' = length hs * (length bs - 1) + length bs * (length hs - 1) + (length bs - 1) * (length hs - 1) /\
    num D2 m' = 2 * (length bs - 1) * (length hs - 1) /\ num D3 m' = 0 /\ num D0 m' + num D2 m' = num D1 m' + 1 /\
    all_active m' /\
    (forall h b x y, hs !! h = Some y -> bs !! b = Some x ->
       Cell0DCoordinates (b + h * length bs) m' = Ok (dbl3 (rect_point o tb th x y)) /\
       Marker D0 (b + h * length bs) m' = Ok (rect_marker (length bs) (length hs) h b)) /\
    (forall h b, S h < length hs -> S b < length bs -> let v := grid_vertex (length bs) in
       polygon_is m' (2 * (b + h * (length bs - 1))) [v h b; v h (S b); v (S h) (S b)] /\
       polygon_is m' (2 * (b + h * (length bs - 1)) + 1) [v h b; v (S h) (S b); v (S h) b] /\
       marked_edge m' (v h b) (v (S h) (S b)) 0%N) /\
    grid_edges (length bs) (length hs) m' /\
    simple_edges m' /\ (forall c, c < num D2 m' -> closed_polygon 3 m' c) /\ two_sided m'.
Proof.
  intros Hb HB HH Hf. destruct (blank_rr m Hb) as (a & Hm & Ha).
  remember (length bs - 1) as w eqn:Ew. remember (length hs - 1) as t eqn:Et.
  assert (EB : length bs = S w) by lia. assert (EH : length hs = S t) by lia.
  set (p0 := rect_points o tb th bs hs). set (p1 := tedges w t). set (p2 := tri_cells (S w) (S t)).
  assert (L0 : length p0 = S w * S t) by (unfold p0; rewrite rect_points_length; congruence).
  assert (L1 : length p1 = S t * w + t * S w + t * w) by apply tedges_length.
  assert (L2 : length p2 = w * t * 2) by (apply tri_cells_length; lia).
  pose proof (tri_below w t ltac:(lia) ltac:(lia)) as Hbel. unfold lbelow in Hbel. rewrite <-L0 in Hbel.
  destruct (generate2_does p0 p1 p2 [] a Ha 3 eq_refl (tri_sizes w t ltac:(lia) ltac:(lia)) Hbel m Hm) as (m' & E & Hr).
  exists m'. split.
  { unfold CreateStructuredTriangularMesh. rewrite EB, EH. rewrite L0, L1, L2 in E. rewrite !Nat.sub_1_r. cbn [Nat.pred].
    replace (S w * t) with (t * S w) by lia. replace (S t * w + t * S w + w * t) with (S t * w + t * S w + t * w) by lia. exact E. }
  split; [apply Hr|]. split; [destruct Hr as [_ Rp]; by rewrite (r_dim _ _ Rp)|].
  assert (Rb : reads_back (p0.*1) (p1.*1) (sides_of <$> p2) (([] : list (polyhedron * N)).*1) (fun _ _ => true) (marks_of p0 p1 p2 ([] : list (polyhedron * N))) m').
  { eapply built_reads; [|apply Hr]. unfold fits. rewrite !fmap_length, L0, L1, L2. unfold few in Hf. rewrite EB, EH in Hf.
    split_and!; [..|done]; nia. }
  assert (Hbal : Forall balanced p2).
  { eapply Forall_impl; [apply tri_sizes; lia|]. intros q [H1 H2]. unfold balanced. congruence. }
  destruct (rd_num _ _ _ _ _ Rb) as (N0 & N1 & N2 & N3).
  rewrite N0, N1, N2, N3, L0, L1, L2, EB, EH. split_and!; [done|lia|lia|done|lia|by eapply rd_active| | | | | |].
  - intros h b x y Hy Hx.
    assert (Hq : p0 !! (b + h * length bs) = Some (dbl3 (rect_coordinate o tb th x y), rect_point_mark (length bs) (length hs) h b)).
    { apply rect_points_lookup. exists h, b, x, y. done. }
    rewrite EB in Hq. destruct (rd_point _ _ _ _ _ Rb _ _ Hq) as [P1 P2]. cbn [fst snd] in P1, P2.
    rewrite P1, P2, rect_coordinate_spec. split; [done|]. rewrite EH. rewrite rect_point_mark_spec; [done|..|lia|lia].
    + apply lookup_lt_Some in Hy. lia. + apply lookup_lt_Some in Hx. lia.
  - intros h b Hh Hb'. cbv zeta. replace (S w - 1) with w by lia.
    assert (Hq : p2 !! (2 * (b + h * w)) = Some (lower w t h b)) by (apply tri_cells_lookup; [lia|lia|]; exists h, b; split_and!; [lia|lia|by left]).
    assert (Hq' : p2 !! (2 * (b + h * w) + 1) = Some (upper w t h b)) by (apply tri_cells_lookup; [lia|lia|]; exists h, b; split_and!; [lia|lia|by right]).
    destruct (rd_polygon _ _ _ _ _ Hbal Rb _ _ Hq) as (P1 & _ & P3). destruct (rd_polygon _ _ _ _ _ Hbal Rb _ _ Hq') as (Q1 & _ & Q3).
    split; [exact (conj P1 P3)|]. split; [exact (conj Q1 Q3)|].
    eapply rd_marked; [exact Rb|]. apply (tedges_obl w t h b); lia.
  - eapply rd_grid_edges; [exact Rb|intros; apply tedges_hor; lia|intros; apply tedges_ver; lia|lia|lia].
  - eapply rd_simple; [done|]. rewrite L0. apply tri_simple; lia.
  - intros c Hc. eapply rd_closed; [done..| |]; [apply tri_closed; lia|by rewrite N2, L2].
  - eapply rd_shared; [done..|]. apply tri_shared; lia.
Qed.
