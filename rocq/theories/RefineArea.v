(** * The refinement keeps the area covered by the active polygons. *)
From Coq Require Import QArith Qcanon.
From Verif Require Import Base BaseProof QcTac FillModel GeoModel MapModel PointModel PolyModel CsrModel MeshModel MeshSpec MeshRep MeshHist MeshProof8 MeshProof9 MeshProofE MeshProofF MeshProg
  UtilModel UtilSpec UtilProofD RefineModel RefineSpec RefineView RefineSplit RefineReplace RefineCut RefineStep RefineStep2 RefineWalk RefineFour RefineUndo RefineMove RefineNeigh RefineConf RefineTop.
From Coq Require Import ZifyBool ZifyNat ZifyN.
Local Open Scope nat_scope.

(** ** Sums *)
Definition qsum (l : list Qc) : Qc := foldr Qcplus 0%Qc l.
Lemma qsum_cons x l : qsum (x :: l) = (x + qsum l)%Qc.
Proof. done. Qed.
Lemma qsum_app l k : qsum (l ++ k) = (qsum l + qsum k)%Qc.
Proof. induction l as [|x l IH]; [change (qsum ([] ++ k)) with (qsum k); change (qsum []) with 0%Qc; ring|]. cbn [app]. rewrite !qsum_cons, IH. ring. Qed.
Lemma qsum_ext {A} (f g : A -> Qc) l : (forall x, x ∈ l -> f x = g x) -> qsum (f <$> l) = qsum (g <$> l).
Proof.
  intros H. induction l as [|x l IH]; [done|]. rewrite !fmap_cons, !qsum_cons, (H x) by apply elem_of_list_here. f_equal. apply IH. intros y M. apply H. by apply elem_of_list_further.
Qed.
Lemma qsum_change {A} (f g : A -> Qc) c l : NoDup l -> c ∈ l -> (forall x, x ∈ l -> x <> c -> g x = f x) -> g c = 0%Qc ->
  qsum (g <$> l) = (qsum (f <$> l) - f c)%Qc.
Proof.
  intros Nd M H Hc. induction l as [|x l IH]; [by apply elem_of_nil in M|]. apply NoDup_cons in Nd as [Nx Nd]. rewrite !fmap_cons, !qsum_cons.
  apply elem_of_cons in M as [->|M].
  - rewrite Hc, (qsum_ext g f l); [ring|]. intros y My. apply H; [by apply elem_of_list_further|]. by intros ->.
  - rewrite IH; [|done|done|]. { rewrite (H x); [ring|apply elem_of_list_here|]. by intros ->. }
    intros y My. apply H. by apply elem_of_list_further.
Qed.
Lemma qsum_filter {A} (p : A -> Prop) `{!forall x, Decision (p x)} (f : A -> Qc) l : qsum (f <$> filter p l) = qsum ((fun x => if decide (p x) then f x else 0%Qc) <$> l).
Proof.
  induction l as [|x l IH]; [done|]. rewrite filter_cons, fmap_cons, qsum_cons, <- IH. case_decide; [done|]. ring.
Qed.

(** ** The area inside a chain *)
Fixpoint shoe (pos : N -> Qc * Qc) (l : list (N * N)) (w : N) : Qc :=
  match l with [] => 0%Qc | p :: l => (cross (pos p.1) (pos (start l w)) + shoe pos l w)%Qc end.
Definition loop (pos : N -> Qc * Qc) (l : list (N * N)) : Qc := shoe pos l (start l 0).

Lemma shoe_cons pos p l w : shoe pos (p :: l) w = (cross (pos p.1) (pos (start l w)) + shoe pos l w)%Qc.
Proof. done. Qed.
Lemma shoe_nil pos w : shoe pos [] w = 0%Qc.
Proof. done. Qed.
Lemma shoe_app pos l k w : shoe pos (l ++ k) w = (shoe pos l (start k w) + shoe pos k w)%Qc.
Proof. induction l as [|p l IH]; cbn [app]; [rewrite shoe_nil; ring|]. rewrite !shoe_cons, IH, start_app. ring. Qed.

Lemma loop_rot pos l k : rot l k -> loop pos k = loop pos l.
Proof.
  intros (x & y & -> & ->). unfold loop. rewrite !shoe_app, !start_app.
  destruct x as [|p x]; [cbn [start app]; rewrite !shoe_nil; ring|]. destruct y as [|q y]; [cbn [start app]; rewrite !shoe_nil; ring|]. cbn [start]. ring.
Qed.

Lemma loop_cut pos l1 l2 f : l1 <> [] -> l2 <> [] ->
  (loop pos (l1 ++ [(start l2 0, f)]) + loop pos (l2 ++ [(start l1 0, f)]))%Qc = loop pos (l1 ++ l2).
Proof.
  intros H1 H2. unfold loop. rewrite !shoe_app, !start_app. destruct l1 as [|p1 l1]; [done|]. destruct l2 as [|p2 l2]; [done|]. cbn [start app fst snd]. rewrite !shoe_cons, !shoe_nil. cbn [start fst snd]. unfold cross. ring.
Qed.

Lemma shoe_ext pos pos' l w : (forall v e, (v, e) ∈ l -> pos' v = pos v) -> pos' w = pos w -> shoe pos' l w = shoe pos l w.
Proof.
  intros H Hw. induction l as [|[v e] l IH]; [done|]. rewrite !shoe_cons. cbn [fst]. rewrite IH by (intros u g M; apply (H u g); by apply elem_of_list_further).
  rewrite (H v e) by apply elem_of_list_here. f_equal. f_equal. destruct l as [|[v' e'] l]; [done|]. cbn. apply (H v' e'). apply elem_of_list_further, elem_of_list_here.
Qed.

Lemma start_virt P l w : start (virt P l) w = start l w.
Proof.
  destruct l as [|[v e] l]; [done|]. rewrite virt_cons. unfold expand. cbn. destruct (P !! e) as [x|]; [|done]. unfold expand1. by case_decide.
Qed.

Lemma next_pos (pos pos' : N -> Qc * Qc) P l w : (forall v g, (v, g) ∈ virt P l -> pos' v = pos v) -> pos' w = pos w -> pos' (start l w) = pos (start l w).
Proof.
  intros H Hw. rewrite <- (start_virt P l w). destruct (virt P l) as [|[v g] k]; [done|]. cbn. apply (H v g), elem_of_list_here.
Qed.

Lemma shoe_split pos pos' V P e x l w :
  P !! e = None -> ve V e = Some (pa x, pb x) -> linked V (virt P l) w ->
  (forall v g, (v, g) ∈ virt P l -> pos' v = pos v) -> pos' w = pos w ->
  pos' (pw x) = (Q2Qc (1 # 2) * ((pos (pa x)).1 + (pos (pb x)).1), Q2Qc (1 # 2) * ((pos (pa x)).2 + (pos (pb x)).2))%Qc ->
  shoe pos' (virt (<[e := x]> P) l) w = shoe pos (virt P l) w.
Proof.
  intros Pe Hve. revert w. induction l as [|[v g] l IH]; intros w L Hp Hw Hx; [done|]. rewrite !virt_cons, !shoe_app in *.
  rewrite linked_app in L. destruct L as [L1 L2].
  rewrite IH; [|done| |done|done]. 2:{ intros u h M. apply (Hp u h). apply elem_of_app. by right. }
  f_equal. rewrite !start_virt. rewrite start_virt in L1. unfold expand in *. cbn [fst snd] in *. destruct (decide (g = e)) as [->|Hg].
  - rewrite lookup_insert. rewrite Pe in *. cbn in L1. destruct L1 as [J _].
    assert (Hv : pos' v = pos v) by (apply (Hp v e), elem_of_list_here).
    assert (Hs : pos' (start l w) = pos (start l w)) by (apply (next_pos pos pos' P); [intros u h M; apply (Hp u h), elem_of_app; by right|done]).
    assert (E : pos' (pw x) = (Q2Qc (1 # 2) * ((pos v).1 + (pos (start l w)).1), Q2Qc (1 # 2) * ((pos v).2 + (pos (start l w)).2))%Qc).
    { rewrite Hx. destruct J as [J|J]; rewrite Hve in J; injection J as -> ->; [done|]. f_equal; f_equal; ring. }
    unfold expand1. assert (Hh : (Q2Qc (1 # 2) + Q2Qc (1 # 2))%Qc = 1%Qc) by (by apply Qc_is_canon).
    rewrite shoe_cons, shoe_nil. cbn [start fst]. rewrite ?start_virt.
    transitivity ((Q2Qc (1 # 2) + Q2Qc (1 # 2)) * cross (pos v) (pos (start l w)) + 0)%Qc; [|rewrite Hh; ring].
    case_decide; rewrite !shoe_cons, shoe_nil; cbn [start fst]; rewrite Hv, E, Hs; unfold cross; cbn [fst snd]; ring.
  - rewrite lookup_insert_ne by done. apply shoe_ext.
    + intros u h M. apply (Hp u h). apply elem_of_app. by left.
    + apply (next_pos pos pos' P); [intros u h M; apply (Hp u h), elem_of_app; by right|done].
Qed.

(** ** The area of the mesh, with the pending edges split *)
Definition cell_loop (A : arith) (P : gmap N pend) (m : mesh) (c : nat) : Qc :=
  if active D2 m c then match vp (view_of m) (N.of_nat c) with Some l => loop (position A m) (virt P l) | None => 0%Qc end else 0%Qc.
Definition total (A : arith) (P : gmap N pend) (m : mesh) : Qc := qsum (cell_loop A P m <$> seq 0 (num D2 m)).

Lemma path_shoe pos p l w : path_area (pos p) ((pos <$> l.*1) ++ [pos w]) = shoe pos ((p, 0%N) :: l) w.
Proof.
  revert p. induction l as [|[v e] l IH]; intros p; [done|]. rewrite shoe_cons. cbn [fmap list_fmap app fst path_area]. rewrite (IH v). done.
Qed.

Lemma covered_total A m : conforming m -> covered_area A m = (Q2Qc (1 # 2) * total A ∅ m)%Qc.
Proof.
  intros I. unfold covered_area. fold (qsum (polygon_area A m <$> filter (fun c => active D2 m c = true) (seq 0 (num D2 m)))).
  rewrite qsum_filter. unfold total. generalize (seq 0 (num D2 m)). intros l. induction l as [|c l IH].
  { change (qsum _) with 0%Qc. ring. }
  rewrite !fmap_cons, !qsum_cons, IH. rewrite Qcmult_plus_distr_r. f_equal. unfold cell_loop.
  destruct (active D2 m c) eqn:Ac; [rewrite decide_True by done|rewrite decide_False by done; ring].
  destruct (cf_polygons _ I c Ac) as (_ & k & Hk & L & _). pose proof Hk as [Hv _].
  rewrite <- (Nat2N.id c) in Hk. apply vp_polygon in Hk. rewrite Hk, virt_empty. unfold polygon_area. rewrite Hv.
  destruct k as [|[v e] k]; [cbn in L; lia|]. unfold signed_area. cbn [fmap list_fmap fst]. f_equal.
  apply (path_shoe (position A m) v k v).
Qed.

(** ** Every step keeps the total *)
Lemma position_eq A m m' v : Cell0DCoordinates (N.to_nat v) m' = Cell0DCoordinates (N.to_nat v) m -> position A m' v = position A m v.
Proof. intros E. unfold position, Point. by rewrite E. Qed.

Lemma loop_ext pos pos' l : l <> [] -> (forall v e, (v, e) ∈ l -> pos' v = pos v) -> loop pos' l = loop pos l.
Proof.
  intros Hl H. unfold loop. apply shoe_ext; [done|]. destruct l as [|[v e] l]; [done|]. apply (H v e), elem_of_list_here.
Qed.

Lemma good_nil V l : good V l -> l <> [].
Proof. intros G ->. pose proof (gd_len _ _ G) as X. cbn in X. lia. Qed.

Lemma total_ext A P P' m m' : inv P (view_of m) -> num D2 m' = num D2 m ->
  (forall i, active D2 m' i = active D2 m i) -> (forall i, va (view_of m) D2 i = true -> vp (view_of m') i = vp (view_of m) i) ->
  (forall i l, va (view_of m) D2 i = true -> vp (view_of m) i = Some l -> loop (position A m') (virt P' l) = loop (position A m) (virt P l)) ->
  total A P' m' = total A P m.
Proof.
  intros I N2 Ha Hv Hl. unfold total. rewrite N2. apply qsum_ext. intros c _. unfold cell_loop. rewrite Ha. destruct (active D2 m c) eqn:Ac; [|done].
  assert (Va : va (view_of m) D2 (N.of_nat c) = true) by (cbn; by rewrite Nat2N.id). rewrite Hv by done.
  destruct (vp (view_of m) (N.of_nat c)) as [l|] eqn:E; [|done]. by apply (Hl (N.of_nat c)).
Qed.

(** A polygon is replaced by others of the same total area. *)
Lemma total_replaced A P m m' y l subs :
  inv P (view_of m) -> va (view_of m) D2 y = true -> vp (view_of m) y = Some l -> replaced y subs (view_of m) (view_of m') ->
  (forall i, Cell0DCoordinates i m' = Cell0DCoordinates i m) -> (forall row v e, row ∈ subs -> (v, e) ∈ row -> P !! e = None) ->
  qsum (loop (position A m) <$> subs) = loop (position A m) (virt P l) -> total A P m' = total A P m.
Proof.
  intros I Hy Hl Rp Co Hn Hs. pose proof (i_lt _ _ I D2 y Hy) as Ly. cbn in Ly.
  assert (Hloop : forall k, loop (position A m') k = loop (position A m) k).
  { intros k. unfold loop. apply shoe_ext; [intros v e _|]; by apply position_eq. }
  unfold total. pose proof (rp_n2 _ _ _ _ Rp) as N2. cbn in N2. replace (num D2 m') with (num D2 m + length subs) by lia. rewrite seq_app, fmap_app, qsum_app. cbn [Nat.add].
  assert (E2 : qsum (cell_loop A P m' <$> seq (num D2 m) (length subs)) = loop (position A m) (virt P l)).
  { rewrite <- Hs. clear Hs. transitivity (qsum ((fun j => match subs !! j with Some row => loop (position A m) row | None => 0%Qc end) <$> seq 0 (length subs))).
    - rewrite <- (Nat.add_0_r (num D2 m)) at 1. rewrite <- fmap_add_seq, <- list_fmap_compose. apply qsum_ext. intros j [_ Lj]%elem_of_seq. cbn in Lj. unfold compose, cell_loop.
      destruct (lookup_lt_is_Some_2 subs j Lj) as [row Hrow]. rewrite Hrow.
      pose proof (rp_new _ _ _ _ Rp j row Hrow) as Hnew. change (vn (view_of m) D2) with (N.of_nat (num D2 m)) in Hnew. rewrite <- Nat2N.inj_add in Hnew. rewrite Hnew.
      pose proof (rp_va2 _ _ _ _ Rp (N.of_nat (num D2 m + j))) as Hva. rewrite decide_False in Hva by lia.
      rewrite decide_True in Hva by (rewrite (rp_n2 _ _ _ _ Rp); cbn; lia). cbn in Hva. rewrite Nat2N.id in Hva. rewrite Hva.
      rewrite virt_none by (intros v e; by apply Hn, elem_of_list_lookup_2 in Hrow || (apply Hn; by eapply elem_of_list_lookup_2)). apply Hloop.
    - f_equal. clear. induction subs as [|row subs IH]; [done|]. cbn [length seq]. rewrite !fmap_cons. f_equal. rewrite <- IH.
      rewrite <- fmap_S_seq, <- list_fmap_compose. done. }
  rewrite E2. rewrite (qsum_change (cell_loop A P m) (cell_loop A P m') (N.to_nat y)).
  - unfold cell_loop at 2. cbn in Hy. rewrite Hy, N2Nat.id, Hl. ring.
  - apply NoDup_seq.
  - apply elem_of_seq. lia.
  - intros c [_ Lc]%elem_of_seq Hc. cbn in Lc. unfold cell_loop. pose proof (rp_va2 _ _ _ _ Rp (N.of_nat c)) as Hva. rewrite decide_False in Hva by lia.
    rewrite decide_False in Hva by (cbn; lia). cbn in Hva. rewrite Nat2N.id in Hva. rewrite Hva. rewrite (rp_vp _ _ _ _ Rp) by (cbn; lia).
    destruct (active D2 m c); [|done]. destruct (vp (view_of m) (N.of_nat c)); [|done]. apply Hloop.
  - unfold cell_loop. pose proof (rp_va2 _ _ _ _ Rp y) as Hva. rewrite decide_True in Hva by done. cbn in Hva. by rewrite Hva.
Qed.

Lemma move_total A s s' : (forall x, value A (store A x) = x) -> move A s s' -> total A s'.1 s'.2 = total A s.1 s.2.
Proof.
  intros Ex Mv. destruct Mv as [P m m1 e o t p q I Es Hot Pe Ep Eq Co Cw I1|P m m1 c rl l1 l2 f cells I Ac Hrl Hrot W|P m m1 y l I Hy Hl Rp I1 Co|P m e I Hn|m m1 I Sm Co]; cbn [fst snd].
  - apply total_ext; [done|pose proof (es_n2 _ _ _ _ _ _ _ _ Es) as X; cbn in X; lia| | |].
    + intros i. pose proof (es_va2 _ _ _ _ _ _ _ _ Es (N.of_nat i)) as X. cbn in X. by rewrite Nat2N.id in X.
    + intros i _. apply (es_vp _ _ _ _ _ _ _ _ Es).
    + intros i l Hi Hl. destruct (i_poly _ _ I i Hi) as (_ & l0 & Hl0 & G). rewrite Hl in Hl0. injection Hl0 as <-.
      assert (Old : forall v, va (view_of m) D0 v = true -> position A m1 v = position A m v).
      { intros v Hv. apply position_eq, Co. apply (i_lt _ _ I D0) in Hv. cbn in Hv. lia. }
      unfold loop. rewrite !start_virt.
      apply (shoe_split _ _ (view_of m)); [done|apply (es_ends _ _ _ _ _ _ _ _ Es)|rewrite <- (start_virt P l); apply (gd_link _ _ G)| | |].
      * intros v g M. apply Old. by apply (gd_act _ _ G v g).
      * apply Old. rewrite <- (start_virt P l 0). pose proof (good_nil _ _ G). destruct (virt P l) as [|[v g] k] eqn:Ek; [done|].
        apply (gd_act _ _ G v g), elem_of_list_here.
      * cbn [pw pa pb]. unfold position at 1. unfold Point. rewrite Nat2N.id, Cw. cbn [mbind outcome_bind]. unfold point_of. cbn [fst snd]. rewrite !Ex.
        unfold position. rewrite Ep, Eq. destruct p as [[px py] pz], q as [[qx qy] qz]. done.
  - eapply (total_replaced A P m m1 (N.of_nat c) rl); [done|cbn; by rewrite Nat2N.id|done|apply (wc_replaced _ _ _ _ _ _ _ _ W)|apply (wc_coord _ _ _ _ _ _ _ _ W)| |].
    + intros row v g [j Hj]%elem_of_list_lookup M. eapply (cut_rows P c rl l1 l2 f cells m m1); done.
    + rewrite !fmap_cons, !qsum_cons. change (qsum _) with 0%Qc. rewrite <- (loop_rot _ _ _ Hrot).
      rewrite <- (loop_cut _ l1 l2 (N.of_nat f)); [ring|..]; intros ->; [pose proof (wc_len1 _ _ _ _ _ _ _ _ W) as X|pose proof (wc_len2 _ _ _ _ _ _ _ _ W) as X]; cbn in X; lia.
  - eapply (total_replaced A P m m1 y l); [done..| |].
    + intros row v g ->%elem_of_list_singleton M. destruct (P !! g) as [z|] eqn:Ez; [|done]. exfalso. destruct (i_poly _ _ I y Hy) as (_ & l0 & Hl0 & G). rewrite Hl in Hl0. injection Hl0 as <-.
      by eapply (pending_out P _ l g z v I G).
    + cbn [fmap list_fmap]. rewrite qsum_cons. change (qsum []) with 0%Qc. ring.
  - apply total_ext; try done. intros i l Hi Hl. f_equal. specialize (Hn i l). clear - Hn Hi Hl. specialize (fun v => Hn v Hi Hl) as Hn'. clear Hn Hi Hl.
    induction l as [|[v g] l IH]; [done|]. rewrite !virt_cons. rewrite IH by (intros u M; apply (Hn' u); by apply elem_of_list_further). f_equal.
    unfold expand. cbn. rewrite lookup_delete_ne; [done|]. intros ->. apply (Hn' v), elem_of_list_here.
  - apply total_ext; [done|pose proof (sa_n _ _ Sm D2) as X; cbn in X; specialize (X ltac:(done)); lia| | |].
    + intros i. pose proof (sa_va _ _ Sm D2 (N.of_nat i)) as X. cbn in X. rewrite Nat2N.id in X. by apply X.
    + intros i Hi. by apply (sa_vp _ _ Sm).
    + intros i l Hi Hl. destruct (i_poly _ _ I i Hi) as (_ & l0 & Hl0 & G). rewrite Hl in Hl0. injection Hl0 as <-. apply loop_ext; [by eapply good_nil|].
      intros v g M. apply position_eq, Co. apply (gd_act _ _ G) in M as [M _]. apply (i_lt _ _ I D0) in M. cbn in M. lia.
Qed.

Lemma moves_total A s s' : (forall x, value A (store A x) = x) -> rtc (move A) s s' -> total A s'.1 s'.2 = total A s.1 s.2.
Proof. intros Ex. induction 1 as [s|s s1 s' H _ IH]; [done|]. by rewrite IH, (move_total A s s1). Qed.

Lemma moves_area A m m' : (forall x, value A (store A x) = x) -> conforming m -> conforming m' -> rtc (move A) (∅, m) (∅, m') ->
  covered_area A m' = covered_area A m.
Proof. intros Ex C C' Mv. rewrite !covered_total by done. f_equal. exact (moves_total A _ _ Ex Mv). Qed.
