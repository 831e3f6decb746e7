(** * Bisection of a triangle and of its neighbour. *)
From Coq Require Import QArith Qcanon.
From Verif Require Import Base BaseProof QcTac FillModel GeoModel MapModel PointModel PolyModel CsrModel MeshModel MeshSpec MeshRep MeshHist MeshProof8 MeshProof9 MeshProofE MeshProofF MeshProg
  UtilModel UtilSpec UtilProofD RefineModel RefineSpec RefineView RefineSplit RefineReplace RefineCut RefineStep RefineStep2 RefineWalk RefineFour RefineUndo RefineMove RefineNeigh RefineConf RefineTop.
From Coq Require Import ZifyBool ZifyNat ZifyN.
Local Open Scope nat_scope.

Definition tri_body (A : arith) (c e new : nat) (split : list nat) (direction : bool) (s : mesh * list (nat * nat)) (k : nat)
  : outcome (mesh * list (nat * nat)) :=
  h ← RelHas R12 e k s.1;
  if negb h then Ok s else
  x ← RelGet R12 e k s.1;
  if (x =? N.of_nat c)%N then Ok s else
  let x := N.to_nat x in
  u ← HasUpdateds D2 x s.1;
  if u : bool then Ok s else
  p ← RelFind E2 x (N.of_nat e) s.1;
  r ← SplitPolygon_NewVertexTo A x 3 ((p + 2) mod 3) p new split (negb direction) s.1;
  Ok (r.1, s.2 ++ match r.2 with NoSplit => [] | Split _ cells => (fun y => (x, y)) <$> cells end).

Lemma tri_loop A c e new split d m : RefineTriangleCell_UpdateNeighbours A c e new split d m =
  n ← RelNumber R12 e m; ofold (tri_body A c e new split d) (seq 0 (N.to_nat n)) (m, []).
Proof. reflexivity. Qed.

Section tri.
Context (A : arith) (c e new : nat) (s0 s1 : nat) (d : bool) (x : pend).
Context (Hw : pw x = N.of_nat new) (H0 : p0 x = N.of_nat s0) (H1 : p1 x = N.of_nat s1).
Notation e' := (N.of_nat e).
Notation P := ({[ e' := x ]} : gmap N pend).
Local Lemma Hx : P !! e' = Some x.
Proof. apply lookup_singleton. Qed.

(** The polygons with the split edge are triangles which pass it against [c]. *)
Definition opposite (V : view) : Prop :=
  forall y l p v, va V D2 y = true -> vp V y = Some l -> l !! p = Some (v, e') -> length l = 3 /\ negb d = bool_decide (v = pa x).

Lemma opposite_mono V V' : settles P V V' -> opposite V -> opposite V'.
Proof.
  intros H Op y l p v Hy Hl Hp. destruct (H y l Hy Hl) as [[B1 B2]|B]; [by apply (Op y l p v)|].
  exfalso. pose proof Hx as X. rewrite (B v e') in X; [done|]. by eapply elem_of_list_lookup_2.
Qed.

Record tri_state (m0 m : mesh) (r : list N) (k : nat) (log : list (nat * nat)) : Prop := {
  ts_reach : reachable m;
  ts_inv : inv P (view_of m);
  ts_opp : opposite (view_of m);
  ts_row : RelRow R12 e m = Ok r;
  ts_c : active D2 m c = false;
  ts_cn : (N.of_nat c < N.of_nat (num D2 m))%N;
  ts_num : num D2 m <= num D2 m0 + 2 * k;
  ts_log : forall y z, (y, z) ∈ log -> (N.of_nat y < N.of_nat (num D2 m))%N /\ active D2 m y = false;
  ts_cut : forall y z, (y, z) ∈ log -> exists g a b, (z = a \/ z = b) /\
    (exists l w, va (view_of m0) D2 (N.of_nat y) = true /\ vp (view_of m0) (N.of_nat y) = Some l /\ (w, e') ∈ l) /\
    forall mo m'', kept P m m'' -> active D2 m'' y = false -> (forall l, vp (view_of m0) (N.of_nat y) = Some l -> polygon mo y l) ->
      half_way A mo m'' e' (pw x) -> cut_in_two A mo m'' y g a b;
  ts_ends : ends (view_of m0) -> ends (view_of m);
  ts_kept : kept P m0 m;
  ts_settles : settles P (view_of m0) (view_of m);
  ts_moves : rtc (move A) (P, m0) (P, m)
}.

Lemma tri_step m0 m r k log s : tri_state m0 m r k log -> k < length r -> (N.of_nat (num D2 m0) + 2 * N.of_nat (S k) <= UINT_MAX)%N ->
  tri_body A c e new [s0; s1] d (m, log) k = Ok s -> tri_state m0 s.1 r (S k) s.2.
Proof.
  intros H Hk Hb E. pose proof (ts_reach _ _ _ _ _ H) as R. pose proof (ts_inv _ _ _ _ _ H) as I.
  destruct (lookup_lt_is_Some_2 r k Hk) as [q Hq].
  pose proof (row_get m R12 e k r q R (ts_row _ _ _ _ _ H) Hq) as Gq.
  assert (Skip : tri_state m0 m r (S k) log).
  { destruct H as [A1 A2 A3 A4 A5 A6 A7 A8 A9 A10 A11 A12 A13]. split; try done. lia. }
  unfold tri_body in E. cbn [fst snd] in E. unfold RelHas in E. rewrite Gq in E. cbn [mbind outcome_bind tgt] in E.
  destruct (q <? N.of_nat (num D2 m))%N eqn:Lq; cbn [negb] in E.
  2:{ by injection E as <-. }
  destruct (N.eqb_spec q (N.of_nat c)) as [Ec|Ec].
  { by injection E as <-. }
  assert (Hin : (q < vn (view_of m) D2)%N) by (cbn; lia).
  destruct (i_pend P _ I e' x Hx) as (Pe1 & Pe2 & Pe3 & Pe4 & Pe5 & Pe6 & Pe7 & Pe8 & Pe9 & Pe10 & rr' & ll' & Pe11 & Pr & Pl).
  assert (Hr : r = [rr'; ll']).
  { cbn in Pe11. rewrite Nat2N.id, (ts_row _ _ _ _ _ H) in Pe11. by injection Pe11. }
  assert (Cases : q = UINT_MAX \/ (vu (view_of m) q = true /\ (q < vn (view_of m) D2)%N) \/
                  exists l w, va (view_of m) D2 q = true /\ vp (view_of m) q = Some l /\ (w, e') ∈ l).
  { rewrite Hr in Hq. destruct k as [|[|k]]; cbn in Hq; [injection Hq as <-; apply Pr|injection Hq as <-; apply Pl|done]. }
  destruct Cases as [->|[[Hu _]|(l & v & Hy & Hl & Mv)]].
  { pose proof (i_small P _ I) as Hs. lia. }
  { rewrite (updated_view m q true R Hin Hu) in E. cbn [mbind outcome_bind] in E. by injection E as <-. }
  destruct (i_poly P _ I q Hy) as (Hu & l0 & Hl0 & G). rewrite Hl in Hl0. injection Hl0 as <-.
  rewrite (updated_view m q false R Hin Hu) in E. cbn [mbind outcome_bind] in E.
  pose proof (proj1 (vp_polygon m q l) Hl) as [Rv Re].
  unfold RelFind in E. rewrite Re in E. cbn [mbind outcome_bind] in E. set (p := find_pos e' (l.*2)) in E.
  destruct (find_pos_spec e' (l.*2)) as (F1 & F2 & F3). fold p in F1, F2, F3. rewrite fmap_length in F1, F3.
  assert (Hp : p < length l).
  { apply elem_of_list_lookup in Mv as [j Hj]. destruct (decide (j < p)) as [L|L].
    - exfalso. apply (F2 j L). by rewrite list_lookup_fmap, Hj.
    - apply lookup_lt_Some in Hj. lia. }
  specialize (F3 Hp). rewrite list_lookup_fmap in F3. destruct (l !! p) as [[u g]|] eqn:Hlp; [|done]. cbn in F3. injection F3 as ->.
  destruct (ts_opp _ _ _ _ _ H q l p u Hy Hl Hlp) as [L3 Hd].
  apply bind_ok in E as ([m' sr] & Es & E). cbn [fst snd] in E. injection E as <-. cbn [fst snd]. destruct sr as [|f cells].
  { unfold SplitPolygon_NewVertexTo in Es. apply bind_ok in Es as (? & _ & Es). apply bind_ok in Es as (? & _ & Es). apply no_split in Es as ->.
    by rewrite app_nil_r. }
  assert (Pa : pending_at P l p new [s0; s1] (negb d) u e' x).
  { split; [done|apply Hx|done|by exists s0, s1|done]. }
  assert (Hl' : vp (view_of m) (N.of_nat (N.to_nat q)) = Some l) by (by rewrite N2Nat.id).
  assert (Alone : forall i v' g, i <> p -> l !! i = Some (v', g) -> P !! g = None).
  { intros i v' g Hi Hg. destruct (P !! g) as [y|] eqn:Hg'; [|done]. exfalso. apply lookup_singleton_Some in Hg' as Hy'. destruct Hy' as [<- <-].
    apply Hi. by eapply (once P _ q l I Hy Hl _ _ _ _ _ _ Hx). }
  pose proof (ts_num _ _ _ _ _ H) as Nb.
  rewrite <- L3 in Es.
  destruct (four_to A P m (N.to_nat q) l R I Hy Hl' ltac:(lia) _ _ _ _ _ _ _ _ _ _ _ Pa Alone Es) as (l1 & l2 & Hrot & W).
  pose proof (wc_replaced _ _ _ _ _ _ _ _ W) as Rp. pose proof (wc_num2 _ _ _ _ _ _ _ _ W) as N2.
  assert (St : settles P (view_of m) (view_of m')) by (eapply cut_settles; [exact I|exact Hy|exact Hl'|exact Hrot|exact W]).
  assert (Off : forall i, (N.of_nat i < N.of_nat (num D2 m))%N -> active D2 m i = false -> active D2 m' i = false).
  { intros i Hi Ai. pose proof (rp_va2 _ _ _ _ Rp (N.of_nat i)) as X. cbn in X. rewrite !Nat2N.id in X.
    rewrite X. case_decide; [done|]. case_decide as Dd; [|exact Ai]. exfalso. clear - Hi Dd. lia. }
  assert (Kp : kept P m m') by (eapply cut_kept; [exact I|exact Hl'|exact W|exact Mv|exact Hx]).
  split.
  - apply (wc_reach _ _ _ _ _ _ _ _ W).
  - apply (wc_inv _ _ _ _ _ _ _ _ W).
  - eapply opposite_mono; [exact St|apply (ts_opp _ _ _ _ _ H)].
  - pose proof (rp_vr _ _ _ _ Rp e' r Pe2) as X. cbn in X. rewrite Nat2N.id, (ts_row _ _ _ _ _ H) in X. specialize (X eq_refl).
    destruct (RelRow R12 e m') as [r'| | | |]; try done. injection X as ->. f_equal. rewrite <- (list_fmap_id r) at 2. apply list_fmap_ext. intros _ i _. cbn.
    unfold redirect. destruct (list_find _ _) as [[j row]|] eqn:Lf; [|done]. exfalso. apply list_find_Some in Lf as (Lf & M & _).
    apply elem_of_list_fmap in M as ([v' g'] & Eg & M). cbn in Eg. subst g'.
    pose proof Hx as X. by rewrite (cut_rows P (N.to_nat q) l l1 l2 f cells m m' I Hy Hl' Hrot W j row Lf v' e' M) in X.
  - apply Off; [apply (ts_cn _ _ _ _ _ H)|apply (ts_c _ _ _ _ _ H)].
  - pose proof (ts_cn _ _ _ _ _ H) as Cn. clear - Cn N2. lia.
  - clear - Nb N2. lia.
  - intros y z [M|M]%elem_of_app.
    + destruct (ts_log _ _ _ _ _ H y z M) as [B1 B2]. split; [clear - B1 N2; lia|by apply Off].
    + apply elem_of_list_fmap in M as (z' & [= -> ->] & _). split; [clear - Hin N2; cbn in Hin; lia|]. by eapply cut_gone.
  - intros y z [M|M]%elem_of_app.
    + destruct (ts_cut _ _ _ _ _ H y z M) as (g & a & b & Hz & Ho & K). exists g, a, b. split; [done|]. split; [done|]. intros mo m'' K''. apply K.
      by eapply kept_trans.
    + apply elem_of_list_fmap in M as (z' & [= -> ->] & M). rewrite (wc_cells _ _ _ _ _ _ _ _ W) in M.
      exists f, (num D2 m), (S (num D2 m)). split.
      { apply elem_of_cons in M as [->|M%elem_of_list_singleton]; [by left|by right]. }
      assert (Old : va (view_of m0) D2 q = true /\ vp (view_of m0) q = Some l).
      { destruct (ts_settles _ _ _ _ _ H q l Hy Hl) as [B|B]; [done|]. pose proof Hx as X. by rewrite (B _ _ Mv) in X. }
      destruct Old as [Old1 Old]. rewrite !N2Nat.id. split; [by exists l, v|].
      intros mo m'' K'' Ay Hpo Hh. eapply (cut_two P (N.to_nat q) l l1 l2 f cells m m' R I Hy Hl' Hrot W A mo m''); [done| | |done].
      * by apply Hpo.
      * intros g y [<- <-]%lookup_singleton_Some. exact Hh.
  - intros En. eapply cut_ends; [exact R|exact I|exact Hy|exact Hl'|exact Hrot|exact W|]. by apply (ts_ends _ _ _ _ _ H).
  - eapply kept_trans; [|apply (ts_kept _ _ _ _ _ H)|]; [done|exact Kp].
  - eapply settles_trans; [apply (ts_settles _ _ _ _ _ H)|done].
  - eapply rtc_r; [apply (ts_moves _ _ _ _ _ H)|]. eapply mv_cut; [done|exact Hy|exact Hl'|exact Hrot|done].
Qed.

Lemma tri_all m s : reachable m -> inv P (view_of m) -> ends (view_of m) -> opposite (view_of m) ->
  active D2 m c = false -> (N.of_nat c < N.of_nat (num D2 m))%N -> (N.of_nat (num D2 m) + 4 <= UINT_MAX)%N ->
  RefineTriangleCell_UpdateNeighbours A c e new [s0; s1] d m = Ok s -> exists r, tri_state m s.1 r 2 s.2.
Proof.
  intros R I En Op Ac Hc Hb E.
  destruct (i_pend P _ I e' x Hx) as (_ & _ & _ & _ & _ & _ & _ & _ & _ & _ & rr' & ll' & Pe11 & _ & _).
  assert (Hrow : RelRow R12 e m = Ok [rr'; ll']).
  { cbn in Pe11. rewrite Nat2N.id in Pe11. destruct (RelRow R12 e m); by simplify_eq. }
  rewrite tri_loop, (row_number m R12 e _ R Hrow) in E. cbn [mbind outcome_bind length] in E. rewrite Nat2N.id in E.
  assert (S0 : tri_state m m [rr'; ll'] 0 []).
  { split; try done; [lia|by intros ? ? ?%elem_of_nil|by intros ? ? ?%elem_of_nil|apply settles_refl]. }
  cbn [seq ofold] in E. apply bind_ok in E as (t & E1 & E). apply bind_ok in E as (u & E2 & E). injection E as <-.
  apply (tri_step m m [rr'; ll']) in E1; [|done|cbn; lia|lia]. destruct t as [m1 log1]. apply (tri_step m m1 [rr'; ll']) in E2; [|done|cbn; lia|lia].
  by exists [rr'; ll'].
Qed.
End tri.

Definition bisected (A : arith) (c e : nat) (d : bool) (m m' : mesh) (r : refine_result) : Prop :=
  match r with
  | Successfull _ _ us f cells => exists q, us = [q] /\ re_original q = e /\ 
      forall m'' log, RefineTriangleCell_UpdateNeighbours A c e (re_vertex q) (re_children q) d m' = Ok (m'', log) ->
        (forall y, neighbour m c e y -> exists z, (y, z) ∈ log) ->
        reachable m'' /\ conforming m'' /\ (exists a b, cells = [a; b] /\ cut_in_two A m m'' c f a b) /\
        (forall y z, (y, z) ∈ log -> neighbour m c e y /\ exists g a b, (z = a \/ z = b) /\ cut_in_two A m m'' y g a b) /\
        rtc (move A) (∅, m) (∅, m'')
  | _ => reachable m' /\ conforming m' /\ as_before m m' /\ rtc (move A) (∅, m) (∅, m')
  end.

Lemma bisect A m c rl edge opp e dc d area lengths m' r :
  reachable m -> (N.of_nat (num D2 m) + 6 <= UINT_MAX)%N -> conforming m -> bisection m c rl edge e dc d ->
  RefineTriangleCell_ByEdge A c edge opp dc area lengths m = Ok (m', r) -> bisected A c e d m m' r.
Proof.
  intros R Hb C [Ac Hrl H3 [v Hq] Hdir Hd Htri] E. unfold RefineTriangleCell_ByEdge in E.
  destruct (small_inv m R ltac:(lia) C) as [I0 En0].
  assert (Hsame : forall r, match r with Successfull _ _ _ _ _ => False | _ => True end -> bisected A c e d m m r).
  { intros [] Hr; try done; (split_and!; [done|done|apply as_before_refl|apply rtc_refl]). }
  apply bind_ok in E as (h & _ & E). destruct h; [injection E as <- <-; by apply Hsame|].
  apply bind_ok in E as (len & _ & E). destruct (_ || _); [injection E as <- <-; by apply Hsame|].
  pose proof Hrl as [_ Re]. rewrite (row_get m E2 c edge (rl.*2) (N.of_nat e) R Re) in E by (by rewrite list_lookup_fmap, Hq). cbn [mbind outcome_bind] in E.
  rewrite (vget_Ok dc edge d Hd), Nat2N.id in E. cbn [mbind outcome_bind] in E. apply bind_ok in E as (s & Es & E). apply bind_ok in E as ([m2 sr] & E2 & E).
  cbn [fst snd] in E.
  assert (vp0 : vp (view_of m) (N.of_nat c) = Some rl) by (apply vp_polygon; by rewrite Nat2N.id).
  assert (G0 : good (view_of m) rl).
  { destruct (i_poly _ _ I0 (N.of_nat c)) as (_ & l & Hl & G); [cbn; by rewrite Nat2N.id|]. rewrite vp0 in Hl. injection Hl as <-. by rewrite virt_empty in G. }
  pose proof (elem_of_list_lookup_2 _ _ _ Hq) as Mq. pose proof (gd_act _ _ G0 _ _ Mq) as [_ Ae]. cbn in Ae. rewrite Nat2N.id in Ae.
  destruct (i_edge _ _ I0 (N.of_nat e)) as (a & b & _ & _ & Hve & _); [cbn; by rewrite Nat2N.id|].
  assert (Hab : a <> b) by (by eapply good_ne).
  assert (Hdv : d = bool_decide (v = a)).
  { destruct (Hdir edge v (N.of_nat e) Hq) as (d' & Hdq & Hiff). rewrite Hd in Hdq. injection Hdq as <-.
    apply ve_ends in Hve as [Ha _]. rewrite Ha in Hiff. destruct d; case_bool_decide as X; try done.
    - destruct X. symmetry. destruct Hiff as [Hiff _]. specialize (Hiff eq_refl). by injection Hiff.
    - destruct Hiff as [_ Hiff]. rewrite X in Hiff. by specialize (Hiff eq_refl). }
  destruct (split_pend A ∅ m e s a b R I0 En0 Ae) as (m1 & -> & R1 & En1 & Co & Sp & Hm & I1 & Mv); [by intros g y Hg; rewrite lookup_empty in Hg|done..|].
  cbn [fst snd] in *. set (x := Pend a b (N.of_nat (num D0 m)) (N.of_nat (num D1 m)) (N.of_nat (S (num D1 m)))) in *.
  change (<[N.of_nat e := x]> ∅) with ({[N.of_nat e := x]} : gmap N pend) in *.
  destruct sr as [|f cells].
  { apply bind_ok in E as (m3 & E3 & [= <- <-]). unfold SplitPolygon_NewVertexTo in E2. apply bind_ok in E2 as (? & _ & E2). apply bind_ok in E2 as (? & _ & E2).
    apply no_split in E2 as ->. destruct (undo_one m R I0 En0 e a b m1 R1 Sp) as (m0 & E0 & Rm0 & Sm & Cm). rewrite E0 in E3. injection E3 as <-.
    split_and!; try done.
    - apply inv_conforming; [done|by eapply same_inv; [apply I0|]|]. intros g a' b' Hg Hab'.
      rewrite (sa_va _ _ Sm) in Hg by done. rewrite (sa_ve _ _ Sm) in Hab' by done. rewrite !(sa_va _ _ Sm) by done. by eapply En0.
    - apply same_before; [done|]. intros i Hi. rewrite Cm by done. by apply Co.
    - apply rtc_once. apply mv_same; [apply I0|done|]. intros i Hi. rewrite Cm by done. by apply Co. }
  injection E as <- <-. eexists. split; [done|]. split; [done|]. cbn [re_vertex re_children].
  intros m'' log Eu Hlog.
  assert (N2 : num D2 m1 = num D2 m) by (pose proof (es_n2 _ _ _ _ _ _ _ _ Sp) as X; cbn in X; lia).
  assert (A1 : active D2 m1 c = true) by (pose proof (es_va2 _ _ _ _ _ _ _ _ Sp (N.of_nat c)) as X; cbn in X; by rewrite Nat2N.id, Ac in X).
  assert (V1 : vp (view_of m1) (N.of_nat c) = Some rl) by (rewrite (es_vp _ _ _ _ _ _ _ _ Sp); apply vp0).
  assert (Px : ({[N.of_nat e := x]} : gmap N pend) !! N.of_nat e = Some x) by apply lookup_singleton.
  rewrite <- H3 in E2.
  destruct (four_to A {[N.of_nat e := x]} m1 c rl R1 I1 A1 V1 ltac:(lia) opp edge (num D0 m) [num D1 m; S (num D1 m)] d v (N.of_nat e) x m2 f cells) as (l1 & l2 & Hrot & W); [| |done|].
  { split; [done|done|done|by eexists _, _|done]. }
  { intros i v' e' Hi Hiq. apply lookup_singleton_ne. intros <-. apply Hi.
    eapply (NoDup_lookup (rl.*2)); [apply (gd_es _ _ G0)| |]; rewrite list_lookup_fmap; [by rewrite Hiq|by rewrite Hq]. }
  pose proof (wc_reach _ _ _ _ _ _ _ _ W) as R2. pose proof (wc_inv _ _ _ _ _ _ _ _ W) as I2. pose proof (wc_num2 _ _ _ _ _ _ _ _ W) as Nc.
  assert (St : settles {[N.of_nat e := x]} (view_of m1) (view_of m2)) by (by eapply cut_settles).
  pose proof (cut_gone _ c l1 l2 f cells m1 m2 W) as Gone.
  assert (Old : forall y l w, va (view_of m2) D2 y = true -> vp (view_of m2) y = Some l -> (w, N.of_nat e) ∈ l ->
    neighbour m c e (N.to_nat y) /\ va (view_of m1) D2 y = true /\ vp (view_of m1) y = Some l /\ polygon m (N.to_nat y) l).
  { intros y l w Hy Hl M. destruct (St y l Hy Hl) as [[B1 B2]|B]; [|by rewrite (B _ _ M) in Px].
    pose proof B1 as B3. rewrite (es_va2 _ _ _ _ _ _ _ _ Sp) in B3. pose proof B2 as B4. rewrite (es_vp _ _ _ _ _ _ _ _ Sp) in B4. apply vp_polygon in B4.
    split; [|done]. split; [|split; [done|by exists l, w]]. intros F. rewrite <- F in Gone. cbn in Hy. congruence. }
  assert (Op : opposite e d x (view_of m2)).
  { intros y l p w Hy Hl Hp. apply elem_of_list_lookup_2 in Hp as M. destruct (Old y l w Hy Hl M) as ((Hyc & Ay & _) & B1 & B2 & B3).
    split; [by eapply Htri|]. rewrite Hdv. cbn [pa x].
    destruct (pending_end _ _ y l w _ x I1 B1 B2 M Px) as [Ew|Ew]; destruct (pending_end _ _ _ rl v _ x I1 ltac:(by cbn; rewrite Nat2N.id) V1 Mq Px) as [Ev|Ev];
      cbn in Ew, Ev; subst w v; try (by rewrite ?(bool_decide_eq_true_2 (a = a)), ?(bool_decide_eq_false_2 (b = a)) by done); exfalso;
      destruct (i_pend _ _ I1 _ x Px) as (_ & _ & _ & _ & _ & _ & _ & _ & _ & _ & r3 & l3 & P3 & [Pr _] & [Pl _]);
      apply Hyc.
    - pose proof (Pl y l B1 B2 M) as X1. pose proof (Pl (N.of_nat c) rl ltac:(by cbn; rewrite Nat2N.id) V1 Mq) as X2. lia.
    - pose proof (Pr y l B1 B2 M) as X1. pose proof (Pr (N.of_nat c) rl ltac:(by cbn; rewrite Nat2N.id) V1 Mq) as X2. lia. }
  pose proof (cut_ends _ c rl l1 l2 f cells m1 m2 R1 I1 A1 V1 Hrot W En1) as En2.
  pose proof (active_num _ _ _ R1 A1) as Lc.
  destruct (tri_all A c e (num D0 m) (num D1 m) (S (num D1 m)) d x eq_refl eq_refl eq_refl m2 (m'', log) R2 I2 En2 Op Gone ltac:(lia) ltac:(lia) Eu) as [r T].
  cbn [fst snd] in T. destruct T as [T1 T2 T3 T4 T5 T6 T7 T8 T9 T10 T11 T12 T13].
  assert (No : forall y l w, va (view_of m'') D2 y = true -> vp (view_of m'') y = Some l -> (w, N.of_nat e) ∉ l).
  { intros y l w Hy Hl M. destruct (T12 y l Hy Hl) as [[B1 B2]|B]; [|by rewrite (B _ _ M) in Px].
    destruct (Old y l w B1 B2 M) as (Hn & _). destruct (Hlog _ Hn) as [z Mz]. destruct (T8 _ _ Mz) as [_ F]. cbn in Hy. congruence. }
  assert (Dl : delete (N.of_nat e) ({[N.of_nat e := x]} : gmap N pend) = ∅) by apply delete_singleton.
  assert (I3 : inv ∅ (view_of m'')) by (rewrite <- Dl; by apply drop_inv).
  assert (Hh : half_way A m m'' (N.of_nat e) (pw x)).
  { unfold half_way. rewrite Nat2N.id. split; [done|]. split.
    { destruct (i_pend _ _ I2 (N.of_nat e) x Px) as (F & F' & _). rewrite <- (kp_edges _ _ _ T11) in F by done. cbn in F. by rewrite Nat2N.id in F. }
    cbn [pw x]. split; [cbn; lia|]. destruct Hm as (p & q' & Hp & Hq' & Hc). pose proof Hve as [Ho Ht]%ve_ends. rewrite Nat2N.id in Ho, Ht.
    exists a, b, p, q'. split_and!; [done..|]. cbn. rewrite Nat2N.id, (kp_coord _ _ _ T11), (wc_coord _ _ _ _ _ _ _ _ W). exact Hc. }
  split_and!; [done|by apply inv_conforming; [| |apply T10]| | |].
  - exists (num D2 m), (S (num D2 m)). rewrite <- N2. split; [apply (wc_cells _ _ _ _ _ _ _ _ W)|].
    eapply (cut_two _ c rl l1 l2 f cells m1 m2 R1 I1 A1 V1 Hrot W A m m''); [exact T11|done| |done].
    by intros g y [<- <-]%lookup_singleton_Some.
  - intros y z M. destruct (T9 y z M) as (g & a' & b' & Hz & (l & w & B1 & B2 & B3) & K). destruct (T8 y z M) as [_ Ay].
    destruct (Old _ l w B1 B2 B3) as (Hn & _ & _ & B4). rewrite Nat2N.id in Hn, B4. split; [done|]. exists g, a', b'. split; [done|]. apply K; [apply kept_refl|done| |done].
    intros l' Hl'. rewrite B2 in Hl'. by injection Hl' as <-.
  - eapply rtc_l; [exact Mv|]. eapply rtc_l; [eapply mv_cut; [exact I1|exact A1|exact V1|exact Hrot|exact W]|].
    eapply rtc_r; [exact T13|]. rewrite <- Dl. by apply mv_drop.
Qed.
