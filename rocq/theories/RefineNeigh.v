(** * The update of the neighbours of a split edge. *)
From Coq Require Import QArith Qcanon.
From Verif Require Import Base BaseProof QcTac FillModel GeoModel MapModel PointModel PolyModel CsrModel MeshModel MeshSpec MeshRep MeshHist MeshProof8 MeshProof9 MeshProofE MeshProofF MeshProg
  UtilModel UtilSpec UtilProofD RefineModel RefineSpec RefineView RefineSplit RefineReplace RefineCut RefineStep RefineStep2 RefineWalk RefineFour RefineUndo RefineMove.
From Coq Require Import ZifyBool ZifyNat ZifyN.
Local Open Scope nat_scope.

(** ** Polygons with a pending edge *)
Lemma fst_once (l : list (N * N)) v e e' : NoDup (l.*1) -> (v, e) ∈ l -> (v, e') ∈ l -> e = e'.
Proof.
  induction l as [|[u g] l IH]; cbn; [by intros _ ?%elem_of_nil|]. intros [H1 H2]%NoDup_cons M M'.
  apply elem_of_cons in M as [M|M]; apply elem_of_cons in M' as [M'|M'].
  - by injection M as -> ->; injection M' as ->.
  - injection M as -> ->. exfalso. apply H1. apply elem_of_list_fmap. by exists (u, e').
  - injection M' as -> ->. exfalso. apply H1. apply elem_of_list_fmap. by exists (u, e).
  - by apply IH.
Qed.
Lemma snd_once (l : list (N * N)) p q v v' e : NoDup (l.*2) -> l !! p = Some (v, e) -> l !! q = Some (v', e) -> p = q.
Proof.
  intros D H H'. eapply (NoDup_lookup (l.*2)); [done| |]; rewrite list_lookup_fmap; [by rewrite H|by rewrite H'].
Qed.

Lemma pending_out P V l e x v : inv P V -> good V (virt P l) -> P !! e = Some x -> (v, e) ∉ virt P l.
Proof.
  intros I G Hx M. apply (gd_act V _ G) in M as [_ M]. destruct (i_pend P V I e x Hx) as (F & _). congruence.
Qed.

Lemma pending_end P V y l v e x : inv P V -> va V D2 y = true -> vp V y = Some l -> (v, e) ∈ l -> P !! e = Some x -> v = pa x \/ v = pb x.
Proof.
  intros I Hy Hl M Hx. destruct (i_poly P V I y Hy) as (_ & k & Hk & G). rewrite Hl in Hk. injection Hk as <-.
  destruct (decide (v = pa x)) as [E|E]; [by left|right].
  destruct (i_pend P V I e x Hx) as (_ & _ & _ & _ & _ & _ & Hne & _ & E0 & E1 & _).
  assert (M1 : (v, p1 x) ∈ virt P l).
  { apply elem_virt. right. exists v, e, x. split_and!; [done..|]. apply elem_expand1. right. split; [done|]. by left. }
  assert (M0 : (pw x, p0 x) ∈ virt P l).
  { apply elem_virt. right. exists v, e, x. split_and!; [done..|]. apply elem_expand1. right. split; [done|]. by right. }
  destruct (linked_at V _ _ v (p1 x) (gd_link V _ G) M1) as (u & [J|J] & _); rewrite E1 in J; injection J as J1 J2.
  - exfalso. subst v. apply Hne. symmetry. by eapply (fst_once (virt P l)); [apply (gd_vs V _ G)|..].
  - done.
Qed.

(** The edges of an active polygon are different, pending or not. *)
Lemma once P V y l : inv P V -> va V D2 y = true -> vp V y = Some l -> forall p q v v' e x, P !! e = Some x ->
  l !! p = Some (v, e) -> l !! q = Some (v', e) -> p = q.
Proof.
  intros I Hy Hl. destruct (i_poly P V I y Hy) as (_ & k & Hk & G). rewrite Hl in Hk. injection Hk as <-.
  enough (X : forall p q v v' e x, P !! e = Some x -> p < q -> l !! p = Some (v, e) -> l !! q = Some (v', e) -> False).
  { intros p q v v' e x Hx H H'. destruct (lt_eq_lt_dec p q) as [[L|L]|L]; [exfalso; by eapply (X p q)|done|exfalso; by eapply (X q p)]. }
  intros p q v v' e x Hx L H H'. pose proof (gd_vs V _ G) as D.
  rewrite <- (take_drop_middle l p _ H) in D. rewrite virt_app, virt_cons, !fmap_app in D. apply NoDup_app in D as (_ & _ & D).
  apply NoDup_app in D as (_ & D & _). apply (D (pw x)).
  - apply elem_of_list_fmap. exists (pw x, if decide (v = pa x) then p1 x else p0 x). split; [done|].
    unfold expand. cbn. rewrite Hx. apply elem_expand1. case_decide; [left|right]; (split; [done|by right]).
  - apply elem_of_list_fmap. exists (pw x, if decide (v' = pa x) then p1 x else p0 x). split; [done|].
    apply elem_virt. right. exists v', e, x. split; [done|]. split.
    + apply elem_of_list_lookup. exists (q - S p). rewrite lookup_drop. by replace (S p + (q - S p)) with q by lia.
    + apply elem_expand1. case_decide; [left|right]; (split; [done|by right]).
Qed.

(** Neighbours can be updated: the directions are those of the polygons and a polygon has at most one pending edge. *)
Definition ready (P : gmap N pend) (directions : list (list bool)) (V : view) (e : N) (x : pend) : Prop :=
  forall y l p v, va V D2 y = true -> vp V y = Some l -> l !! p = Some (v, e) ->
    (exists ds, directions !! N.to_nat y = Some ds /\ ds !! p = Some (bool_decide (v = pa x))) /\
    (forall u g, (u, g) ∈ l -> g <> e -> P !! g = None).

(** New polygons have no pending edges. *)
Definition settles (P : gmap N pend) (V V' : view) : Prop :=
  forall y l, va V' D2 y = true -> vp V' y = Some l ->
    (va V D2 y = true /\ vp V y = Some l) \/ (forall v e, (v, e) ∈ l -> P !! e = None).

Lemma ready_mono P ds V V' e x : P !! e = Some x -> settles P V V' -> ready P ds V e x -> ready P ds V' e x.
Proof.
  intros Hx H Rd y l p v Hy Hl Hp. destruct (H y l Hy Hl) as [[A B]|A]; [by apply (Rd y l p v)|].
  exfalso. rewrite (A v e) in Hx; [done|]. by eapply elem_of_list_lookup_2.
Qed.

Lemma settles_refl P V : settles P V V.
Proof. intros y l Hy Hl. by left. Qed.
Lemma settles_trans P V V' V'' : settles P V V' -> settles P V' V'' -> settles P V V''.
Proof. intros A B y l Hy Hl. destruct (B y l Hy Hl) as [[Hy' Hl']|C]; [by apply A|by right]. Qed.

(** Polygons without pending edges are kept, with the state of the edges and the points. *)
Record kept (P : gmap N pend) (m m' : mesh) : Prop := {
  kp_poly : forall y l, va (view_of m) D2 y = true -> vp (view_of m) y = Some l -> (forall v e, (v, e) ∈ l -> P !! e = None) ->
    va (view_of m') D2 y = true /\ vp (view_of m') y = Some l;
  kp_num : (vn (view_of m) D1 <= vn (view_of m') D1)%N;
  kp_edges : forall i, (i < vn (view_of m) D1)%N -> va (view_of m') D1 i = va (view_of m) D1 i;
  kp_coord : forall i, Cell0DCoordinates i m' = Cell0DCoordinates i m
}.
Lemma kept_refl P m : kept P m m.
Proof. by split. Qed.
Lemma kept_trans P Q m m' m'' : (forall e, P !! e = None -> Q !! e = None) -> kept P m m' -> kept Q m' m'' -> kept P m m''.
Proof.
  intros PQ [A1 A0 A2 A3] [B1 B0 B2 B3]. split.
  - intros y l Hy Hl Hn. destruct (A1 y l Hy Hl Hn). apply B1; [done|done|]. intros v e M. by eapply PQ, Hn.
  - by etransitivity.
  - intros i Hi. rewrite B2; [by apply A2|lia].
  - intros i. by rewrite B3.
Qed.

Lemma pick_seq {A} (l : list A) a k : a + k <= length l -> pick l (seq a k) = take k (drop a l).
Proof.
  revert a. induction k as [|k IH]; intros a H; [by rewrite take_0|]. cbn [seq]. unfold pick. cbn.
  destruct (lookup_lt_is_Some_2 l a ltac:(lia)) as [x Hx]. rewrite Hx. rewrite (drop_S l x a Hx). cbn. f_equal. apply IH. lia.
Qed.

(** ** One neighbour *)
Definition nb_body (c e new : nat) (split : list nat) (directions : list (list bool)) (s : mesh * list (nat * nat)) (k : nat)
  : outcome (mesh * list (nat * nat)) :=
  h ← RelHas R12 e k s.1;
  if negb h then Ok s else
  x ← RelGet R12 e k s.1;
  if (x =? N.of_nat c)%N then Ok s else
  let x := N.to_nat x in
  u ← HasUpdateds D2 x s.1;
  if u : bool then Ok s else
  nv ← RelNumber V2 x s.1;
  let nv := N.to_nat nv in
  p ← RelFind E2 x (N.of_nat e) s.1;
  ds ← vget directions x;
  d ← vget ds p;
  v0 ← vertices_at x (seq 0 p) s.1;
  e0 ← edges_at x (seq 0 p) s.1;
  v ← RelGet V2 x p s.1;
  h0 ← half d split 0;
  h1 ← half d split 1;
  v1 ← vertices_at x (seq (p + 1) (nv - (p + 1))) s.1;
  e1 ← edges_at x (seq (p + 1) (nv - (p + 1))) s.1;
  r ← SplitCell2D x [zip v0 e0 ++ (v, h0) :: (N.of_nat new, h1) :: zip v1 e1] s.1;
  Ok (r.1, s.2 ++ ((fun y => (x, y)) <$> r.2)).

Lemma nb_loop c e new split directions m : RefinePolygonCell_UpdateNeighbours c e new split directions m =
  n ← RelNumber R12 e m; ofold (nb_body c e new split directions) (seq 0 (N.to_nat n)) (m, []).
Proof. reflexivity. Qed.

Lemma row_number m r i row : reachable m -> RelRow r i m = Ok row -> RelNumber r i m = Ok (N.of_nat (length row)).
Proof.
  intros R. destruct (rr_of m R) as [a [_ Ra]]. rewrite (g_row _ _ Ra), (g_count _ _ Ra). unfold look.
  destruct (am_cells a (src r) !! i) as [x|]; [|done]. by intros [= <-].
Qed.

Lemma updated_view m i b : reachable m -> (i < vn (view_of m) D2)%N -> vu (view_of m) i = b -> HasUpdateds D2 (N.to_nat i) m = Ok b.
Proof.
  intros R Hi. cbn in Hi. cbn. destruct (getters_ok m R) as (_ & _ & _ & _ & _ & _ & U & _).
  destruct (U D2 (N.to_nat i)) as [b' ->]; [lia|]. by intros ->.
Qed.

Section neigh.
Context (A : arith) (P : gmap N pend) (c e new : nat) (s0 s1 : nat) (directions : list (list bool)) (x : pend).
Context (Hx : P !! N.of_nat e = Some x) (Hw : pw x = N.of_nat new) (H0 : p0 x = N.of_nat s0) (H1 : p1 x = N.of_nat s1).
Notation e' := (N.of_nat e).

(** The state of the loop: the first [k] neighbours are not active any more. *)
Record nb_state (m0 m : mesh) (r : list N) (k : nat) : Prop := {
  nb_reach : reachable m;
  nb_inv : inv P (view_of m);
  nb_ready : ready P directions (view_of m) e' x;
  nb_row : RelRow R12 e m = Ok r;
  nb_c : active D2 m c = false;
  nb_cn : (N.of_nat c < N.of_nat (num D2 m))%N;
  nb_num : num D2 m <= num D2 m0 + k;
  nb_num0 : num D0 m = num D0 m0;
  nb_num1 : num D1 m = num D1 m0;
  nb_coord : forall i, Cell0DCoordinates i m = Cell0DCoordinates i m0;
  nb_done : forall j q, j < k -> r !! j = Some q -> active D2 m (N.to_nat q) = false;
  nb_settles : settles P (view_of m0) (view_of m);
  nb_ends : ends (view_of m0) -> ends (view_of m);
  nb_kept : kept P m0 m;
  nb_moves : rtc (move A) (P, m0) (P, m)
}.

Lemma nb_step m0 m r k log : nb_state m0 m r k -> k < length r -> (N.of_nat (num D2 m0) + N.of_nat (S k) <= UINT_MAX)%N ->
  exists m' log', nb_body c e new [s0; s1] directions (m, log) k = Ok (m', log') /\ nb_state m0 m' r (S k).
Proof.
  intros H Hk Hb. pose proof (nb_reach _ _ _ _ H) as R. pose proof (nb_inv _ _ _ _ H) as I.
  destruct (lookup_lt_is_Some_2 r k Hk) as [q Hq].
  pose proof (row_get m R12 e k r q R (nb_row _ _ _ _ H) Hq) as Gq.
  assert (Skip : active D2 m (N.to_nat q) = false -> nb_state m0 m r (S k)).
  { intros Hi. destruct H as [A1 A2 A3 A4 A5 A6 A7 A8 A9 A10 A11 A12 A13 A15 A14]. split; try done; [lia|].
    intros j q' Hj Hq'. destruct (decide (j = k)) as [->|Hne]; [|eapply A11; [|done]; lia]. rewrite Hq in Hq'. by injection Hq' as <-. }
  unfold nb_body. cbn [fst snd]. unfold RelHas. rewrite Gq. cbn [mbind outcome_bind tgt].
  destruct (q <? N.of_nat (num D2 m))%N eqn:Lq; cbn [negb].
  2:{ exists m, log. split; [done|]. apply Skip. apply active_ge; [done|]. lia. }
  destruct (N.eqb_spec q (N.of_nat c)) as [Ec|Ec].
  { exists m, log. split; [done|]. apply Skip. rewrite Ec, Nat2N.id. apply (nb_c _ _ _ _ H). }
  assert (Hin : (q < vn (view_of m) D2)%N) by (cbn; lia).
  destruct (i_pend P _ I e' x Hx) as (Pe1 & Pe2 & Pe3 & Pe4 & Pe5 & Pe6 & Pe7 & Pe8 & Pe9 & Pe10 & rr' & ll' & Pe11 & Pr & Pl).
  assert (Hr : r = [rr'; ll']).
  { cbn in Pe11. rewrite Nat2N.id, (nb_row _ _ _ _ H) in Pe11. by injection Pe11. }
  assert (Cases : q = UINT_MAX \/ (vu (view_of m) q = true /\ (q < vn (view_of m) D2)%N) \/
                  exists l w, va (view_of m) D2 q = true /\ vp (view_of m) q = Some l /\ (w, e') ∈ l).
  { rewrite Hr in Hq. destruct k as [|[|k]]; cbn in Hq; [injection Hq as <-; apply Pr|injection Hq as <-; apply Pl|done]. }
  destruct Cases as [->|[[Hu _]|(l & v & Hy & Hl & Mv)]].
  { pose proof (i_small P _ I) as Hs. lia. }
  { rewrite (updated_view m q true R Hin Hu). cbn [mbind outcome_bind]. exists m, log. split; [done|]. apply Skip.
    destruct (active D2 m (N.to_nat q)) eqn:Ac; [|done]. destruct (i_poly P _ I q Ac) as [F _]. congruence. }
  destruct (i_poly P _ I q Hy) as (Hu & l0 & Hl0 & G). rewrite Hl in Hl0. injection Hl0 as <-.
  rewrite (updated_view m q false R Hin Hu). cbn [mbind outcome_bind].
  pose proof (proj1 (vp_polygon m q l) Hl) as [Rv Re].
  rewrite (row_number m V2 (N.to_nat q) _ R Rv). cbn [mbind outcome_bind]. rewrite fmap_length, Nat2N.id.
  unfold RelFind. rewrite Re. cbn [mbind outcome_bind]. set (p := find_pos e' (l.*2)).
  destruct (find_pos_spec e' (l.*2)) as (F1 & F2 & F3). fold p in F1, F2, F3. rewrite fmap_length in F1, F3.
  assert (Hp : p < length l).
  { apply elem_of_list_lookup in Mv as [j Hj]. destruct (decide (j < p)) as [L|L].
    - exfalso. apply (F2 j L). by rewrite list_lookup_fmap, Hj.
    - apply lookup_lt_Some in Hj. lia. }
  specialize (F3 Hp). rewrite list_lookup_fmap in F3. destruct (l !! p) as [[u g]|] eqn:Hlp; [|done]. cbn in F3. injection F3 as ->.
  destruct (nb_ready _ _ _ _ H q l p u Hy Hl Hlp) as ((ds & Hds & Hd) & Alone).
  rewrite (vget_Ok directions (N.to_nat q) ds Hds). cbn [mbind outcome_bind]. rewrite (vget_Ok ds p _ Hd). cbn [mbind outcome_bind].
  unfold vertices_at, edges_at.
  assert (B1 : Forall (fun i => i < length l) (seq 0 p)) by (apply Forall_forall; intros i Mi; apply elem_of_seq in Mi; lia).
  assert (B2 : Forall (fun i => i < length l) (seq (p + 1) (length l - (p + 1)))) by (apply Forall_forall; intros i Mi; apply elem_of_seq in Mi; lia).
  rewrite (get_all m V2 (N.to_nat q) (seq 0 p) (l.*1) R Rv) by (by rewrite fmap_length). cbn [mbind outcome_bind].
  rewrite (get_all m E2 (N.to_nat q) (seq 0 p) (l.*2) R Re) by (by rewrite fmap_length). cbn [mbind outcome_bind].
  rewrite (row_get m V2 (N.to_nat q) p (l.*1) u R Rv) by (by rewrite list_lookup_fmap, Hlp). cbn [mbind outcome_bind].
  rewrite half_0, half_1. cbn [mbind outcome_bind].
  rewrite (get_all m V2 (N.to_nat q) (seq (p + 1) (length l - (p + 1))) (l.*1) R Rv) by (by rewrite fmap_length). cbn [mbind outcome_bind].
  rewrite (get_all m E2 (N.to_nat q) (seq (p + 1) (length l - (p + 1))) (l.*2) R Re) by (by rewrite fmap_length). cbn [mbind outcome_bind].
  rewrite <- !pick_fmap, !zip_fst_snd. rewrite (pick_seq l 0 p) by lia. rewrite (pick_seq l (p + 1)) by lia. rewrite drop_0.
  rewrite (take_ge (drop (p + 1) l)) by (rewrite drop_length; lia).
  match goal with |- context [SplitCell2D _ [?t] m] => set (l' := t) end.
  assert (Hv : virt P l = l').
  { rewrite <- (take_drop_middle l p _ Hlp), virt_app, virt_cons.
    rewrite (virt_none P (take p l)), (virt_none P (drop (S p) l)).
    - unfold l'. rewrite Nat.add_1_r. f_equal. unfold expand. cbn. rewrite Hx. unfold expand1. rewrite Hw, H0, H1. by case_bool_decide; case_decide.
    - intros u' g' M. assert (g' <> e').
      { intros ->. apply elem_of_list_lookup in M as [j Hj]. rewrite lookup_drop in Hj. pose proof (once P _ q l I Hy Hl _ _ _ _ _ _ Hx Hlp Hj). lia. }
      eapply Alone; [|done]. apply elem_of_list_lookup in M as [j Hj]. rewrite lookup_drop in Hj. by eapply elem_of_list_lookup_2.
    - intros u' g' M. assert (g' <> e').
      { intros ->. apply elem_of_list_lookup in M as [j Hj]. apply lookup_take_Some in Hj as [Hj L]. pose proof (once P _ q l I Hy Hl _ _ _ _ _ _ Hx Hlp Hj). lia. }
      eapply Alone; [|done]. apply elem_of_list_lookup in M as [j Hj]. apply lookup_take_Some in Hj as [Hj L]. by eapply elem_of_list_lookup_2. }
  pose proof G as G'. rewrite Hv in G'.
  destruct (split_view m (N.to_nat q) [l'] R Hy) as (m' & Es & R' & Rp & Va1 & Nn1 & Nn0 & Co & Rr & _); [done| |].
  { apply Forall_singleton. split; apply Forall_forall; intros i (pr & -> & M)%elem_of_list_fmap; destruct pr as [i1 i2];
      apply (gd_act _ _ G') in M as [M1 M2]; [apply (i_lt P _ I D0) in M1; exact M1|apply (i_lt P _ I D1) in M2; exact M2]. }
  rewrite Es. cbn [mbind outcome_bind fst snd]. eexists m', _. split; [done|]. rewrite N2Nat.id in Rp.
  pose proof (rp_n2 _ _ _ _ Rp) as N2. cbn [length] in N2. cbn in N2. pose proof (nb_num _ _ _ _ H) as Nb.
  assert (I' : inv P (view_of m')).
  { eapply (halve_inv P (view_of m) (view_of m') q l l' I Rp Hy Hl Hv); [|done]. rewrite (rp_n2 _ _ _ _ Rp). cbn. lia. }
  assert (St : settles P (view_of m) (view_of m')).
  { intros y k0 Hy' Hk'. destruct (act_cases P _ _ _ _ y I Rp Hy') as [(B1' & _ & _ & B4)|(j & row & -> & Ej & B)].
    - left. split; [done|]. by rewrite <- B4.
    - right. rewrite B in Hk'. injection Hk' as <-. destruct j as [|j]; cbn in Ej; [|done]. injection Ej as <-.
      intros v' g' M. destruct (P !! g') as [z|] eqn:Ez; [|done]. exfalso. rewrite <- Hv in M. by eapply (pending_out P _ l g' z v' I G). }
  assert (Off : forall i, (i < vn (view_of m) D2)%N -> active D2 m (N.to_nat i) = false -> active D2 m' (N.to_nat i) = false).
  { intros i Hi Ai. pose proof (rp_va2 _ _ _ _ Rp i) as X. change (va (view_of m') D2 i) with (active D2 m' (N.to_nat i)) in X.
    rewrite X. case_decide; [done|]. case_decide as Dd; [|exact Ai]. exfalso. clear - Hi Dd. lia. }
  split.
  - done.
  - done.
  - eapply ready_mono; [done|exact St|apply (nb_ready _ _ _ _ H)].
  - rewrite Rr, (nb_row _ _ _ _ H). f_equal. rewrite <- (list_fmap_id r) at 2. apply list_fmap_ext. intros _ i _. cbn.
    unfold redirect. destruct (list_find _ _) as [[j row]|] eqn:Lf; [|done]. exfalso. apply list_find_Some in Lf as (Lf & M & _).
    destruct j as [|j]; cbn in Lf; [|done]. injection Lf as <-. apply elem_of_list_fmap in M as ([v' g'] & Eg & M). cbn in Eg. subst g'.
    rewrite <- Hv in M. by eapply (pending_out P _ l e' x v' I G).
  - rewrite <- (Nat2N.id c). apply Off; [cbn; apply (nb_cn _ _ _ _ H)|rewrite Nat2N.id; apply (nb_c _ _ _ _ H)].
  - pose proof (nb_cn _ _ _ _ H) as Cn. clear - Cn N2. lia.
  - clear - Nb N2. lia.
  - rewrite Nn0. apply (nb_num0 _ _ _ _ H).
  - rewrite Nn1. apply (nb_num1 _ _ _ _ H).
  - intros i. rewrite Co. apply (nb_coord _ _ _ _ H).
  - intros j q' Hj Hq'. destruct (decide (j = k)) as [->|Hne].
    + rewrite Hq in Hq'. injection Hq' as <-. pose proof (rp_va2 _ _ _ _ Rp q) as X. rewrite decide_True in X by done. exact X.
    + assert (Aq0 : active D2 m (N.to_nat q') = false) by (eapply (nb_done _ _ _ _ H j); [clear - Hj Hne; lia|done]).
      destruct (decide (q' < N.of_nat (num D2 m))%N) as [L|L]; [by apply Off|].
      destruct (active D2 m' (N.to_nat q')) eqn:Aq; [|done]. exfalso.
      assert (q' = UINT_MAX \/ (q' < vn (view_of m) D2)%N) as [->|L'].
      { assert (X : forall v, pslot (view_of m) e' v q' -> q' = UINT_MAX \/ (q' < vn (view_of m) D2)%N).
        { intros v' [_ [?|[[_ ?]|(l1 & w1 & Ha & _)]]]; [by left|by right|]. right. by apply (i_lt P _ I D2). }
        rewrite Hr in Hq'. destruct j as [|[|j]]; cbn in Hq'; [injection Hq' as <-; by eapply X|injection Hq' as <-; by eapply X|done]. }
      * assert (va (view_of m') D2 UINT_MAX = true) as X%(i_lt P _ I') by exact Aq. pose proof (i_small P _ I') as Hs. clear - X Hs. lia.
      * cbn in L'. clear - L L'. lia.
  - eapply settles_trans; [apply (nb_settles _ _ _ _ H)|done].
  - intros En. specialize (nb_ends _ _ _ _ H En) as En'. intros g a b Hg Hab. rewrite Va1 in Hg. rewrite !(rp_va0 _ _ _ _ Rp).
    apply (En' g a b Hg). rewrite <- Hab. symmetry. apply (rp_ve _ _ _ _ Rp). by apply (i_lt P _ I D1).
  - eapply kept_trans; [|apply (nb_kept _ _ _ _ H)|split; [|cbn; rewrite Nn1; done|done|done]]; [done|].
    intros y k0 Hy' Hk' Hn. pose proof (i_lt P _ I D2 y Hy') as Ly. split.
    + rewrite (rp_va2 _ _ _ _ Rp). rewrite decide_False by (intros ->; rewrite Hl in Hk'; injection Hk' as <-;
        apply elem_of_list_lookup_2 in Hlp; rewrite (Hn _ _ Hlp) in Hx; done).
      rewrite decide_False; [done|]. clear - Ly. lia.
    + by rewrite (rp_vp _ _ _ _ Rp).
  - eapply rtc_r; [apply (nb_moves _ _ _ _ H)|]. eapply mv_halve; [done|exact Hy|exact Hl|by rewrite Hv|done|done].
Qed.

(** ** All neighbours *)
Lemma nb_all m : reachable m -> inv P (view_of m) -> ready P directions (view_of m) e' x ->
  active D2 m c = false -> (N.of_nat c < N.of_nat (num D2 m))%N -> (N.of_nat (num D2 m) + 2 <= UINT_MAX)%N ->
  exists m' log, RefinePolygonCell_UpdateNeighbours c e new [s0; s1] directions m = Ok (m', log) /\ reachable m' /\
    inv (delete e' P) (view_of m') /\ settles P (view_of m) (view_of m') /\ active D2 m' c = false /\ (N.of_nat c < N.of_nat (num D2 m'))%N /\
    num D2 m' <= num D2 m + 2 /\ num D0 m' = num D0 m /\ num D1 m' = num D1 m /\ (forall i, Cell0DCoordinates i m' = Cell0DCoordinates i m) /\
    (ends (view_of m) -> ends (view_of m')) /\ kept P m m' /\ rtc (move A) (P, m) (delete e' P, m').
Proof.
  intros R I Rd Ac Hc Hb.
  destruct (i_pend P _ I e' x Hx) as (_ & _ & _ & _ & _ & _ & _ & _ & _ & _ & rr' & ll' & Pe11 & _ & _).
  assert (Hrow : RelRow R12 e m = Ok [rr'; ll']).
  { cbn in Pe11. rewrite Nat2N.id in Pe11. destruct (RelRow R12 e m); by simplify_eq. }
  rewrite nb_loop, (row_number m R12 e _ R Hrow). cbn [mbind outcome_bind length]. rewrite Nat2N.id.
  assert (S0 : nb_state m m [rr'; ll'] 0).
  { split; try done; [lia|intros; lia|apply settles_refl]. }
  destruct (nb_step m m [rr'; ll'] 0 [] S0) as (m1 & log1 & E1 & S1); [cbn; lia|lia|].
  destruct (nb_step m m1 [rr'; ll'] 1 log1 S1) as (m2 & log2 & E2 & S2); [cbn; lia|lia|].
  exists m2, log2. cbn [seq ofold]. rewrite E1. cbn [mbind outcome_bind]. rewrite E2. cbn [mbind outcome_bind]. split; [done|].
  destruct S2 as [A1 A2 A3 A4 A5 A6 A7 A8 A9 A10 A11 A12 A13 A15 A14]. 
  assert (No : forall y l v, va (view_of m2) D2 y = true -> vp (view_of m2) y = Some l -> (v, e') ∉ l).
  2:{ split_and!; try done; [by apply drop_inv|]. eapply rtc_r; [exact A14|]. by apply mv_drop. }
  intros y l v Hy Hl M.
  destruct (i_pend P _ A2 e' x Hx) as (_ & _ & _ & _ & _ & _ & _ & _ & _ & _ & r3 & l3 & P3 & Pr & Pl).
  cbn in P3. rewrite Nat2N.id, A4 in P3. injection P3 as -> ->.
  destruct (pending_end P _ y l v e' x A2 Hy Hl M Hx) as [-> | ->].
  - destruct Pl as [Pl _]. rewrite <- (Pl y l Hy Hl M) in Hy. cbn in Hy. rewrite (A11 1 l3) in Hy; [done|lia|done].
  - destruct Pr as [Pr _]. rewrite <- (Pr y l Hy Hl M) in Hy. cbn in Hy. rewrite (A11 0 r3) in Hy; [done|lia|done].
Qed.
End neigh.
