(** C17: splitting edges, polygons and polyhedra. *)
From Verif Require Import Base BaseProof CsrModel CsrSpec CsrProof MeshModel MeshSpec MeshRep MeshHist
  MeshProof MeshProof2 MeshProof3 MeshProof4 MeshProof5 MeshProof6 MeshProof7 MeshProof8 MeshProof9 MeshProofA MeshProofB
  MeshProofC MeshProofD MeshProofE MeshProg MeshWit UtilModel UtilSpec UtilProofA UtilProofB UtilProofC UtilProofD UtilProofF UtilProofG.
From Coq Require Import ZifyBool ZifyNat ZifyN.

Section steps.
Context (a : amesh) (d : dim) (parent n : nat) (p : acell).
Context (Hd : d <> D0) (Hp : am_cells a d !! parent = Some p).
Context (own : nat -> acell -> acell) (reds : list (rel * (nat -> list N))) (inhs : list rel).
Context (Hok : split_ok d own reds inhs).

Notation n0 := (anum d a).
Notation b := (aappend d n a).
Notation new := (new_cell d (length (am_names a d))).
Notation F k := (Fk a d parent p own reds inhs k).

(** What the later steps of a pass need to know about the cell function. *)
Definition mid (k : nat) (G : cellfun) : Prop :=
  (forall r, ac_rel (G d parent p) r = ac_rel p r) /\ ac_mark (G d parent p) = ac_mark p.

Lemma step_own P k : k < n ->
  does P (amap (F k) b) (amap (also (F k) d (n0 + k) (own k)) b) ->
  does (fun m => m' ← P m; adopt d parent (n0 + k) m') (amap (F k) b) (amap (own_step a d parent p own k (F k)) b).
Proof.
  intros Hk HP. pose proof (parent_lt a d parent p Hp) as Hpl. eapply does_bind; [exact HP|].
  unfold own_step. replace (ac_mark p) with (ac_mark (also (F k) d (n0 + k) (own k) d parent p)).
  - apply adopt_ok; [by apply b_parent|by apply b_child_lt].
  - rewrite also_other by (intros [_ ?]; lia). apply (Fk_parent a d parent p Hp own reds inhs Hok k p).
Qed.

Lemma own_step_parent k : k < n -> forall r, ac_rel (own_step a d parent p own k (F k) d parent p) r = ac_rel p r.
Proof.
  intros Hk r. pose proof (parent_lt a d parent p Hp) as Hpl. unfold own_step. rewrite adopted_parent by lia.
  rewrite also_other by (intros [_ ?]; lia). cbn. apply (Fk_parent a d parent p Hp own reds inhs Hok k p).
Qed.

Lemma own_step_child k : k < n ->
  own_step a d parent p own k (F k) d (n0 + k) new = adopted_cell parent (ac_mark p) (own k new).
Proof.
  intros Hk. pose proof (parent_lt a d parent p Hp) as Hpl. unfold own_step. rewrite adopted_child by (done || lia).
  rewrite also_here. by rewrite (Fk_new a d parent p Hp own reds inhs Hok).
Qed.

Lemma red_step_dim k G q i x : src q.1 <> d -> red_step a d parent k G q d i x = G d i x.
Proof. intros Hs. unfold red_step, red_cells. rewrite decide_False; [done|]. intros [? _]. congruence. Qed.

Lemma step_red k G q row : k < n -> q ∈ reds -> all_below (anum (src q.1) a) (q.2 k) ->
  (forall m, rr m (amap G b) -> row m = Ok (q.2 k)) ->
  does (redirect_all q.1 parent (n0 + k) row) (amap G b) (amap (red_step a d parent k G q) b).
Proof.
  intros Hk Hq Hb Hrow. pose proof (parent_lt a d parent p Hp) as Hpl. destruct (so_reds _ _ _ _ Hok q Hq) as [Hs Ht].
  assert (Hnum : anum (src q.1) b = anum (src q.1) a) by (rewrite aappend_num, decide_False by done; lia).
  apply redirect_all_ok; rewrite ?Ht; [pose proof (b_num a d n d); lia|by apply b_child_lt|lia|by rewrite Hnum|done].
Qed.

Lemma step_inh k G r : k < n -> r ∈ inhs -> is_neighbour r = true ->
  ac_rel (G d parent p) r = ac_rel p r -> ac_rel (G d (n0 + k) new) r = [] ->
  does (inherit r parent (n0 + k)) (amap G b) (amap (inh_cells a d p k G r) b).
Proof.
  intros Hk Hr Hn H1 H2. pose proof (parent_lt a d parent p Hp) as Hpl. destruct (so_inhs _ _ _ _ Hok r Hr) as (Hs & Ht & _).
  assert (Hnum : anum (tgt r) b = anum (tgt r) a) by (rewrite aappend_num, decide_False by done; lia).
  unfold inh_cells, inh_row. rewrite <- H1, <- Hnum.
  replace (also G d (n0 + k)) with (also G (src r) (n0 + k)) by (by rewrite Hs).
  replace (G d parent p) with (G (src r) parent p) by (by rewrite Hs).
  apply inherit_ok with (q := new); [done|lia|rewrite Hs; by apply b_parent|rewrite Hs; by apply b_child|by rewrite Hs].
Qed.

Lemma inh_cells_parent k G r x : inh_cells a d p k G r d parent x = G d parent x.
Proof. pose proof (parent_lt a d parent p Hp). apply also_other. intros [_ ?]; lia. Qed.

Lemma inh_cells_child k G r x : inh_cells a d p k G r d (n0 + k) x = with_row r (inh_row a p r) (G d (n0 + k) x).
Proof. apply also_here. Qed.

(** The whole: append, deactivate the parent, and the loop. *)
Lemma split_run {A} (l : list A) (body : nat -> mesh -> A -> outcome mesh) m :
  rr m a -> length l = n ->
  (forall k x, l !! k = Some x -> does (fun m => body n0 m x) (amap (F k) b) (amap (F (S k)) b)) ->
  exists m', (ms ← CellAppend d n m; m ← SetState d parent false ms.1; m ← ofold (body ms.2) l m; Ok (m, seq ms.2 n))
             = Ok (m', seq (num d m) n) /\ rr m' (amap (F n) b).
Proof.
  intros Hm Hl Hbody. destruct (does_Append d n a m Hm) as (m1 & E1 & Hm1). rewrite E1. cbn [mbind outcome_bind fst snd].
  pose proof (rr_aeq _ _ _ Hm1 (amap_keep b)) as Hk1.
  assert (Hlt : parent < anum d b) by (pose proof (parent_lt a d parent p Hp); pose proof (b_num a d n d); lia).
  destruct (does_State keep b d parent false Hlt m1 Hk1) as (m2 & E2 & Hm2).
  rewrite E2. cbn [mbind outcome_bind].
  destruct (does_loop (body n0) l (fun k => amap (F k) b) Hbody m2 Hm2) as (m3 & E3 & Hm3).
  rewrite E3. cbn [mbind outcome_bind]. exists m3. rewrite (g_num _ _ (proj2 Hm)). rewrite Hl in Hm3. done.
Qed.
End steps.

Lemma read_row_amap r c m G a x : rr m (amap G a) -> am_cells a (src r) !! c = Some x ->
  read_row r c m = Ok (ac_rel (G (src r) c x) r).
Proof.
  intros Hm Hx. pose proof (proj2 Hm) as R. rewrite read_row_ok; [|apply Hm|].
  - rewrite (g_row _ _ R). unfold look. by rewrite amap_lookup, Hx.
  - rewrite (g_num _ _ R), amap_num. by eapply lookup_lt_Some.
Qed.

(** ** Edges *)
Lemma vertex_0 e m : Cell1DVertex e 0 m = Cell1DOrigin e m.
Proof. unfold Cell1DVertex, Cell1DOrigin. rewrite Nat.add_0_r. by destruct (e <? num D1 m). Qed.
Lemma vertex_1 e m : Cell1DVertex e 1 m = Cell1DEnd e m.
Proof. unfold Cell1DVertex, Cell1DEnd. by destruct (e <? num D1 m). Qed.

Definition own1 (subs : list (N * N)) (k : nat) (x : acell) : acell :=
  match subs !! k with Some s => with_geo [s.1; s.2] x | None => x end.
Definition ends1 (subs : list (N * N)) (k : nat) : list N := match subs !! k with Some s => [s.1; s.2] | None => [] end.

Lemma ok1 subs : split_ok D1 (own1 subs) [(R01, ends1 subs)] [R12; R13].
Proof.
  split.
  - intros k x. unfold own1. by destruct (subs !! k).
  - intros r Hr. assert (Hr' : r = R12 \/ r = R13) by set_solver.
    split; [by destruct Hr' as [-> | ->]|]. split; [by destruct Hr' as [-> | ->]|]. intros k x. unfold own1. by destruct (subs !! k).
  - apply NoDup_cons. split; [set_solver|]. apply NoDup_singleton.
  - intros q Hq. apply elem_of_list_singleton in Hq as ->. done.
  - apply NoDup_singleton.
Qed.

Lemma seq_fmap_list {A B} (l : list A) (f : nat -> B) (g : A -> B) :
  (forall k x, l !! k = Some x -> f k = g x) -> f <$> seq 0 (length l) = g <$> l.
Proof.
  intros H. apply list_eq. intros i. rewrite !list_lookup_fmap. destruct (l !! i) as [x|] eqn:E.
  - rewrite lookup_seq_lt by (by eapply lookup_lt_Some). cbn. f_equal. by apply H.
  - rewrite lookup_seq_ge by (by apply lookup_ge_None). done.
Qed.

Lemma split_edge m parent subs :
  reachable m -> parent < num D1 m -> Forall (fun s => (s.1 < N.of_nat (num D0 m))%N /\ (s.2 < N.of_nat (num D0 m))%N) subs ->
  exists m', SplitCell1D parent subs m = Ok (m', seq (num D1 m) (length subs)) /\ reachable m' /\
    split_frame D1 parent (length subs) m m' /\ split_children D1 parent (length subs) m m' /\
    (forall c s, subs !! c = Some s -> Cell1DOrigin (num D1 m + c) m' = Ok s.1 /\ Cell1DEnd (num D1 m + c) m' = Ok s.2) /\
    inherited R12 parent (length subs) m m' /\ inherited R13 parent (length subs) m m' /\
    redirected R01 parent ((fun s => [s.1; s.2]) <$> subs) m m' /\
    (forall r i, r <> R01 -> i < num (src r) m -> RelRow r i m' = RelRow r i m).
Proof.
  intros Hr Hpl Hsub. destruct (rr_of m Hr) as [a Hm]. pose proof (proj2 Hm) as R. rewrite (g_num _ _ R) in Hpl.
  rewrite (g_num _ _ R) in Hsub.
  destruct (lookup_lt_is_Some_2 (am_cells a D1) parent Hpl) as [p Hp].
  pose proof (ok1 subs) as Hok. set (n := length subs).
  assert (Hd : D1 <> D0) by done.
  assert (Hends : ends1 subs <$> seq 0 n = (fun s => [s.1; s.2]) <$> subs).
  { apply seq_fmap_list. intros k s Hs. unfold ends1. by rewrite Hs. }
  edestruct (split_run a D1 parent n p Hp (own1 subs) [(R01, ends1 subs)] [R12; R13]
    (imap pair subs) (fun k0 m ce =>
               m ← Cell1DInsertExtremes (k0 + ce.1) ce.2.1 ce.2.2 m;
               m ← adopt D1 parent (k0 + ce.1) m;
               m ← redirect_all R01 parent (k0 + ce.1) (fun m => omapM (fun v => Cell1DVertex (k0 + ce.1) v m) [0; 1]) m;
               m ← inherit R12 parent (k0 + ce.1) m;
               inherit R13 parent (k0 + ce.1) m) m Hm) as (m' & E & Hm').
  { by rewrite imap_length. }
  { intros k ce Hce. rewrite list_lookup_imap in Hce. destruct (subs !! k) as [s|] eqn:Hs; [|done]. injection Hce as <-.
    cbn [fst snd]. assert (Hk : k < n) by (by eapply lookup_lt_Some).
    set (G0 := own_step a D1 parent p (own1 subs) k (Fk a D1 parent p (own1 subs) [(R01, ends1 subs)] [R12; R13] k)).
    assert (Hs1 : does (fun m => m' ← Cell1DInsertExtremes (anum D1 a + k) s.1 s.2 m; adopt D1 parent (anum D1 a + k) m')
       (amap (Fk a D1 parent p (own1 subs) [(R01, ends1 subs)] [R12; R13] k) (aappend D1 n a)) (amap G0 (aappend D1 n a))).
    { eapply step_own; [done..|]. eapply does_aeq; [apply does_Extremes; by apply b_child_lt|]. apply amap_ext.
      intros e i x Hx. unfold also, own1. rewrite Hs. apply ceq_refl. }
    set (G1 := red_step a D1 parent k G0 (R01, ends1 subs)).
    assert (HG0c := own_step_child a D1 parent n p Hd Hp (own1 subs) [(R01, ends1 subs)] [R12; R13] Hok k Hk). fold G0 in HG0c.
    assert (HG0p := own_step_parent a D1 parent n p Hp (own1 subs) [(R01, ends1 subs)] [R12; R13] Hok k Hk). fold G0 in HG0p.
    assert (Hs2 : does (redirect_all R01 parent (anum D1 a + k) (fun m => omapM (fun v => Cell1DVertex (anum D1 a + k) v m) [0; 1]))
      (amap G0 (aappend D1 n a)) (amap G1 (aappend D1 n a))).
    { eapply (step_red a D1 parent n p Hp (own1 subs) [(R01, ends1 subs)] [R12; R13] Hok k G0 (R01, ends1 subs)); [done|set_solver| |].
      - cbn [fst snd src]. unfold ends1. rewrite Hs. rewrite Forall_lookup in Hsub. destruct (Hsub k s Hs).
        repeat constructor; done.
      - intros m1 Hm1. pose proof (proj2 Hm1) as R1. cbn [fst snd]. unfold ends1. rewrite Hs.
        assert (Ho : Cell1DOrigin (anum D1 a + k) m1 = Ok s.1 /\ Cell1DEnd (anum D1 a + k) m1 = Ok s.2).
        { rewrite (g_origin _ _ R1), (g_end _ _ R1). unfold look. rewrite amap_lookup, b_child by done.
          cbn [fmap option_fmap option_map]. rewrite HG0c. unfold own1. rewrite Hs. done. }
        destruct Ho as [Ho Ht]. cbn [omapM]. rewrite vertex_0, vertex_1, Ho, Ht. done. }
    assert (HG1 : forall i x, G1 D1 i x = G0 D1 i x) by (intros i x; by apply red_step_dim).
    pose proof (step_inh a D1 parent n p Hp (own1 subs) [(R01, ends1 subs)] [R12; R13] Hok k G1 R12 Hk ltac:(set_solver) eq_refl) as Hs3.
    rewrite !HG1, HG0p, HG0c in Hs3. specialize (Hs3 eq_refl). unfold own1 in Hs3 at 1. rewrite Hs in Hs3. specialize (Hs3 eq_refl).
    set (G2 := inh_cells a D1 p k G1 R12) in *.
    pose proof (step_inh a D1 parent n p Hp (own1 subs) [(R01, ends1 subs)] [R12; R13] Hok k G2 R13 Hk ltac:(set_solver) eq_refl) as Hs4.
    assert (E1 : ac_rel (G2 D1 parent p) R13 = ac_rel p R13).
    { unfold G2. rewrite (inh_cells_parent a D1 parent p Hp). by rewrite HG1, HG0p. }
    assert (E2 : ac_rel (G2 D1 (anum D1 a + k) (new_cell D1 (length (am_names a D1)))) R13 = []).
    { unfold G2. rewrite inh_cells_child. rewrite HG1, HG0c. unfold own1. by rewrite Hs. }
    specialize (Hs4 E1 E2).
    eapply does_ext; [|eapply does_bind; [exact Hs1|eapply does_bind; [exact Hs2|eapply does_bind; [exact Hs3|exact Hs4]]]].
    intros m1 _. cbn beta. by destruct (Cell1DInsertExtremes _ _ _ m1). }
  exists m'. pose proof (g_num _ _ R D1) as Hnum. fold n. split; [exact E|]. split; [apply Hm'|].
  split; [by eapply split_frame_ok|]. split; [by eapply split_children_ok|].
  split.
  { intros c s Hs. assert (Hc : c < n) by (by eapply lookup_lt_Some). rewrite Hnum. pose proof (proj2 Hm') as R'.
    rewrite (g_origin _ _ R'), (g_end _ _ R'). unfold look. rewrite (fin_kid a D1 parent n p Hd Hp _ _ _ Hok c Hc).
    unfold geo_pair. destruct (kid_fields a D1 parent p _ _ _ Hok c) as (->&_). unfold own1. rewrite Hs. done. }
  split; [eapply inherited_ok; [done|done|exact Hok|done|done|set_solver]|].
  split; [eapply inherited_ok; [done|done|exact Hok|done|done|set_solver]|].
  split.
  { rewrite <- Hends. change R01 with ((R01, ends1 subs).1) at 1. change (ends1 subs) with ((R01, ends1 subs).2).
    eapply redirected_ok; [exact Hp|exact Hok|done|done|set_solver]. }
  intros r i Hne Hi. eapply rows_kept; [exact Hp|exact Hok|done|done| |done]. set_solver.
Qed.

(** ** Polygons *)
Definition nth_row {A} (l : list A) (f : A -> list N) (k : nat) : list N := match l !! k with Some x => f x | None => [] end.

Definition own2 (subs : list (list (N * N))) (k : nat) (x : acell) : acell :=
  with_row E2 (nth_row subs (fun s => s.*2) k) (with_row V2 (nth_row subs (fun s => s.*1) k) x).
Definition reds2 (subs : list (list (N * N))) : list (rel * (nat -> list N)) :=
  [(R02, nth_row subs (fun s => s.*1)); (R12, nth_row subs (fun s => s.*2))].

Lemma ok2 subs : split_ok D2 (own2 subs) (reds2 subs) [R23].
Proof.
  split.
  - done.
  - intros r Hr. apply elem_of_list_singleton in Hr as ->. done.
  - apply NoDup_singleton.
  - intros q Hq. unfold reds2 in Hq. apply elem_of_cons in Hq as [->|Hq]; [done|]. by apply elem_of_list_singleton in Hq as ->.
  - cbn. apply NoDup_cons. split; [set_solver|]. apply NoDup_singleton.
Qed.

Lemma nth_row_list {A} (l : list A) (f : A -> list N) : nth_row l f <$> seq 0 (length l) = f <$> l.
Proof. apply seq_fmap_list. intros k x Hx. unfold nth_row. by rewrite Hx. Qed.

Lemma split_polygon m parent subs :
  reachable m -> parent < num D2 m ->
  Forall (fun s => all_below (num D0 m) (s.*1) /\ all_below (num D1 m) (s.*2)) subs ->
  exists m', SplitCell2D parent subs m = Ok (m', seq (num D2 m) (length subs)) /\ reachable m' /\
    split_frame D2 parent (length subs) m m' /\ split_children D2 parent (length subs) m m' /\
    (forall c s, subs !! c = Some s ->
       RelRow V2 (num D2 m + c) m' = Ok (s.*1) /\ RelRow E2 (num D2 m + c) m' = Ok (s.*2) /\
       RelRow S2 (num D2 m + c) m' = Ok []) /\
    inherited R23 parent (length subs) m m' /\
    redirected R02 parent ((fun s => s.*1) <$> subs) m m' /\ redirected R12 parent ((fun s => s.*2) <$> subs) m m' /\
    (forall r i, r <> R02 -> r <> R12 -> i < num (src r) m -> RelRow r i m' = RelRow r i m).
Proof.
  intros Hr Hpl Hsub. destruct (rr_of m Hr) as [a Hm]. pose proof (proj2 Hm) as R. rewrite (g_num _ _ R) in Hpl.
  rewrite !(g_num _ _ R) in Hsub.
  destruct (lookup_lt_is_Some_2 (am_cells a D2) parent Hpl) as [p Hp].
  pose proof (ok2 subs) as Hok. set (n := length subs).
  assert (Hd : D2 <> D0) by done.
  edestruct (split_run a D2 parent n p Hp (own2 subs) (reds2 subs) [R23]
    (imap pair subs) (fun k0 m ce =>
               m ← Cell2DAddVerticesAndEdges (k0 + ce.1) ce.2 m;
               m ← adopt D2 parent (k0 + ce.1) m;
               m ← redirect_all R02 parent (k0 + ce.1) (read_row V2 (k0 + ce.1)) m;
               m ← redirect_all R12 parent (k0 + ce.1) (read_row E2 (k0 + ce.1)) m;
               inherit R23 parent (k0 + ce.1) m) m Hm) as (m' & E & Hm').
  { by rewrite imap_length. }
  { intros k ce Hce. rewrite list_lookup_imap in Hce. destruct (subs !! k) as [s|] eqn:Hs; [|done]. injection Hce as <-.
    cbn [fst snd]. assert (Hk : k < n) by (by eapply lookup_lt_Some).
    rewrite Forall_lookup in Hsub. destruct (Hsub k s Hs) as [Hb1 Hb2].
    assert (N1 : nth_row subs (fun s => s.*1) k = s.*1) by (unfold nth_row; by rewrite Hs).
    assert (N2 : nth_row subs (fun s => s.*2) k = s.*2) by (unfold nth_row; by rewrite Hs).
    set (G0 := own_step a D2 parent p (own2 subs) k (Fk a D2 parent p (own2 subs) (reds2 subs) [R23] k)).
    assert (Hs1 : does (fun m => m' ← Cell2DAddVerticesAndEdges (anum D2 a + k) s m; adopt D2 parent (anum D2 a + k) m')
       (amap (Fk a D2 parent p (own2 subs) (reds2 subs) [R23] k) (aappend D2 n a)) (amap G0 (aappend D2 n a))).
    { eapply step_own; [done..|]. eapply does_aeq; [apply does_AddVE; [by apply b_child_lt|by rewrite aappend_num, Nat.add_0_r..]|].
      apply amap_ext. intros e i x Hx. unfold also, own2. rewrite N1, N2. apply ceq_refl. }
    assert (HG0c := own_step_child a D2 parent n p Hd Hp (own2 subs) (reds2 subs) [R23] Hok k Hk). fold G0 in HG0c.
    assert (HG0p := own_step_parent a D2 parent n p Hp (own2 subs) (reds2 subs) [R23] Hok k Hk). fold G0 in HG0p.
    set (G1 := red_step a D2 parent k G0 (R02, nth_row subs (fun s => s.*1))).
    assert (HG1 : forall i x, G1 D2 i x = G0 D2 i x) by (intros i x; by apply red_step_dim).
    set (G2 := red_step a D2 parent k G1 (R12, nth_row subs (fun s => s.*2))).
    assert (HG2 : forall i x, G2 D2 i x = G1 D2 i x) by (intros i x; by apply red_step_dim).
    assert (Hs2 : does (redirect_all R02 parent (anum D2 a + k) (read_row V2 (anum D2 a + k)))
      (amap G0 (aappend D2 n a)) (amap G1 (aappend D2 n a))).
    { eapply (step_red a D2 parent n p Hp (own2 subs) (reds2 subs) [R23] Hok k G0 (R02, nth_row subs (fun s => s.*1)));
        [done|by apply elem_of_list_here|cbn [fst snd src]; by rewrite N1|].
      intros m1 Hm1. erewrite read_row_amap; [|exact Hm1|by apply b_child]. cbn [src]. rewrite HG0c. done. }
    assert (Hs3 : does (redirect_all R12 parent (anum D2 a + k) (read_row E2 (anum D2 a + k)))
      (amap G1 (aappend D2 n a)) (amap G2 (aappend D2 n a))).
    { eapply (step_red a D2 parent n p Hp (own2 subs) (reds2 subs) [R23] Hok k G1 (R12, nth_row subs (fun s => s.*2)));
        [done|by apply elem_of_list_further, elem_of_list_here|cbn [fst snd src]; by rewrite N2|].
      intros m1 Hm1. erewrite read_row_amap; [|exact Hm1|by apply b_child]. cbn [src]. rewrite HG1, HG0c. done. }
    pose proof (step_inh a D2 parent n p Hp (own2 subs) (reds2 subs) [R23] Hok k G2 R23 Hk (elem_of_list_here _ _) eq_refl) as Hs4.
    rewrite !HG2, !HG1, HG0p, HG0c in Hs4. specialize (Hs4 eq_refl eq_refl).
    eapply does_ext; [|eapply does_bind; [exact Hs1|eapply does_bind; [exact Hs2|eapply does_bind; [exact Hs3|exact Hs4]]]].
    intros m1 _. cbn beta. by destruct (Cell2DAddVerticesAndEdges _ _ m1). }
  exists m'. pose proof (g_num _ _ R D2) as Hnum. fold n. split; [exact E|]. split; [apply Hm'|].
  split; [by eapply split_frame_ok|]. split; [by eapply split_children_ok|].
  split.
  { intros c s Hs. assert (Hc : c < n) by (by eapply lookup_lt_Some).
    assert (N1 : nth_row subs (fun s => s.*1) c = s.*1) by (unfold nth_row; by rewrite Hs).
    assert (N2 : nth_row subs (fun s => s.*2) c = s.*2) by (unfold nth_row; by rewrite Hs).
    rewrite <- N1, <- N2. split_and!; (erewrite kid_row; [|exact Hd|exact Hp|exact Hok|done|exact Hm'|done|set_solver|done]); done. }
  split; [eapply inherited_ok; [done|done|exact Hok|done|done|set_solver]|].
  split.
  { rewrite <- nth_row_list. change R02 with ((R02, nth_row subs (fun s => s.*1)).1) at 1.
    change (nth_row subs (fun s => s.*1)) with ((R02, nth_row subs (fun s => s.*1)).2) at 2.
    eapply redirected_ok; [exact Hp|exact Hok|done|done|by apply elem_of_list_here]. }
  split.
  { rewrite <- nth_row_list. change R12 with ((R12, nth_row subs (fun s => s.*2)).1) at 1.
    change (nth_row subs (fun s => s.*2)) with ((R12, nth_row subs (fun s => s.*2)).2) at 2.
    eapply redirected_ok; [exact Hp|exact Hok|done|done|by apply elem_of_list_further, elem_of_list_here]. }
  intros r i Hne1 Hne2 Hi. eapply rows_kept; [exact Hp|exact Hok|done|done| |done]. cbn. set_solver.
Qed.

(** ** Polyhedra *)
Definition row_at (l : list (list N)) (k : nat) : list N := nth_row l id k.
Definition own3 (vs es fs : list (list N)) (k : nat) (x : acell) : acell :=
  with_row F3 (row_at fs k) (with_row E3 (row_at es k) (with_row V3 (row_at vs k) x)).
Definition reds3 (vs es fs : list (list N)) : list (rel * (nat -> list N)) := [(R03, row_at vs); (R13, row_at es); (R23, row_at fs)].

Lemma ok3 vs es fs : split_ok D3 (own3 vs es fs) (reds3 vs es fs) [].
Proof.
  split.
  - done.
  - intros r Hr. by apply elem_of_nil in Hr.
  - apply NoDup_nil_2.
  - intros q Hq. unfold reds3 in Hq. apply elem_of_cons in Hq as [->|Hq]; [done|]. apply elem_of_cons in Hq as [->|Hq]; [done|].
    by apply elem_of_list_singleton in Hq as ->.
  - cbn. apply NoDup_cons. split; [set_solver|]. apply NoDup_cons. split; [set_solver|]. apply NoDup_singleton.
Qed.

Lemma row_at_list l : row_at l <$> seq 0 (length l) = l.
Proof. unfold row_at. rewrite nth_row_list. apply list_fmap_id. Qed.

Lemma split_polyhedron m parent vs es fs :
  reachable m -> parent < num D3 m -> length es = length vs -> length fs = length vs ->
  Forall (all_below (num D0 m)) vs -> Forall (all_below (num D1 m)) es -> Forall (all_below (num D2 m)) fs ->
  exists m', SplitCell3D parent vs es fs m = Ok (m', seq (num D3 m) (length vs)) /\ reachable m' /\
    split_frame D3 parent (length vs) m m' /\ split_children D3 parent (length vs) m m' /\
    (forall c v e f, vs !! c = Some v -> es !! c = Some e -> fs !! c = Some f ->
       RelRow V3 (num D3 m + c) m' = Ok v /\ RelRow E3 (num D3 m + c) m' = Ok e /\ RelRow F3 (num D3 m + c) m' = Ok f) /\
    redirected R03 parent vs m m' /\ redirected R13 parent es m m' /\ redirected R23 parent fs m m' /\
    (forall r i, r <> R03 -> r <> R13 -> r <> R23 -> i < num (src r) m -> RelRow r i m' = RelRow r i m).
Proof.
  intros Hr Hpl Hle Hlf Hbv Hbe Hbf. destruct (rr_of m Hr) as [a Hm]. pose proof (proj2 Hm) as R.
  rewrite (g_num _ _ R) in Hpl, Hbv, Hbe, Hbf.
  destruct (lookup_lt_is_Some_2 (am_cells a D3) parent Hpl) as [p Hp].
  pose proof (ok3 vs es fs) as Hok. set (n := length vs).
  assert (Hd : D3 <> D0) by done.
  edestruct (split_run a D3 parent n p Hp (own3 vs es fs) (reds3 vs es fs) []
    (seq 0 (length vs)) (fun k0 m c =>
               v ← vget vs c;
               m ← RelAdd V3 (k0 + c) v m;
               e ← vget es c;
               m ← RelAdd E3 (k0 + c) e m;
               f ← vget fs c;
               m ← RelAdd F3 (k0 + c) f m;
               m ← adopt D3 parent (k0 + c) m;
               m ← redirect_all R03 parent (k0 + c) (read_row V3 (k0 + c)) m;
               m ← redirect_all R13 parent (k0 + c) (read_row E3 (k0 + c)) m;
               redirect_all R23 parent (k0 + c) (read_row F3 (k0 + c)) m) m Hm) as (m' & E & Hm').
  { by rewrite seq_length. }
  { intros k ce [-> Hk]%lookup_seq. cbn [plus]. fold n in Hk.
    destruct (lookup_lt_is_Some_2 vs k) as [v Hv]; [done|]. destruct (lookup_lt_is_Some_2 es k) as [e He]; [by rewrite Hle|].
    destruct (lookup_lt_is_Some_2 fs k) as [f Hf]; [by rewrite Hlf|].
    rewrite (vget_Ok vs k v Hv), (vget_Ok es k e He), (vget_Ok fs k f Hf). cbn [mbind outcome_bind].
    rewrite Forall_lookup in Hbv, Hbe, Hbf.
    pose proof (Hbv k v Hv) as Bv. pose proof (Hbe k e He) as Be. pose proof (Hbf k f Hf) as Bf.
    assert (N1 : row_at vs k = v) by (unfold row_at, nth_row; by rewrite Hv).
    assert (N2 : row_at es k = e) by (unfold row_at, nth_row; by rewrite He).
    assert (N3 : row_at fs k = f) by (unfold row_at, nth_row; by rewrite Hf).
    set (F0 := Fk a D3 parent p (own3 vs es fs) (reds3 vs es fs) [] k).
    set (G0 := own_step a D3 parent p (own3 vs es fs) k F0).
    assert (Hs1 : does (fun m => m' ← (m ← RelAdd V3 (anum D3 a + k) v m; m ← RelAdd E3 (anum D3 a + k) e m; RelAdd F3 (anum D3 a + k) f m);
                              adopt D3 parent (anum D3 a + k) m')
       (amap F0 (aappend D3 n a)) (amap G0 (aappend D3 n a))).
    { eapply step_own; [done..|].
      eapply does_aeq; [eapply does_bind; [apply does_Add; [by apply b_child_lt|done|by rewrite aappend_num, Nat.add_0_r]|];
        eapply does_bind; [apply does_Add; [by apply b_child_lt|done|by rewrite aappend_num, Nat.add_0_r]|];
        apply does_Add; [by apply b_child_lt|done|by rewrite aappend_num, Nat.add_0_r]|].
      apply amap_ext. intros d' i x Hx. unfold also, own3. rewrite N1, N2, N3. cbn [src]. case_decide; apply ceq_refl. }
    assert (HG0c := own_step_child a D3 parent n p Hd Hp (own3 vs es fs) (reds3 vs es fs) [] Hok k Hk). fold F0 in HG0c. fold G0 in HG0c.
    set (G1 := red_step a D3 parent k G0 (R03, row_at vs)).
    assert (HG1 : forall i x, G1 D3 i x = G0 D3 i x) by (intros i x; by apply red_step_dim).
    set (G2 := red_step a D3 parent k G1 (R13, row_at es)).
    assert (HG2 : forall i x, G2 D3 i x = G1 D3 i x) by (intros i x; by apply red_step_dim).
    set (G3 := red_step a D3 parent k G2 (R23, row_at fs)).
    assert (Hs2 : does (redirect_all R03 parent (anum D3 a + k) (read_row V3 (anum D3 a + k)))
      (amap G0 (aappend D3 n a)) (amap G1 (aappend D3 n a))).
    { eapply (step_red a D3 parent n p Hp (own3 vs es fs) (reds3 vs es fs) [] Hok k G0 (R03, row_at vs));
        [done|by apply elem_of_list_here|cbn [fst snd src]; by rewrite N1|].
      intros m1 Hm1. erewrite read_row_amap; [|exact Hm1|by apply b_child]. cbn [src]. rewrite HG0c. done. }
    assert (Hs3 : does (redirect_all R13 parent (anum D3 a + k) (read_row E3 (anum D3 a + k)))
      (amap G1 (aappend D3 n a)) (amap G2 (aappend D3 n a))).
    { eapply (step_red a D3 parent n p Hp (own3 vs es fs) (reds3 vs es fs) [] Hok k G1 (R13, row_at es));
        [done|by apply elem_of_list_further, elem_of_list_here|cbn [fst snd src]; by rewrite N2|].
      intros m1 Hm1. erewrite read_row_amap; [|exact Hm1|by apply b_child]. cbn [src]. rewrite HG1, HG0c. done. }
    assert (Hs4 : does (redirect_all R23 parent (anum D3 a + k) (read_row F3 (anum D3 a + k)))
      (amap G2 (aappend D3 n a)) (amap G3 (aappend D3 n a))).
    { eapply (step_red a D3 parent n p Hp (own3 vs es fs) (reds3 vs es fs) [] Hok k G2 (R23, row_at fs));
        [done|by apply elem_of_list_further, elem_of_list_further, elem_of_list_here|cbn [fst snd src]; by rewrite N3|].
      intros m1 Hm1. erewrite read_row_amap; [|exact Hm1|by apply b_child]. cbn [src]. rewrite HG2, HG1, HG0c. done. }
    eapply does_ext; [|eapply does_bind; [exact Hs1|eapply does_bind; [exact Hs2|eapply does_bind; [exact Hs3|exact Hs4]]]].
    intros m1 _. cbn beta. destruct (RelAdd V3 _ _ m1) as [m2| | | |]; [|done..]. cbn [mbind outcome_bind].
    destruct (RelAdd E3 _ _ m2) as [m3| | | |]; [|done..]. cbn [mbind outcome_bind].
    by destruct (RelAdd F3 _ _ m3). }
  exists m'. pose proof (g_num _ _ R D3) as Hnum. fold n.
  split; [unfold SplitCell3D; rewrite require_true by lia; exact E|]. split; [apply Hm'|].
  split; [by eapply split_frame_ok|]. split; [by eapply split_children_ok|].
  split.
  { intros c v e f Hv He Hf. assert (Hc : c < n) by (by eapply lookup_lt_Some).
    assert (N1 : row_at vs c = v) by (unfold row_at, nth_row; by rewrite Hv).
    assert (N2 : row_at es c = e) by (unfold row_at, nth_row; by rewrite He).
    assert (N3 : row_at fs c = f) by (unfold row_at, nth_row; by rewrite Hf).
    rewrite <- N1, <- N2, <- N3. split_and!; (erewrite kid_row; [|exact Hd|exact Hp|exact Hok|done|exact Hm'|done|set_solver|done]); done. }
  split.
  { rewrite <- (row_at_list vs). fold n. change R03 with ((R03, row_at vs).1) at 1. change (row_at vs) with ((R03, row_at vs).2) at 2.
    eapply redirected_ok; [exact Hp|exact Hok|done|done|by apply elem_of_list_here]. }
  split.
  { rewrite <- (row_at_list es), Hle. fold n. change R13 with ((R13, row_at es).1) at 1. change (row_at es) with ((R13, row_at es).2) at 2.
    eapply redirected_ok; [exact Hp|exact Hok|done|done|by apply elem_of_list_further, elem_of_list_here]. }
  split.
  { rewrite <- (row_at_list fs), Hlf. fold n. change R23 with ((R23, row_at fs).1) at 1. change (row_at fs) with ((R23, row_at fs).2) at 2.
    eapply redirected_ok; [exact Hp|exact Hok|done|done|by apply elem_of_list_further, elem_of_list_further, elem_of_list_here]. }
  intros r i Hne1 Hne2 Hne3 Hi. eapply rows_kept; [exact Hp|exact Hok|done|done| |done]. cbn. set_solver.
Qed.
