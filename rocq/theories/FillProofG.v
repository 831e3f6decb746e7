(** Sub-meshes: the filters. *)
From Coq Require Import QArith Qcanon Sorted.
From Verif Require Import Base BaseProof CsrModel CsrSpec CsrProof MeshModel MeshSpec MeshRep MeshHist
  MeshProof MeshProof2 MeshProof3 MeshProof4 MeshProof5 MeshProof6 MeshProof7 MeshProof8 MeshProof9 MeshProofA MeshProofB
  MeshProg UtilModel UtilSpec UtilProofD FillModel FillSpec FillProofA FillProofB FillProofD FillProofE FillProofF.
From Coq Require Import ZifyBool ZifyNat ZifyN.
Local Open Scope nat_scope.

(** ** Sorted sets *)
Definition inserts (l vs : list N) : list N := foldl (fun l v => set_insert v l) l vs.

Lemma set_insert_elem v w l : v ∈ set_insert w l <-> v = w \/ v ∈ l.
Proof.
  induction l as [|x l IH]; cbn [set_insert]; [rewrite elem_of_list_singleton; set_solver|].
  destruct (N.ltb_spec w x); [rewrite !elem_of_cons; tauto|]. destruct (N.eqb_spec w x) as [->|].
  - rewrite !elem_of_cons. tauto.
  - rewrite !elem_of_cons, IH. tauto.
Qed.
Lemma set_insert_sorted w l : StronglySorted N.lt l -> StronglySorted N.lt (set_insert w l).
Proof.
  induction l as [|x l IH]; cbn [set_insert]; intros H; [by repeat constructor|].
  apply StronglySorted_inv in H as [Hl Hx]. rewrite Forall_forall in Hx.
  destruct (N.ltb_spec w x).
  - constructor; [by constructor; [|apply Forall_forall]|]. apply Forall_forall. intros y [->|Hy]%elem_of_cons; [done|]. specialize (Hx y Hy). lia.
  - destruct (N.eqb_spec w x) as [->|]; [by constructor; [|apply Forall_forall]|]. constructor; [by apply IH|].
    apply Forall_forall. intros y [->|Hy]%set_insert_elem; [lia|by apply Hx].
Qed.
Lemma inserts_elem v l vs : v ∈ inserts l vs <-> v ∈ vs \/ v ∈ l.
Proof.
  revert l. induction vs as [|w vs IH]; intros l; cbn; [set_solver|]. rewrite IH, set_insert_elem, elem_of_cons. tauto.
Qed.
Lemma inserts_sorted l vs : StronglySorted N.lt l -> StronglySorted N.lt (inserts l vs).
Proof. revert l. induction vs as [|w vs IH]; intros l H; cbn; [done|]. by apply IH, set_insert_sorted. Qed.
Lemma inserts_app l vs ws : inserts (inserts l vs) ws = inserts l (vs ++ ws).
Proof. unfold inserts. by rewrite foldl_app. Qed.

Lemma sorted_nodup (l : list N) : StronglySorted N.lt l -> NoDup l.
Proof.
  induction 1 as [|x l Hl IH Hx]; constructor; [|done]. intros Hin. rewrite Forall_forall in Hx. specialize (Hx x Hin). lia.
Qed.

Lemma ordered_inserts (P : N -> Prop) vs : (forall v, v ∈ vs <-> P v) -> ordered_set P (inserts [] vs).
Proof.
  intros H. split; [apply inserts_sorted; constructor|]. intros v. rewrite inserts_elem, H. set_solver.
Qed.

(** ** The loops *)
Section filters.
Context (m : mesh) (Hm : reachable m) (a : amesh) (R : represents m a).

Lemma active_look d c : (c < N.of_nat (num d m))%N -> IsActive d (N.to_nat c) m = Ok (active d m (N.to_nat c)).
Proof.
  intros Hc. unfold active. rewrite (g_active _ _ R). unfold look. by rewrite (cell_at_ok m a R d c Hc).
Qed.
Lemma active_of_cons d c l : active_of d m (c :: l) = (if active d m (N.to_nat c) then [c] else []) ++ active_of d m l.
Proof.
  unfold active_of. destruct (active d m (N.to_nat c)) eqn:E.
  - rewrite filter_cons_True by done. done.
  - rewrite filter_cons_False by (by rewrite E). done.
Qed.
Lemma active_of_app d l k : active_of d m (l ++ k) = active_of d m l ++ active_of d m k.
Proof. unfold active_of. by rewrite filter_app. Qed.

Definition ends (e : N) : list N := let p := geo_pair (cell_at a D1 e) in [p.1; p.2].
Definition rows (r : rel) (c : N) : list N := ac_rel (cell_at a (src r) c) r.

Lemma vertices_of_edge e : (e < N.of_nat (num D1 m))%N -> omapM (fun v => Cell1DVertex (N.to_nat e) v m) [0; 1] = Ok (ends e).
Proof.
  intros He. destruct (edge_at m a R e He) as [Eo Et]. unfold Cell1DOrigin, Cell1DEnd in Eo, Et. cbn [omapM].
  unfold Cell1DVertex. rewrite require_true by lia. cbn [mbind outcome_bind]. rewrite require_true by lia. cbn [mbind outcome_bind].
  rewrite require_true in Eo, Et by lia. cbn [mbind outcome_bind] in Eo, Et. rewrite Nat.add_0_r, Eo. cbn [mbind outcome_bind].
  rewrite require_true by lia. cbn [mbind outcome_bind]. rewrite require_true by lia. cbn [mbind outcome_bind]. rewrite Et. done.
Qed.

Lemma filter1_run f1 : Forall (fun o => (o < N.of_nat (num D1 m))%N) f1 ->
  FilterMesh1D f1 m = Ok (inserts [] (concat (ends <$> active_of D1 m f1)), active_of D1 m f1).
Proof.
  unfold FilterMesh1D. induction f1 as [|c l IH] using rev_ind; intros Hf; [done|].
  apply Forall_app in Hf as [Hf Hc]. rewrite Forall_singleton in Hc. rewrite ofold_app, IH by done. cbn [mbind outcome_bind ofold fst snd].
  rewrite (active_look D1 c Hc). cbn [mbind outcome_bind]. rewrite active_of_app, active_of_cons.
  destruct (active D1 m (N.to_nat c)).
  - rewrite (vertices_of_edge c Hc). cbn [mbind outcome_bind]. rewrite fmap_app, concat_app. cbn [app fmap list_fmap concat active_of filter list_filter].
    rewrite <- inserts_app. done.
  - cbn [app active_of filter list_filter]. rewrite app_nil_r. done.
Qed.

Lemma get_at r c k : (c < N.of_nat (num (src r) m))%N -> RelGet r (N.to_nat c) k m = match rows r c !! k with Some v => Ok v | None => Abort end.
Proof. intros Hc. rewrite (g_get _ _ R). by rewrite (cell_at_ok m a R (src r) c Hc). Qed.
Lemma count_at r c : (c < N.of_nat (num (src r) m))%N -> RelNumber r (N.to_nat c) m = Ok (N.of_nat (length (rows r c))).
Proof. intros Hc. rewrite (g_count _ _ R). unfold look. by rewrite (cell_at_ok m a R (src r) c Hc). Qed.

Lemma filter2_inner c s n : (c < N.of_nat (num D2 m))%N -> n <= length (rows V2 c) -> n <= length (rows E2 c) ->
  ofold (fun (s : list N * list N * list N) v => p ← RelGet V2 (N.to_nat c) v m; e ← RelGet E2 (N.to_nat c) v m;
                     Ok (set_insert p s.1.1, set_insert e s.1.2, s.2)) (seq 0 n) s =
  Ok (inserts s.1.1 (take n (rows V2 c)), inserts s.1.2 (take n (rows E2 c)), s.2).
Proof.
  intros Hc. induction n as [|n IH]; intros H1 H2; [by destruct s as [[? ?] ?]|].
  rewrite seq_S, ofold_app, IH by lia. cbn [mbind outcome_bind ofold fst snd Nat.add].
  rewrite (get_at V2 c n Hc), (get_at E2 c n Hc).
  destruct (lookup_lt_is_Some_2 (rows V2 c) n) as [v Hv]; [lia|]. destruct (lookup_lt_is_Some_2 (rows E2 c) n) as [e He]; [lia|].
  rewrite Hv, He. cbn [mbind outcome_bind]. rewrite (take_S_r _ _ _ Hv), (take_S_r _ _ _ He), <- !inserts_app. done.
Qed.

Lemma filter2_run f2 : Forall (fun o => (o < N.of_nat (num D2 m))%N) f2 -> same_numbers (active_of D2 m f2) m ->
  FilterMesh2D f2 m = Ok (inserts [] (concat (rows V2 <$> active_of D2 m f2)), inserts [] (concat (rows E2 <$> active_of D2 m f2)), active_of D2 m f2).
Proof.
  unfold FilterMesh2D. induction f2 as [|c l IH] using rev_ind; intros Hf Hs; [done|].
  apply Forall_app in Hf as [Hf Hc]. rewrite Forall_singleton in Hc. rewrite active_of_app in Hs.
  rewrite ofold_app, IH; [|done|intros x Hx; apply Hs; set_solver]. cbn [mbind outcome_bind ofold fst snd].
  rewrite (active_look D2 c Hc). cbn [mbind outcome_bind]. rewrite active_of_app. rewrite active_of_cons in *.
  destruct (active D2 m (N.to_nat c)).
  - assert (El : length (rows V2 c) = length (rows E2 c)).
    { assert (E : RelNumber V2 (N.to_nat c) m = RelNumber E2 (N.to_nat c) m) by (apply Hs; set_solver).
      rewrite (count_at V2 c Hc), (count_at E2 c Hc) in E. injection E as E. lia. }
    rewrite (count_at V2 c Hc). cbn [mbind outcome_bind]. rewrite Nat2N.id, filter2_inner by (done || lia).
    cbn [mbind outcome_bind fst snd]. rewrite firstn_all, El, firstn_all. rewrite !fmap_app, !concat_app.
    cbn [app fmap list_fmap concat active_of filter list_filter]. rewrite !app_nil_r, <- !inserts_app. done.
  - cbn [app active_of filter list_filter]. rewrite app_nil_r. done.
Qed.

Lemma filter3_run f3 : Forall (fun o => (o < N.of_nat (num D3 m))%N) f3 ->
  FilterMesh3D f3 m = Ok (inserts [] (concat (rows V3 <$> active_of D3 m f3)), inserts [] (concat (rows E3 <$> active_of D3 m f3)),
                          inserts [] (concat (rows F3 <$> active_of D3 m f3)), active_of D3 m f3).
Proof.
  unfold FilterMesh3D. induction f3 as [|c l IH] using rev_ind; intros Hf; [done|].
  apply Forall_app in Hf as [Hf Hc]. rewrite Forall_singleton in Hc.
  rewrite ofold_app, IH by done. cbn [mbind outcome_bind ofold fst snd].
  rewrite (active_look D3 c Hc). cbn [mbind outcome_bind]. rewrite active_of_app. rewrite active_of_cons in *.
  destruct (active D3 m (N.to_nat c)).
  - rewrite !read_row_ok by (try done; cbn [src]; lia). rewrite (row_at m a R V3 c Hc), (row_at m a R E3 c Hc), (row_at m a R F3 c Hc).
    cbn [mbind outcome_bind src]. rewrite !fmap_app, !concat_app.
    cbn [app fmap list_fmap concat active_of filter list_filter]. rewrite !app_nil_r, <- !inserts_app. done.
  - cbn [app active_of filter list_filter]. rewrite app_nil_r. done.
Qed.

Lemma elem_of_rows r l v : Forall (fun o => (o < N.of_nat (num (src r) m))%N) l -> v ∈ concat (rows r <$> l) <-> mentioned r m l v.
Proof.
  intros Hf. rewrite Forall_forall in Hf. rewrite elem_of_list_In, in_concat. split.
  - intros (x & Hx & Hv). apply elem_of_list_In in Hx, Hv. apply elem_of_list_fmap in Hx as (c & -> & Hc).
    exists c, (rows r c). split_and!; [done| |done]. apply (row_at m a R). by apply Hf.
  - intros (c & row & Hc & Er & Hv). rewrite (row_at m a R r c (Hf c Hc)) in Er. injection Er as <-.
    exists (rows r c). split; [apply elem_of_list_In|by apply elem_of_list_In]. apply elem_of_list_fmap. by exists c.
Qed.
Lemma elem_of_ends l v : Forall (fun o => (o < N.of_nat (num D1 m))%N) l -> v ∈ concat (ends <$> l) <-> end_of m l v.
Proof.
  intros Hf. rewrite Forall_forall in Hf. rewrite elem_of_list_In, in_concat. split.
  - intros (x & Hx & Hv). apply elem_of_list_In in Hx, Hv. apply elem_of_list_fmap in Hx as (c & -> & Hc).
    exists c. split; [done|]. destruct (edge_at m a R c (Hf c Hc)) as [-> ->]. unfold ends in Hv. set_unfold in Hv.
    destruct Hv as [->|[->|[]]]; auto.
  - intros (c & Hc & Hv). exists (ends c). split; [apply elem_of_list_In, elem_of_list_fmap; by exists c|apply elem_of_list_In].
    destruct (edge_at m a R c (Hf c Hc)) as [E1 E2]. rewrite E1, E2 in Hv. unfold ends. set_unfold. destruct Hv as [[= <-]|[= <-]]; auto.
Qed.
Lemma active_of_range d l : Forall (fun o => (o < N.of_nat (num d m))%N) l -> Forall (fun o => (o < N.of_nat (num d m))%N) (active_of d m l).
Proof. rewrite !Forall_forall. intros H v [_ Hv]%elem_of_list_filter. by apply H. Qed.
End filters.

Lemma filter1_ok m f1 : reachable m -> Forall (fun o => (o < N.of_nat (num D1 m))%N) f1 ->
  exists l0, FilterMesh1D f1 m = Ok (l0, active_of D1 m f1) /\ ordered_set (end_of m (active_of D1 m f1)) l0.
Proof.
  intros Hm Hf. destruct (reachable_rep m Hm) as [a R]. eexists. split; [by apply (filter1_run m a R)|].
  apply ordered_inserts. intros v. apply (elem_of_ends m Hm a R). by apply active_of_range.
Qed.
Lemma filter2_ok m f2 : reachable m -> Forall (fun o => (o < N.of_nat (num D2 m))%N) f2 -> same_numbers (active_of D2 m f2) m ->
  exists l0 l1, FilterMesh2D f2 m = Ok (l0, l1, active_of D2 m f2) /\
    ordered_set (mentioned V2 m (active_of D2 m f2)) l0 /\ ordered_set (mentioned E2 m (active_of D2 m f2)) l1.
Proof.
  intros Hm Hf Hs. destruct (reachable_rep m Hm) as [a R]. do 2 eexists. split; [by apply (filter2_run m Hm a R)|].
  split; apply ordered_inserts; intros v; apply (elem_of_rows m a R); by apply active_of_range.
Qed.
Lemma filter3_ok m f3 : reachable m -> Forall (fun o => (o < N.of_nat (num D3 m))%N) f3 ->
  exists l0 l1 l2, FilterMesh3D f3 m = Ok (l0, l1, l2, active_of D3 m f3) /\
    ordered_set (mentioned V3 m (active_of D3 m f3)) l0 /\ ordered_set (mentioned E3 m (active_of D3 m f3)) l1 /\
    ordered_set (mentioned F3 m (active_of D3 m f3)) l2.
Proof.
  intros Hm Hf. destruct (reachable_rep m Hm) as [a R]. do 3 eexists. split; [by apply (filter3_run m Hm a R)|].
  split_and!; apply ordered_inserts; intros v; apply (elem_of_rows m a R); by apply active_of_range.
Qed.

(** ** Filtering, then extracting *)
Lemma active_of_good d m l : good_filter d l m -> good_filter d (active_of d m l) m.
Proof. intros [H1 H2]. split; [by apply NoDup_filter|by apply active_of_range]. Qed.

Lemma ordered_good d m P l : ordered_set P l -> (forall v, P v -> (v < N.of_nat (num d m))%N) -> good_filter d l m.
Proof. intros [Hs He] HP. split; [by apply sorted_nodup|]. apply Forall_forall. intros v Hv. by apply HP, He. Qed.

Lemma mentioned_closed r m l lt : ordered_set (mentioned r m l) lt -> reachable m -> Forall (fun o => (o < N.of_nat (num (src r) m))%N) l ->
  closed_rows r l lt m.
Proof.
  intros [_ He] Hm Hf c Hc. rewrite Forall_forall in Hf. destruct (reachable_rep m Hm) as [a R].
  pose proof (row_at m a R r c (Hf c Hc)) as E. eexists. split; [exact E|]. apply Forall_forall. intros v Hv. apply He. by exists c, (ac_rel (cell_at a (src r) c) r).
Qed.

Lemma edges_closed m l0 l1 : reachable m -> Forall (fun o => (o < N.of_nat (num D1 m))%N) l1 ->
  (forall e v, e ∈ l1 -> end_of m [e] v -> v ∈ l0) -> closed_edges l0 l1 m.
Proof.
  intros Hm Hf H e He. rewrite Forall_forall in Hf. destruct (reachable_rep m Hm) as [a R].
  destruct (edge_at m a R e (Hf e He)) as [Eo Et]. do 2 eexists. split_and!; [exact Eo|exact Et|apply (H e)..]; try done;
    (exists e; split; [set_solver|]); auto.
Qed.

Lemma filter_extract1 m new f1 : reachable m -> (forall d, few (num d m)) -> blank new -> good_filter D1 f1 m ->
  Forall (fun e => forall v, end_of m [e] v -> (v < N.of_nat (num D0 m))%N) f1 ->
  exists l0 l1, FilterMesh1D f1 m = Ok (l0, l1) /\ exists m' t, ExtractMesh1D l0 l1 m new = Ok (m', t) /\ num D1 m' = length (active_of D1 m f1).
Proof.
  intros Hm Few Hb G He. destruct (filter1_ok m f1 Hm (proj2 G)) as (l0 & E & Ho). exists l0, (active_of D1 m f1). split; [done|].
  rewrite Forall_forall in He.
  assert (G0 : good_filter D0 l0 m).
  { apply (ordered_good D0 m _ l0 Ho). intros v (e & Hin & Hv). apply (He e).
    - by apply elem_of_list_filter in Hin as [_ ?].
    - exists e. set_solver. }
  destruct (extract1_ok m new l0 (active_of D1 m f1)) as (m' & t0 & t1 & Em & H); try done.
  - by apply active_of_good.
  - apply edges_closed; [done|by apply active_of_range, G|]. intros e v Hin Hv. apply Ho. destruct Hv as (e' & He' & Hv).
    exists e. apply elem_of_list_singleton in He' as ->. done.
  - exists m', (t0, t1). split; [done|]. tauto.
Qed.

Lemma filter_extract2 m new f2 : reachable m -> (forall d, few (num d m)) -> blank new -> good_filter D2 f2 m ->
  Forall (complete_polygon m) (active_of D2 m f2) ->
  exists l0 l1 l2, FilterMesh2D f2 m = Ok (l0, l1, l2) /\ exists m' t, ExtractMesh2D l0 l1 l2 m new = Ok (m', t) /\ num D2 m' = length (active_of D2 m f2).
Proof.
  intros Hm Few Hb G Hc. rewrite Forall_forall in Hc. set (A := active_of D2 m f2) in *.
  assert (GA : good_filter D2 A m) by (by apply active_of_good).
  assert (Hs : same_numbers A m).
  { intros c Hin. destruct (Hc c Hin) as (vs & es & Ev & Ee & El & _). destruct (reachable_rep m Hm) as [a R].
    pose proof (filter_lt m D2 A c GA Hin) as Hlt.
    rewrite (row_at m a R V2 c Hlt) in Ev. rewrite (row_at m a R E2 c Hlt) in Ee. injection Ev as <-. injection Ee as <-.
    rewrite (count_at m a R V2 c Hlt), (count_at m a R E2 c Hlt). unfold rows. cbn [src] in *. by rewrite El. }
  destruct (filter2_ok m f2 Hm (proj2 G) Hs) as (l0 & l1 & E & O0 & O1). fold A in E, O0, O1. exists l0, l1, A. split; [done|].
  assert (G0 : good_filter D0 l0 m).
  { apply (ordered_good D0 m _ l0 O0). intros v (c & row & Hin & Er & Hv). destruct (Hc c Hin) as (vs & es & Ev & Ee & El & Hvs & _).
    rewrite Er in Ev. injection Ev as ->. rewrite Forall_forall in Hvs. by apply Hvs. }
  assert (G1 : good_filter D1 l1 m).
  { apply (ordered_good D1 m _ l1 O1). intros v (c & row & Hin & Er & Hv). destruct (Hc c Hin) as (vs & es & Ev & Ee & El & _ & Hes).
    rewrite Er in Ee. injection Ee as ->. rewrite Forall_forall in Hes. by apply Hes. }
  destruct (extract2_ok m new l0 l1 A) as (m' & t0 & t1 & t2 & Em & H); try done.
  - apply edges_closed; [done|apply G1|]. intros e v Hin Hv. apply O1 in Hin as (c & row & Hin & Er & He).
    destruct (Hc c Hin) as (vs & es & Ev & Ee & El & _ & Hes). rewrite Er in Ee. injection Ee as ->. rewrite Forall_forall in Hes.
    apply O0. exists c, vs. split_and!; [done..|]. by apply (Hes e He).
  - apply mentioned_closed; [done..|apply GA].
  - apply mentioned_closed; [done..|apply GA].
  - exists m', (t0, t1, t2). split; [done|]. tauto.
Qed.

Lemma filter_extract3 m new f3 : reachable m -> (forall d, few (num d m)) -> blank new -> good_filter D3 f3 m ->
  Forall (complete_polyhedron m) (active_of D3 m f3) ->
  exists l0 l1 l2 l3, FilterMesh3D f3 m = Ok (l0, l1, l2, l3) /\
    exists m' t, ExtractMesh3D l0 l1 l2 l3 m new = Ok (m', t) /\ num D3 m' = length (active_of D3 m f3).
Proof.
  intros Hm Few Hb G Hc. rewrite Forall_forall in Hc. set (A := active_of D3 m f3) in *.
  assert (GA : good_filter D3 A m) by (by apply active_of_good).
  destruct (filter3_ok m f3 Hm (proj2 G)) as (l0 & l1 & l2 & E & O0 & O1 & O2). fold A in E, O0, O1, O2. exists l0, l1, l2, A. split; [done|].
  assert (G0 : good_filter D0 l0 m).
  { apply (ordered_good D0 m _ l0 O0). intros v (c & row & Hin & Er & Hv). destruct (Hc c Hin) as (vs & es & fs & Ev & Ee & Ef & Hvs & _).
    rewrite Er in Ev. injection Ev as ->. rewrite Forall_forall in Hvs. by apply Hvs. }
  assert (G1 : good_filter D1 l1 m).
  { apply (ordered_good D1 m _ l1 O1). intros v (c & row & Hin & Er & Hv). destruct (Hc c Hin) as (vs & es & fs & Ev & Ee & Ef & _ & Hes & _).
    rewrite Er in Ee. injection Ee as ->. rewrite Forall_forall in Hes. by apply Hes. }
  assert (G2 : good_filter D2 l2 m).
  { apply (ordered_good D2 m _ l2 O2). intros v (c & row & Hin & Er & Hv). destruct (Hc c Hin) as (vs & es & fs & Ev & Ee & Ef & _ & _ & Hfs).
    rewrite Er in Ef. injection Ef as ->. rewrite Forall_forall in Hfs. by apply Hfs. }
  assert (Face : forall f, f ∈ l2 -> exists vs' es', RelRow V2 (N.to_nat f) m = Ok vs' /\ RelRow E2 (N.to_nat f) m = Ok es' /\
            length vs' = length es' /\ Forall (fun v => v ∈ l0) vs' /\ Forall (fun e => e ∈ l1) es').
  { intros f (c & row & Hin & Er & Hf)%O2. destruct (Hc c Hin) as (vs & es & fs & Ev & Ee & Ef & _ & _ & Hfs).
    rewrite Er in Ef. injection Ef as ->. rewrite Forall_forall in Hfs. destruct (Hfs f Hf) as (_ & vs' & es' & E1 & E2 & El & S1 & S2).
    exists vs', es'. split_and!; [done..| |]; apply Forall_forall; intros x Hx.
    - apply O0. exists c, vs. split_and!; [done..|]. by apply S1.
    - apply O1. exists c, es. split_and!; [done..|]. by apply S2. }
  destruct (extract3_ok m new l0 l1 l2 A) as (m' & t0 & t1 & t2 & t3 & Em & H); try done.
  - apply edges_closed; [done|apply G1|]. intros e v Hin Hv. apply O1 in Hin as (c & row & Hin & Er & He).
    destruct (Hc c Hin) as (vs & es & fs & Ev & Ee & Ef & _ & Hes & _). rewrite Er in Ee. injection Ee as ->. rewrite Forall_forall in Hes.
    apply O0. exists c, vs. split_and!; [done..|]. by apply (Hes e He).
  - intros f Hf. destruct (Face f Hf) as (vs' & es' & E1 & E2 & El & S1 & S2). by exists vs'.
  - intros f Hf. destruct (Face f Hf) as (vs' & es' & E1 & E2 & El & S1 & S2). by exists es'.
  - intros f Hf. destruct (Face f Hf) as (vs' & es' & H1 & H2 & El & _). destruct (reachable_rep m Hm) as [a R].
    pose proof (filter_lt m D2 l2 f G2 Hf) as Hlt.
    rewrite (row_at m a R V2 f Hlt) in H1. rewrite (row_at m a R E2 f Hlt) in H2. injection H1 as <-. injection H2 as <-.
    rewrite (count_at m a R V2 f Hlt), (count_at m a R E2 f Hlt). unfold rows. cbn [src] in *. by rewrite El.
  - apply mentioned_closed; [done..|apply GA].
  - apply mentioned_closed; [done..|apply GA].
  - apply mentioned_closed; [done..|apply GA].
  - exists m', (t0, t1, t2, t3). split; [done|]. tauto.
Qed.
