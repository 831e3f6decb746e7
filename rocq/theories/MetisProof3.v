(** Networks built from edge lists and from meshes. *)
From stdpp Require Import relations.
From Verif Require Import Base BaseProof CsrModel CsrSpec CsrProof MeshModel MeshSpec MeshRep MeshHist MeshProof8 MeshProof9
  GraphModel GraphSpec GraphProof3 GraphProof5 MetisModel MetisSpec MetisProof MetisProof2.

(** ** Pushing a list of events onto rows *)

Definition events_of {A} (v : nat) (evs : list (nat * A)) : list A := (filter (fun e => e.1 = v) evs).*2.

Lemma events_of_app {A} v (l1 l2 : list (nat * A)) : events_of v (l1 ++ l2) = events_of v l1 ++ events_of v l2.
Proof. unfold events_of. by rewrite filter_app, fmap_app. Qed.

Lemma events_of_cons {A} v u (x : A) l : events_of v ((u, x) :: l) = (if decide (u = v) then [x] else []) ++ events_of v l.
Proof. unfold events_of. rewrite filter_cons. cbn. by destruct (decide (u = v)). Qed.

(** [rows'] is [rows] with the events appended to their rows. *)
Definition pushed {A} (rows rows' : list (list A)) (evs : list (nat * A)) : Prop :=
  length rows' = length rows /\ forall v row, rows !! v = Some row -> rows' !! v = Some (row ++ events_of v evs).

Lemma pushed_nil {A} (rows : list (list A)) : pushed rows rows [].
Proof. split; [done|]. intros v row Hv. by rewrite app_nil_r. Qed.

Lemma pushed_trans {A} (r1 r2 r3 : list (list A)) e1 e2 : pushed r1 r2 e1 -> pushed r2 r3 e2 -> pushed r1 r3 (e1 ++ e2).
Proof.
  intros [L1 H1] [L2 H2]. split; [congruence|]. intros v row Hv. rewrite events_of_app, app_assoc. by apply H2, H1.
Qed.

Lemma vpush_pushed {A} (rows : list (list A)) v x :
  v < length rows -> exists rows', vpush rows v x = Ok rows' /\ pushed rows rows' [(v, x)].
Proof.
  intros Hv. destruct (lookup_lt_is_Some_2 rows v Hv) as [row Hrow]. exists (<[v := row ++ [x]]> rows).
  split; [by apply vpush_ok|]. split; [apply insert_length|]. intros u r Hu. rewrite events_of_cons.
  destruct (decide (v = u)) as [<-|Hne].
  - rewrite Hrow in Hu. injection Hu as <-. by rewrite list_lookup_insert.
  - rewrite list_lookup_insert_ne by done. cbn. by rewrite app_nil_r.
Qed.

(** Starting from [n] empty rows. *)
Lemma pushed_rows {A} n (rows : list (list A)) evs :
  pushed (replicate n []) rows evs -> length rows = n /\ forall v, v < n -> rows !! v = Some (events_of v evs).
Proof.
  intros [L H]. rewrite replicate_length in L. split; [done|]. intros v Hv. apply (H v []). by apply lookup_replicate_2.
Qed.

(** ** Compressing rows *)

Lemma slice_rows {A B} (rows : list (list A)) (h : A -> B) (cols : list nat) v row :
  rows !! v = Some row -> slice (MAdj (offsets_from 0 (map length rows)) cols) v (map h (concat rows)) = map h row.
Proof.
  intros Hv. unfold slice. cbn [Rows]. rewrite offsets_row_ends.
  pose proof (lookup_lt_Some _ _ _ Hv) as Hlt. set (c := Csr (row_ends 0 rows) (concat rows)). assert (Hc : csr_rep c rows) by done.
  pose proof (rep_off c rows v Hc ltac:(lia)) as H1. pose proof (rep_off_S c rows v row Hc Hv) as H2.
  apply vget_ok in H1, H2. cbn in H1, H2. rewrite H1, H2. cbn [default]. unfold id.
  rewrite (concat_split rows v row Hv). rewrite !map_app, drop_app_alt by (by rewrite map_length).
  rewrite take_app_alt; [done|]. rewrite map_length. lia.
Qed.

Lemma rows_adj_ok {A} (rows : list (list A)) (h : A -> nat) :
  (forall row x, row ∈ rows -> x ∈ row -> h x < length rows) ->
  adj_ok (length rows) (MAdj (offsets_from 0 (map length rows)) (map h (concat rows))).
Proof.
  intros Hh. rewrite offsets_row_ends. destruct (rep_shape (Csr (row_ends 0 rows) (concat rows)) rows) as (H1 & H2 & H3 & H4); [done|].
  split_and!; try done; cbn [Rows Cols].
  - by rewrite map_length.
  - apply Forall_forall. intros w Hw. apply elem_of_list_In, in_map_iff in Hw as (x & <- & Hx).
    apply elem_of_list_In, elem_concat in Hx as (row & Hrow & Hx). by apply (Hh row).
Qed.

Lemma entry_rows {A} (rows : list (list A)) (h : A -> nat) pos v w :
  entry (MAdj (offsets_from 0 (map length rows)) (map h (concat rows))) pos v w ->
  exists row k x, rows !! v = Some row /\ row !! k = Some x /\ h x = w /\ pos = length (concat (take v rows)) + k /\
    concat rows !! pos = Some x.
Proof.
  intros (Hw & lo & hi & Hlo & Hhi & Hpos). cbn [Rows Cols] in *. rewrite offsets_row_ends in Hlo, Hhi.
  assert (Hv : v < length rows). { apply lookup_lt_Some in Hhi. rewrite row_ends_length in Hhi. lia. }
  destruct (lookup_lt_is_Some_2 rows v Hv) as [row Hrow].
  set (c := Csr (row_ends 0 rows) (concat rows)). assert (Hc : csr_rep c rows) by done.
  pose proof (rep_off c rows v Hc ltac:(lia)) as H1. pose proof (rep_off_S c rows v row Hc Hrow) as H2.
  apply vget_ok in H1, H2. cbn in H1, H2. rewrite Hlo in H1. rewrite Hhi in H2. injection H1 as ->. injection H2 as ->.
  set (lo := length (concat (take v rows))) in *.
  destruct (lookup_lt_is_Some_2 row (pos - lo)) as [x Hx]; [lia|]. exists row, (pos - lo), x.
  assert (Hcx : concat rows !! pos = Some x).
  { replace pos with (lo + (pos - lo)) by lia. unfold lo. rewrite (concat_lookup rows v row); [done|done|]. by eapply lookup_lt_Some. }
  split_and!; try done; [|lia]. change (map h (concat rows)) with (h <$> concat rows) in Hw. rewrite list_lookup_fmap, Hcx in Hw.
  cbn in Hw. congruence.
Qed.

Lemma zip_map2 {A B C} (f : A -> B) (g : A -> C) l : zip (map f l) (map g l) = map (fun x => (f x, g x)) l.
Proof. induction l as [|x l IH]; cbn; [done|]. by rewrite IH. Qed.

(** ** MeshToGraph *)

Definition graph_events (undirect : bool) (l : list (nat * nat * N)) : list (nat * (nat * N)) :=
  flat_map (fun e => (e.1.1, (e.1.2, e.2)) :: if undirect then [(e.1.2, (e.1.1, e.2))] else []) l.

Lemma graph_connections_ok undirect ew : forall cols e acc n,
  Forall (fun c => c.1 < n /\ c.2 < n) cols -> length acc = n -> (ew = [] \/ e + length cols <= length ew) ->
  exists acc', graph_connections undirect ew e cols acc = Ok acc' /\
    pushed acc acc' (graph_events undirect (zip cols (match ew with [] => replicate (length cols) 1%N | _ => drop e ew end))).
Proof.
  induction cols as [|[o t] cols IH]; intros e acc n Hc Hl Hw; cbn [graph_connections].
  { exists acc. split; [done|]. apply pushed_nil. }
  apply Forall_cons in Hc as [[Ho Ht] Hc]. cbn in Ho, Ht.
  set (ws := match ew with [] => replicate (length ((o, t) :: cols)) 1%N | _ => drop e ew end).
  assert (Hws : exists w ws', edge_weight ew e = Ok w /\ ws = w :: ws' /\
            ws' = match ew with [] => replicate (length cols) 1%N | _ => drop (S e) ew end).
  { unfold ws, edge_weight. destruct ew as [|w0 ew']; [by exists 1%N, (replicate (length cols) 1%N)|]. set (ew := w0 :: ew') in *.
    destruct Hw as [Hw|Hw]; [done|]. cbn [length] in Hw. destruct (lookup_lt_is_Some_2 ew e) as [w Hwe]; [lia|].
    exists w, (drop (S e) ew). rewrite (vget_Ok _ _ _ Hwe). split_and!; try done. by apply drop_S. }
  destruct Hws as (w & ws' & -> & -> & Hws'). cbn [mbind outcome_bind].
  destruct (vpush_pushed acc o (t, w)) as (a1 & E1 & P1); [lia|]. rewrite E1. cbn [mbind outcome_bind].
  assert (H2 : exists a2, (if undirect then vpush a1 t (o, w) else Ok a1) = Ok a2 /\
             pushed a1 a2 (if undirect then [(t, (o, w))] else [])).
  { destruct undirect; [|exists a1; split; [done|apply pushed_nil]]. apply vpush_pushed. rewrite (proj1 P1). lia. }
  destruct H2 as (a2 & E2 & P2). rewrite E2. cbn [mbind outcome_bind].
  destruct (IH (S e) a2 n) as (a3 & E3 & P3); [done|by rewrite (proj1 P2), (proj1 P1)|destruct Hw as [Hw|Hw]; [by left|right; cbn in Hw; lia]|].
  exists a3. split; [done|]. rewrite <- Hws' in P3. cbn [zip zip_with].
  change (graph_events undirect ((o, t, w) :: zip_with pair cols ws'))
    with (((o, (t, w)) :: if undirect then [(t, (o, w))] else []) ++ graph_events undirect (zip cols ws')).
  eapply pushed_trans; [|done]. apply (pushed_trans _ a1 _ [(o, (t, w))] _ P1 P2).
Qed.

Lemma events_in {A} v (x : A) evs : x ∈ events_of v evs <-> (v, x) ∈ evs.
Proof.
  unfold events_of. rewrite elem_of_list_fmap. split.
  - intros ([u y] & -> & [H1 H2]%elem_of_list_filter). cbn in *. by subst.
  - intros H. exists (v, x). split; [done|]. by apply elem_of_list_filter.
Qed.

Lemma graph_events_count undirect l v w (x : N) :
  count_occ (decide_rel (=)) (events_of v (graph_events undirect l)) (w, x) =
  count_occ (decide_rel (=)) l (v, w, x) + (if undirect then count_occ (decide_rel (=)) l (w, v, x) else 0).
Proof.
  induction l as [|[[o t] y] l IH]; [by destruct undirect|].
  change (graph_events undirect ((o, t, y) :: l)) with (((o, (t, y)) :: if undirect then [(t, (o, y))] else []) ++ graph_events undirect l).
  rewrite events_of_app, count_occ_app, IH. rewrite events_of_cons, count_occ_app.
  assert (H1 : count_occ (decide_rel (=)) (if decide (o = v) then [(t, y)] else []) (w, x)
     = if decide ((o, t, y) = (v, w, x)) then 1 else 0).
  { destruct (decide (o = v)) as [->|Hne]; [|by rewrite decide_False by congruence]. cbn [count_occ].
    destruct (decide_rel (=) (t, y) (w, x)) as [E|E].
    - injection E as -> ->. by rewrite decide_True by done.
    - rewrite decide_False; [done|]. intros E'. apply E. congruence. }
  assert (H2 : count_occ (decide_rel (=)) (events_of v (if undirect then [(t, (o, y))] else [])) (w, x)
     = if undirect then (if decide ((o, t, y) = (w, v, x)) then 1 else 0) else 0).
  { destruct undirect; [|done]. rewrite events_of_cons. change (events_of v (@nil (nat * (nat * N)))) with (@nil (nat * N)). rewrite app_nil_r.
    destruct (decide (t = v)) as [->|Hne]; [|by rewrite decide_False by congruence]. cbn [count_occ].
    destruct (decide_rel (=) (o, y) (w, x)) as [E|E].
    - injection E as -> ->. by rewrite decide_True by done.
    - rewrite decide_False; [done|]. intros E'. apply E. congruence. }
  rewrite H1, H2. cbn [count_occ]. unfold decide.
  destruct (decide_rel (=) (o, t, y) (v, w, x)), (decide_rel (=) (o, t, y) (w, v, x)), undirect; lia.
Qed.

Lemma mesh_to_graph_ok n cols undirect vw ew :
  Forall (fun c => c.1 < n /\ c.2 < n) cols -> ew = [] \/ length ew = length cols ->
  exists net, MeshToGraph n cols undirect vw ew = Ok net /\ adj_ok n (nadj net) /\ nodes_weight net = vw /\
    edges_constrained net = [] /\ length (edges_weight net) = length (Cols (nadj net)) /\
    forall v w x, v < n ->
      let ws := match ew with [] => replicate (length cols) 1%N | _ => ew end in
      count_occ (decide_rel (=)) (zip (slice (nadj net) v (Cols (nadj net))) (slice (nadj net) v (edges_weight net))) (w, x) =
      count_occ (decide_rel (=)) (zip cols ws) (v, w, x) +
      (if undirect then count_occ (decide_rel (=)) (zip cols ws) (w, v, x) else 0).
Proof.
  intros Hc Hw. unfold MeshToGraph.
  destruct (graph_connections_ok undirect ew cols 0 (replicate n []) n) as (conns & E & P); [done|apply replicate_length|destruct Hw; [by left|right; lia]|].
  rewrite E. cbn [mbind outcome_bind]. rewrite drop_0 in P. apply pushed_rows in P as [Hl Hrows].
  eexists. split; [done|]. cbn [nadj nodes_weight edges_constrained edges_weight Cols]. split_and!; try done.
  - rewrite <- Hl. apply rows_adj_ok. intros row [t x] [v Hv]%elem_of_list_lookup Hx. cbn. rewrite Hl.
    pose proof (lookup_lt_Some _ _ _ Hv) as Hlt. rewrite Hl in Hlt. rewrite Hrows in Hv by done. injection Hv as <-.
    apply (proj1 (events_in v (t, x) _)) in Hx. unfold graph_events in Hx. apply elem_of_list_In, in_flat_map in Hx as ([[o t'] y] & Hin & Hx).
    apply elem_of_list_In in Hin, Hx. apply elem_of_zip_l in Hin. rewrite Forall_forall in Hc. specialize (Hc _ Hin). cbn in Hc, Hx.
    apply elem_of_cons in Hx as [Hx|Hx]; [injection Hx as _ -> _; lia|]. destruct undirect; [|by apply elem_of_nil in Hx].
    apply elem_of_list_singleton in Hx. injection Hx as _ -> _. lia.
  - by rewrite !map_length.
  - intros v w x Hv. rewrite (slice_rows conns fst _ v _ (Hrows v Hv)), (slice_rows conns snd _ v _ (Hrows v Hv)).
    rewrite zip_map2. rewrite <- graph_events_count. f_equal. rewrite <- (map_id (events_of v _)) at 2. apply map_ext. by intros [].
Qed.
