(** Adjacency lists versus edge lists; induced sub-graphs. *)
From stdpp Require Import relations.
From Verif Require Import Base BaseProof GraphModel GraphSpec GraphProof GraphProof3.

(** ** Edge list to adjacency *)

Fixpoint incident (direct : bool) (e : nat) (cols : list (nat * nat)) (v : nat) : list (nat * nat) :=
  match cols with
  | [] => []
  | (o, t) :: cols' =>
      (if decide (o = v) then [(t, e)] else []) ++
      (if direct then [] else if decide (t = v) then [(o, e)] else []) ++ incident direct (S e) cols' v
  end.

Lemma vpush_row {A} (l l' : list (list A)) i a :
  vpush l i a = Ok l' -> length l' = length l /\
  forall v row, l !! v = Some row -> l' !! v = Some (row ++ if decide (i = v) then [a] else []).
Proof.
  unfold vpush. intros (row & Hr & Hs)%bind_ok. apply vget_ok in Hr. apply vset_ok in Hs as [Hi ->].
  split; [apply insert_length|]. intros v row' Hv. destruct (decide (i = v)) as [->|Hne].
  - rewrite Hr in Hv. injection Hv as <-. by apply list_lookup_insert.
  - rewrite app_nil_r. by rewrite list_lookup_insert_ne.
Qed.

Lemma connectivity_rows_spec direct cols : forall e (acc : list (list (nat * nat))),
  Forall (fun c => c.1 < length acc /\ (direct = false -> c.2 < length acc)) cols ->
  exists acc', connectivity_rows direct e cols acc = Ok acc' /\ length acc' = length acc /\
    forall v row, acc !! v = Some row -> acc' !! v = Some (row ++ incident direct e cols v).
Proof.
  induction cols as [|[o t] cols IH]; intros e acc Hc; cbn [connectivity_rows incident].
  - exists acc. split_and!; try done. intros v row Hv. by rewrite app_nil_r.
  - inversion Hc as [|? ? [Ho Ht] Hc']; subst. cbn in Ho, Ht.
    destruct (lookup_lt_is_Some_2 acc o Ho) as [ro Hro].
    pose proof (vpush_ok acc o (t, e) ro Hro) as E1. destruct (vpush_row _ _ _ _ E1) as [Hl1 Hr1].
    rewrite E1. cbn [mbind outcome_bind]. set (acc1 := <[o := ro ++ [(t, e)]]> acc) in *.
    assert (H2 : exists acc2, (if direct then Ok acc1 else vpush acc1 t (o, e)) = Ok acc2 /\ length acc2 = length acc1 /\
      forall v row, acc1 !! v = Some row ->
        acc2 !! v = Some (row ++ (if direct then [] else if decide (t = v) then [(o, e)] else []))).
    { destruct direct.
      - exists acc1. split_and!; try done. intros v row Hv. by rewrite app_nil_r.
      - destruct (lookup_lt_is_Some_2 acc1 t) as [rt Hrt]; [rewrite Hl1; by apply Ht|].
        pose proof (vpush_ok acc1 t (o, e) rt Hrt) as E2. destruct (vpush_row _ _ _ _ E2) as [Hl2 Hr2].
        eexists. split; [exact E2|]. split; [done|]. apply Hr2. }
    destruct H2 as (acc2 & E2 & Hl2 & Hr2). rewrite E2. cbn [mbind outcome_bind].
    destruct (IH (S e) acc2) as (acc' & E & Hl & Hr).
    { by rewrite Hl2, Hl1. }
    exists acc'. split_and!; [done|lia|]. intros v row Hv.
    rewrite (Hr v _ (Hr2 v _ (Hr1 v row Hv))). by rewrite <- !app_assoc.
Qed.

Lemma pair_count (a b : nat * nat) : count_occ (decide_rel (=)) [a] b = if decide (a = b) then 1 else 0.
Proof. cbn. by destruct (decide_rel (=) a b), (decide (a = b)). Qed.

Lemma incident_count direct cols : forall e0 v w e,
  count_occ (decide_rel (=)) (incident direct e0 cols v) (w, e) =
  if decide (e0 <= e) then hits cols (e - e0) (v, w) + (if direct then 0 else hits cols (e - e0) (w, v)) else 0.
Proof.
  induction cols as [|[o t] cols IH]; intros e0 v w e; cbn [incident].
  - unfold hits. rewrite lookup_nil. cbn. destruct (decide _); by destruct direct.
  - rewrite !count_occ_app, IH.
    assert (H1 : count_occ (decide_rel (=)) (if decide (o = v) then [(t, e0)] else []) (w, e) =
                 if decide (e0 = e) then if decide ((o, t) = (v, w)) then 1 else 0 else 0).
    { destruct (decide (o = v)) as [->|Ho].
      - rewrite pair_count. destruct (decide (e0 = e)) as [->|He].
        + destruct (decide ((t, e) = (w, e))), (decide ((v, t) = (v, w))); congruence.
        + destruct (decide ((t, e0) = (w, e))); congruence.
      - cbn. destruct (decide (e0 = e)); [|done]. destruct (decide ((o, t) = (v, w))); congruence. }
    assert (H2 : count_occ (decide_rel (=)) (if direct then [] else if decide (t = v) then [(o, e0)] else []) (w, e) =
                 if direct then 0 else if decide (e0 = e) then if decide ((o, t) = (w, v)) then 1 else 0 else 0).
    { destruct direct; [done|]. destruct (decide (t = v)) as [->|Ho].
      - rewrite pair_count. destruct (decide (e0 = e)) as [->|He].
        + destruct (decide ((o, e) = (w, e))), (decide ((o, v) = (w, v))); congruence.
        + destruct (decide ((o, e0) = (w, e))); congruence.
      - cbn. destruct (decide (e0 = e)); [|done]. destruct (decide ((o, t) = (w, v))); congruence. }
    rewrite H1, H2. clear H1 H2 IH. destruct (decide (e0 = e)) as [->|He].
    + rewrite (decide_False (P := S e <= e)) by lia. rewrite (decide_True (P := e <= e)) by lia.
      rewrite Nat.sub_diag. unfold hits. change (((o, t) :: cols) !! 0) with (Some (o, t)). destruct direct; lia.
    + destruct (decide (S e0 <= e)) as [Hlt|Hlt].
      * rewrite (decide_True (P := e0 <= e)) by lia. replace (e - e0) with (S (e - S e0)) by lia.
        unfold hits. change (((o, t) :: cols) !! S (e - S e0)) with (cols !! (e - S e0)). destruct direct; lia.
      * rewrite (decide_False (P := e0 <= e)) by lia. destruct direct; lia.
Qed.

Lemma position_map_spec keys : forall pos (m : gmap nat nat) k p,
  position_map pos keys m !! k = Some p <->
  m !! k = Some p \/ (m !! k = None /\ pos <= p /\ keys !! (p - pos) = Some k /\ forall q, keys !! q = Some k -> p - pos <= q).
Proof.
  induction keys as [|a keys IH]; intros pos m k p; cbn [position_map].
  - split; [by left|]. by intros [?|(_ & _ & ? & _)].
  - rewrite IH. clear IH. destruct (m !! a) as [p0|] eqn:Ea.
    + split.
      * intros [?|(Hn & Hle & Hk & Hmin)]; [by left|]. right. assert (k <> a) by congruence.
        split_and!; [done|lia| |].
        -- replace (p - pos) with (S (p - S pos)) by lia. done.
        -- intros [|q] Hq; cbn in Hq; [congruence|]. apply Hmin in Hq. lia.
      * intros [?|(Hn & Hle & Hk & Hmin)]; [by left|]. right. assert (k <> a) by congruence.
        destruct (p - pos) as [|d] eqn:Ed; cbn in Hk; [congruence|]. split_and!; [done|lia| |].
        -- by replace (p - S pos) with d by lia.
        -- intros q Hq. specialize (Hmin (S q) Hq). lia.
    + destruct (decide (k = a)) as [->|Hne].
      * rewrite lookup_insert. split.
        -- intros [Hp|(? & _)]; [|done]. injection Hp as <-. right. split_and!; [done|lia| |].
           ++ by rewrite Nat.sub_diag.
           ++ intros q Hq. lia.
        -- intros [?|(Hn & Hle & Hk & Hmin)]; [congruence|]. specialize (Hmin 0 eq_refl). left. f_equal. lia.
      * rewrite lookup_insert_ne by done. split.
        -- intros [?|(Hn & Hle & Hk & Hmin)]; [by left|]. right. split_and!; [done|lia| |].
           ++ replace (p - pos) with (S (p - S pos)) by lia. done.
           ++ intros [|q] Hq; cbn in Hq; [congruence|]. apply Hmin in Hq. lia.
        -- intros [?|(Hn & Hle & Hk & Hmin)]; [by left|]. right.
           destruct (p - pos) as [|d] eqn:Ed; cbn in Hk; [congruence|]. split_and!; [done|lia| |].
           ++ by replace (p - S pos) with d by lia.
           ++ intros q Hq. specialize (Hmin (S q) Hq). lia.
Qed.

Lemma position_map_first keys : first_position keys (position_map 0 keys ∅).
Proof.
  intros k p. rewrite position_map_spec, lookup_empty, Nat.sub_0_r. split.
  - by intros [?|(_ & _ & ? & ?)].
  - intros [? ?]. right. split_and!; try done. lia.
Qed.

Lemma connectivity_spec n cols direct :
  Forall (fun c => c.1 < n /\ (direct = false -> c.2 < n)) cols ->
  exists a, GraphConnectivityToGraphAdjacency n cols direct = Ok a /\
    length (adj_vertices a) = n /\ length (adj_edges a) = n /\
    length (adj_vertices_map a) = n /\ length (adj_edges_map a) = n /\
    forall v, v < n -> exists vs es vm em,
      adj_vertices a !! v = Some vs /\ adj_edges a !! v = Some es /\
      adj_vertices_map a !! v = Some vm /\ adj_edges_map a !! v = Some em /\
      length vs = length es /\
      (forall w e, count_occ (decide_rel (=)) (zip vs es) (w, e) =
         hits cols e (v, w) + (if direct then 0 else hits cols e (w, v))) /\
      first_position vs vm /\ first_position es em.
Proof.
  intros Hc. destruct (connectivity_rows_spec direct cols 0 (replicate n [])) as (rows & E & Hl & Hrow).
  { by rewrite replicate_length. }
  rewrite replicate_length in Hl. unfold GraphConnectivityToGraphAdjacency. rewrite E. cbn [mbind outcome_bind].
  eexists. split; [done|]. cbn [adj_vertices adj_edges adj_vertices_map adj_edges_map]. rewrite !map_length. split_and!; try done.
  intros v Hv. specialize (Hrow v [] (lookup_replicate_2 _ _ _ Hv)). cbn [app] in Hrow.
  set (row := incident direct 0 cols v) in *.
  exists (map fst row), (map snd row), (position_map 0 (map fst row) ∅), (position_map 0 (map snd row) ∅).
  assert (Hm : forall {B} (f : list (nat * nat) -> B), map f rows !! v = Some (f row)).
  { intros B f. change (map f rows) with (f <$> rows). by rewrite list_lookup_fmap, Hrow. }
  rewrite !Hm. rewrite !map_length. split_and!; try done; try apply position_map_first.
  intros w e. assert (Hz : zip (map fst row) (map snd row) = row).
  { clear. induction row as [|[] row IH]; cbn; [done|]. by rewrite IH. }
  rewrite Hz. unfold row. rewrite incident_count, decide_True by lia. by rewrite Nat.sub_0_r.
Qed.

(** ** Adjacency to edge list *)

Fixpoint entries (v : nat) (rows : graph) : list (nat * nat) :=
  match rows with
  | [] => []
  | adj :: rows' => map (fun w => (v, w)) adj ++ entries (S v) rows'
  end.

Lemma write_cols {A} (f : nat -> A) adj : forall e (done rest : list (option A)),
  e = length done -> length adj <= length rest ->
  ofold (fun em w => mat' ← vset em.2 em.1 (Some (f w)); Ok (S em.1, mat')) adj (e, done ++ rest) =
  Ok (e + length adj, done ++ map (fun w => Some (f w)) adj ++ drop (length adj) rest).
Proof.
  induction adj as [|w adj IH]; intros e done rest He Hl; cbn [ofold length map drop app].
  - by rewrite Nat.add_0_r, drop_0.
  - cbn [fst snd]. cbn [length] in Hl. destruct rest as [|r rest]; cbn [length] in Hl; [lia|].
    unfold vset. rewrite decide_True by (rewrite app_length; cbn; lia). cbn [mbind outcome_bind].
    assert (Ei : <[e := Some (f w)]> (done ++ r :: rest) = (done ++ [Some (f w)]) ++ rest).
    { subst e. rewrite insert_app_r_alt by lia. rewrite Nat.sub_diag. cbn. by rewrite <- app_assoc. }
    rewrite Ei, IH; [|rewrite app_length; cbn; lia|lia].
    rewrite <- app_assoc. cbn. f_equal. f_equal. lia.
Qed.

Lemma adjacency_columns_spec rows : forall v e (done rest : list (option (nat * nat))),
  e = length done -> length (entries v rows) <= length rest ->
  adjacency_columns v rows e (done ++ rest) = Ok (done ++ map Some (entries v rows) ++ drop (length (entries v rows)) rest).
Proof.
  induction rows as [|adj rows IH]; intros v e done rest He Hl; cbn [adjacency_columns entries].
  - cbn. by rewrite drop_0.
  - cbn [entries] in Hl. rewrite app_length, map_length in Hl.
    rewrite (write_cols (fun w => (v, w)) adj e done rest He) by lia. cbn [mbind outcome_bind fst snd].
    rewrite app_assoc, IH.
    + rewrite map_app, map_map, !app_length, map_length, drop_drop, <- !app_assoc. done.
    + rewrite app_length, map_length. lia.
    + rewrite drop_length. lia.
Qed.

Lemma write_cols_short {A} (f : nat -> A) adj : forall e (mat : list (option A)),
  e <= length mat -> length mat < e + length adj ->
  ofold (fun em w => mat' ← vset em.2 em.1 (Some (f w)); Ok (S em.1, mat')) adj (e, mat) = UB.
Proof.
  induction adj as [|w adj IH]; intros e mat He Hl; cbn [length] in Hl; [lia|]. cbn [ofold fst snd].
  destruct (decide (e < length mat)) as [Hlt|Hge].
  2:{ assert (Ev : forall a : option A, vset mat e a = UB) by (intros a; unfold vset; by rewrite decide_False).
      by rewrite Ev. }
  rewrite vset_Ok by done. cbn [mbind outcome_bind].
  apply IH; rewrite insert_length; lia.
Qed.

Lemma adjacency_columns_short rows : forall v e (done rest : list (option (nat * nat))),
  e = length done -> length rest < length (entries v rows) ->
  adjacency_columns v rows e (done ++ rest) = UB.
Proof.
  induction rows as [|adj rows IH]; intros v e done rest He Hl; cbn [adjacency_columns entries] in *; [cbn in Hl; lia|].
  rewrite app_length, map_length in Hl. destruct (decide (length adj <= length rest)) as [Hle|Hgt].
  - rewrite (write_cols (fun w => (v, w)) adj e done rest He) by lia. cbn [mbind outcome_bind fst snd].
    rewrite app_assoc. apply IH; [rewrite app_length, map_length; lia|]. rewrite drop_length. lia.
  - rewrite (write_cols_short (fun w => (v, w))); [done| |]; rewrite app_length; lia.
Qed.

Lemma entries_count rows : forall v u w,
  count_occ (decide_rel (=)) (entries v rows) (u, w) = if decide (v <= u) then mult rows (u - v) w else 0.
Proof.
  induction rows as [|adj rows IH]; intros v u w; cbn [entries].
  - unfold mult. rewrite lookup_nil. cbn. by destruct (decide _).
  - rewrite count_occ_app, IH.
    assert (Hc : count_occ (decide_rel (=)) (map (fun w => (v, w)) adj) (u, w) =
                 if decide (v = u) then count_occ PeanoNat.Nat.eq_dec adj w else 0).
    { induction adj as [|a adj IHa]; cbn [map].
      - cbn. by destruct (decide _).
      - destruct (decide (v = u)) as [->|Hne].
        + destruct (decide (a = w)) as [->|Ha].
          * rewrite !count_occ_cons_eq by done. by rewrite IHa.
          * rewrite !count_occ_cons_neq by congruence. done.
        + rewrite count_occ_cons_neq by congruence. done. }
    rewrite Hc. unfold mult. destruct (decide (v = u)) as [->|Hne].
    + rewrite Nat.sub_diag, (decide_False (P := S u <= u)), (decide_True (P := u <= u)) by lia.
      change ((adj :: rows) !! 0) with (Some adj). cbn [default]. unfold id. lia.
    + destruct (decide (S v <= u)) as [H1|H1].
      * rewrite decide_True by lia. replace (u - v) with (S (u - S v)) by lia. done.
      * rewrite decide_False by lia. done.
Qed.

Lemma sum_list_with_app {A} (f : A -> nat) l1 l2 : sum_list_with f (l1 ++ l2) = sum_list_with f l1 + sum_list_with f l2.
Proof. induction l1; cbn; lia. Qed.

Lemma entries_length rows v : length (entries v rows) = sum_list_with length rows.
Proof. revert v. induction rows as [|adj rows IH]; intros v; cbn; [done|]. by rewrite app_length, map_length, IH. Qed.

Lemma edge_list_spec n g :
  (sum_list_with length g <= n ->
     exists cols, GraphAdjacencyToGraphConnectivity n g = Ok (map Some cols ++ replicate (n - length cols) None) /\
       length cols = sum_list_with length g /\
       forall u w, count_occ (decide_rel (=)) cols (u, w) = mult g u w) /\
  (n < sum_list_with length g -> GraphAdjacencyToGraphConnectivity n g = UB).
Proof.
  unfold GraphAdjacencyToGraphConnectivity. split.
  - intros Hn. exists (entries 0 g). rewrite <- (entries_length g 0) in *.
    split_and!; [|done|intros u w; by rewrite entries_count, decide_True, Nat.sub_0_r by lia].
    pose proof (adjacency_columns_spec g 0 0 [] (replicate n None) eq_refl) as H. rewrite replicate_length in H.
    specialize (H Hn). cbn [app] in H. by rewrite H, drop_replicate.
  - intros Hn. apply (adjacency_columns_short g 0 0 [] (replicate n None)); [done|].
    by rewrite entries_length, replicate_length.
Qed.

(** Edge list -> directed adjacency -> edge list: the same edges up to order. *)
Lemma hits_sum cols v w : forall L, length cols <= L ->
  sum_list_with (fun e => hits cols e (v, w)) (seq 0 L) = count_occ (decide_rel (=)) cols (v, w).
Proof.
  induction cols as [|c cols IH]; intros L HL.
  - cbn. induction (seq 0 L) as [|e l IHl]; cbn; [done|]. unfold hits at 1. by rewrite lookup_nil, IHl.
  - destruct L as [|L]; cbn [length] in HL; [lia|]. cbn [seq sum_list_with].
    rewrite <- fmap_S_seq. assert (Hs : forall l, sum_list_with (fun e => hits (c :: cols) e (v, w)) (S <$> l) =
      sum_list_with (fun e => hits cols e (v, w)) l).
    { induction l as [|e l IHl]; cbn; [done|]. rewrite IHl. done. }
    rewrite Hs, IH by lia. unfold hits. change ((c :: cols) !! 0) with (Some c). cbn iota. destruct (decide (c = (v, w))) as [->|Hne].
    + by rewrite count_occ_cons_eq.
    + by rewrite count_occ_cons_neq.
Qed.

Lemma count_fst_zip (vs es : list nat) w : length vs = length es -> forall L, Forall (fun e => e < L) es ->
  sum_list_with (fun e => count_occ (decide_rel (=)) (zip vs es) (w, e)) (seq 0 L) = count_occ PeanoNat.Nat.eq_dec vs w.
Proof.
  revert es. induction vs as [|a vs IH]; intros [|e es] Hl L HL; cbn [length] in Hl; try lia.
  - cbn. induction (seq 0 L); cbn; done.
  - inversion HL as [|? ? He HL']; subst. specialize (IH es ltac:(lia) L HL'). cbn [zip zip_with].
    assert (Hs : forall l, NoDup l ->
      sum_list_with (fun x => count_occ (decide_rel (=)) ((a, e) :: zip vs es) (w, x)) l =
      (if decide (a = w /\ e ∈ l) then 1 else 0) + sum_list_with (fun x => count_occ (decide_rel (=)) (zip vs es) (w, x)) l).
    { induction l as [|x l IHl]; intros Hnd; cbn [sum_list_with].
      - rewrite decide_False; [done|]. intros [_ Hin]. by apply not_elem_of_nil in Hin.
      - apply NoDup_cons in Hnd as [Hx Hnd]. rewrite IHl by done. clear IHl.
        destruct (decide ((a, e) = (w, x))) as [Heq|Hne].
        + injection Heq as -> ->. rewrite count_occ_cons_eq by done.
          rewrite (decide_False (P := w = w /\ x ∈ l)) by tauto. rewrite decide_True by (split; [done|by left]). lia.
        + rewrite count_occ_cons_neq by done. destruct (decide (a = w /\ e ∈ l)) as [[-> Hin]|Hn].
          * rewrite decide_True by (split; [done|by right]). lia.
          * rewrite decide_False; [lia|]. intros [-> [->|Hin]%elem_of_cons]; [done|]. by apply Hn. }
    rewrite Hs by apply NoDup_seq. rewrite IH. destruct (decide (a = w)) as [->|Ha].
    + rewrite decide_True by (split; [done|apply elem_of_seq; lia]). by rewrite count_occ_cons_eq.
    + rewrite decide_False by tauto. by rewrite count_occ_cons_neq.
Qed.

Lemma pair_dec_irrel (l : list (nat * nat)) d1 d2 p : count_occ d1 l p = count_occ d2 l p.
Proof. induction l as [|a l IH]; cbn; [done|]. destruct (d1 a p), (d2 a p); congruence. Qed.

Lemma edge_list_round_trip n cols a :
  Forall (fun c => c.1 < n /\ c.2 < n) cols ->
  GraphConnectivityToGraphAdjacency n cols true = Ok a ->
  exists cols', GraphAdjacencyToGraphConnectivity (length cols) (adj_vertices a) = Ok (map Some cols') /\ cols' ≡ₚ cols.
Proof.
  intros Hc E. destruct (connectivity_spec n cols true) as (a' & E' & Hlv & _ & _ & _ & Hrow).
  { eapply Forall_impl; [exact Hc|]. cbn. tauto. }
  rewrite E in E'. injection E' as <-.
  assert (Hm : forall u w, mult (adj_vertices a) u w = count_occ (decide_rel (=)) cols (u, w)).
  { intros u w. unfold mult. destruct (decide (u < n)) as [Hu|Hu].
    - destruct (Hrow u Hu) as (vs & es & vm & em & H1 & H2 & _ & _ & Hlen & Hcnt & _). rewrite H1. cbn [default].
      unfold id. rewrite <- (count_fst_zip vs es w Hlen (length cols)).
      + rewrite <- (hits_sum cols u w (length cols)) by done. clear Hc E Hlv Hrow H1 H2.
        induction (seq 0 (length cols)) as [|e l IHl]; cbn; [done|]. rewrite IHl, Hcnt. lia.
      + apply Forall_forall. intros e He. apply elem_of_list_lookup in He as [p Hp].
        destruct (lookup_lt_is_Some_2 vs p) as [w' Hw']. { rewrite Hlen. by eapply lookup_lt_Some. }
        assert (Hin : In (w', e) (zip vs es)).
        { apply elem_of_list_In, (elem_of_list_lookup_2 _ p). rewrite lookup_zip_with, Hw'. cbn. by rewrite Hp. }
        apply (count_occ_In (decide_rel (=))) in Hin. rewrite Hcnt in Hin. unfold hits in Hin.
        destruct (cols !! e) eqn:Ee; [by eapply lookup_lt_Some|lia].
    - rewrite lookup_ge_None_2 by lia. cbn. symmetry. apply count_occ_not_In. intros Hin%elem_of_list_In.
      rewrite Forall_forall in Hc. apply Hc in Hin. cbn in Hin. lia. }
  destruct (edge_list_spec (length cols) (adj_vertices a)) as [Hok Hub].
  assert (Hperm : entries 0 (adj_vertices a) ≡ₚ cols).
  { apply (Permutation_count_occ (decide_rel (=))). intros [u w].
    rewrite entries_count, decide_True, Nat.sub_0_r by lia. apply Hm. }
  assert (Hlen : sum_list_with length (adj_vertices a) = length cols).
  { rewrite <- (entries_length _ 0). by rewrite Hperm. }
  destruct Hok as (cols' & E' & Hl' & Hcnt); [lia|].
  exists cols'. replace (length cols - length cols') with 0 in E' by lia. cbn in E'. rewrite app_nil_r in E'.
  split; [done|]. apply (Permutation_count_occ (decide_rel (=))). intros [u w]. by rewrite Hcnt, Hm.
Qed.

(** ** Induced sub-graphs *)

Lemma filter_find_spec filter o f : NoDup filter.*1 -> filter_find filter o = Some f <-> (o, f) ∈ filter.
Proof.
  induction filter as [|[o' f'] filter IH]; intros Hnd; cbn.
  - by rewrite elem_of_nil.
  - cbn in Hnd. apply NoDup_cons in Hnd as [Hn Hnd]. destruct (Nat.eqb_spec o' o) as [->|Hne].
    + split.
      * intros [= ->]. by left.
      * intros [Heq|Hin]%elem_of_cons; [by injection Heq as <-|]. exfalso. apply Hn, elem_of_list_fmap. by exists (o, f).
    + rewrite IH by done. rewrite elem_of_cons. split; [by right|]. intros [Heq|?]; [|done]. injection Heq as -> ->. done.
Qed.

Lemma sub_row filter f adj : forall acc : list (list nat), f < length acc ->
  exists acc', ofold (fun acc w => match filter_find filter w with None => Ok acc | Some fw => vpush acc f fw end) adj acc = Ok acc' /\
    length acc' = length acc /\
    forall v row, acc !! v = Some row -> acc' !! v = Some (row ++ if decide (f = v) then omap (filter_find filter) adj else []).
Proof.
  induction adj as [|w adj IH]; intros acc Hf; cbn [ofold].
  - exists acc. split_and!; try done. intros v row Hv. destruct (decide _); by rewrite app_nil_r.
  - cbn [omap list_omap]. destruct (filter_find filter w) as [fw|]; cbn [mbind outcome_bind]; [|by apply IH].
    destruct (lookup_lt_is_Some_2 acc f Hf) as [rf Hrf]. pose proof (vpush_ok acc f fw rf Hrf) as E1.
    destruct (vpush_row _ _ _ _ E1) as [Hl1 Hr1]. rewrite E1. cbn [mbind outcome_bind].
    destruct (IH (<[f := rf ++ [fw]]> acc)) as (acc' & E & Hl & Hr); [lia|]. exists acc'. split_and!; [done|lia|].
    intros v row Hv. rewrite (Hr v _ (Hr1 v row Hv)). destruct (decide (f = v)); by rewrite <- app_assoc.
Qed.

Lemma sub_rows (g : list (list nat)) filter0 filter : forall acc : list (list nat),
  Forall (fun of => of.1 < length g /\ of.2 < length acc) filter -> NoDup filter.*2 ->
  exists acc', ofold (fun acc of => adj ← vget g of.1;
      ofold (fun acc w => match filter_find filter0 w with None => Ok acc | Some fw => vpush acc of.2 fw end) adj acc) filter acc = Ok acc' /\
    length acc' = length acc /\
    (forall v, v ∉ filter.*2 -> acc' !! v = acc !! v) /\
    forall o f adj row, (o, f) ∈ filter -> g !! o = Some adj -> acc !! f = Some row ->
      acc' !! f = Some (row ++ omap (filter_find filter0) adj).
Proof.
  induction filter as [|[o f] filter IH]; intros acc Hb Hnd; cbn [ofold fst snd].
  - exists acc. split_and!; try done. intros o f adj row Hin. by apply not_elem_of_nil in Hin.
  - inversion Hb as [|? ? [Ho Hf] Hb']; subst. cbn in Ho, Hf, Hnd. apply NoDup_cons in Hnd as [Hn Hnd].
    destruct (lookup_lt_is_Some_2 g o Ho) as [adj Hadj]. rewrite (vget_Ok _ _ _ Hadj). cbn [mbind outcome_bind].
    destruct (sub_row filter0 f adj acc Hf) as (acc1 & E1 & Hl1 & Hr1). rewrite E1. cbn [mbind outcome_bind].
    destruct (IH acc1) as (acc' & E & Hl & Hout & Hin). { by rewrite Hl1. } { done. }
    exists acc'. split_and!; [done|lia| |].
    + intros v. cbn. rewrite not_elem_of_cons. intros [Hne Hv]. rewrite Hout by done.
      destruct (acc !! v) as [row|] eqn:Ev.
      * rewrite (Hr1 v row Ev), decide_False by done. by rewrite app_nil_r.
      * apply lookup_ge_None_2. apply lookup_ge_None_1 in Ev. lia.
    + intros o' f' adj' row [Heq|Hof]%elem_of_cons Ha Hrow.
      * injection Heq as -> ->. rewrite Hadj in Ha. injection Ha as <-. rewrite Hout by done.
        by rewrite (Hr1 f row Hrow), decide_True.
      * apply (Hin o' f' adj' row Hof Ha). rewrite (Hr1 f' row Hrow), decide_False; [by rewrite app_nil_r|].
        intros ->. apply Hn, elem_of_list_fmap. by exists (o', f').
Qed.

Lemma subgraph_spec g filter :
  graph_ok g -> NoDup filter.*1 -> (forall o, o ∈ filter.*1 -> o < length g) -> filter.*2 ≡ₚ seq 0 (length filter) ->
  exists sub, ExtractSubGraph g filter = Ok sub /\ length sub = length filter /\ graph_ok sub /\
    forall o1 f1 o2 f2, (o1, f1) ∈ filter -> (o2, f2) ∈ filter -> mult sub f1 f2 = mult g o1 o2.
Proof.
  intros Hg Hk Ho Hp.
  assert (Hf : forall f, f ∈ filter.*2 <-> f < length filter). { intros f. rewrite Hp, elem_of_seq. lia. }
  destruct (sub_rows g filter filter (replicate (length filter) [])) as (sub & E & Hl & _ & Hin).
  { rewrite replicate_length. apply Forall_forall. intros [o f] Hof. cbn. split.
    - apply Ho, elem_of_list_fmap. by exists (o, f).
    - apply Hf, elem_of_list_fmap. by exists (o, f). }
  { rewrite Hp. apply NoDup_seq. }
  rewrite replicate_length in Hl. exists sub. 
  assert (Hrow : forall o f adj, (o, f) ∈ filter -> g !! o = Some adj -> sub !! f = Some (omap (filter_find filter) adj)).
  { intros o f adj Hof Ha. apply (Hin o f adj [] Hof Ha). apply lookup_replicate_2. apply Hf, elem_of_list_fmap. by exists (o, f). }
  split_and!; try done.
  - unfold graph_ok. apply Forall_forall. intros row [f Hrf]%elem_of_list_lookup.
    assert (Hfl : f < length filter). { rewrite <- Hl. by eapply lookup_lt_Some. }
    apply Hf, elem_of_list_fmap in Hfl as ([o f'] & -> & Hof). cbn in *.
    assert (Hol : o < length g). { apply Ho, elem_of_list_fmap. by exists (o, f'). }
    destruct (lookup_lt_is_Some_2 g o Hol) as [adj Hadj]. rewrite (Hrow o f' adj Hof Hadj) in Hrf. injection Hrf as <-.
    apply Forall_forall. intros fw (w & _ & Hw)%elem_of_list_omap. apply filter_find_spec in Hw; [|done].
    rewrite Hl. apply Hf, elem_of_list_fmap. by exists (w, fw).
  - intros o1 f1 o2 f2 H1 H2. assert (Hol : o1 < length g). { apply Ho, elem_of_list_fmap. by exists (o1, f1). }
    destruct (lookup_lt_is_Some_2 g o1 Hol) as [adj Hadj]. unfold mult. rewrite (Hrow o1 f1 adj H1 Hadj), Hadj. cbn [default].
    unfold id. clear Hrow Hadj. induction adj as [|w adj IH]; [done|]. cbn [omap list_omap].
    destruct (decide (w = o2)) as [->|Hne].
    + rewrite (proj2 (filter_find_spec filter o2 f2 Hk) H2). rewrite !count_occ_cons_eq by done. by rewrite IH.
    + rewrite (count_occ_cons_neq _ adj Hne). destruct (filter_find filter w) as [fw|] eqn:Ew; [|done].
      rewrite count_occ_cons_neq; [done|]. intros ->. apply Hne. apply filter_find_spec in Ew; [|done].
      assert (Hnd2 : NoDup filter.*2). { rewrite Hp. apply NoDup_seq. }
      apply elem_of_list_lookup in Ew as [i Hi]. apply elem_of_list_lookup in H2 as [j Hj].
      assert (i = j) as ->. { eapply (NoDup_lookup _ i j f2 Hnd2); rewrite list_lookup_fmap; [by rewrite Hi|by rewrite Hj]. }
      rewrite Hi in Hj. by injection Hj.
Qed.
