(** * Which edges and vertices are inside a group of polygons. *)
From Coq Require Import ZArith ZifyBool ZifyNat ZifyN.
From Verif Require Import Base BaseProof ConcatModel CsrModel MeshModel MeshSpec MeshRep MeshHist MeshProof8 MeshProof9 JoinModel JoinSpec JoinProof OutlineModel OutlineSpec.
Local Open Scope nat_scope.

(** A loop that collects cells. *)
Lemma collect {S X} (step : S -> X -> outcome S) (P : S -> Prop) (mem : S -> N -> Prop) (at_ : X -> N -> Prop) l :
  (forall x s, x ∈ l -> P s -> exists s', step s x = Ok s' /\ P s' /\ forall w, mem s' w <-> at_ x w \/ mem s w) ->
  forall s, P s -> exists s', ofold step l s = Ok s' /\ P s' /\ forall w, mem s' w <-> (exists x, x ∈ l /\ at_ x w) \/ mem s w.
Proof.
  induction l as [|x l IH]; intros H s PS.
  - exists s. split_and!; [done|done|]. intros w. split; [tauto|]. intros [(x & XI%elem_of_nil & _)|?]; done.
  - cbn [ofold]. destruct (H x s) as (s1 & -> & P1 & M1); [left|done|]. cbn [mbind outcome_bind].
    destruct (IH) with (s := s1) as (s2 & -> & P2 & M2); [intros x' s' I; apply H; by right|done|].
    exists s2. split_and!; [done|done|]. intros w. rewrite M2, M1. split.
    + intros [(x' & I & A)|[A|A]]; [left; exists x'; split; [by right|done]|left; exists x; split; [left|done]|by right].
    + intros [(x' & [-> |I]%elem_of_cons & A)|A]; [tauto|left; by exists x'|tauto].
Qed.

Section inside.
Context (m : mesh) (RM : reachable m) (fs : list N) (PE : polygons_exist fs m).

Lemma all_among_ok r set i row : (forall x, x ∈ set -> is_cell (tgt r) m x) -> RelRow r i m = Ok row -> forall n j count, j + n = length row ->
  exists b k, all_among r set i (seq j n) count m = Ok (b, k) /\
    (b = true -> Forall (fun e => e ∈ set) (drop j row) /\ k = count + n) /\ (b = false -> ~ Forall (fun e => e ∈ set) (drop j row)).
Proof.
  intros EX H. destruct (row_reads m RM _ _ _ H) as [_ RD]. induction n as [|n IH]; intros j count L.
  - exists true, count. split; [done|]. rewrite drop_ge by lia. split; [intros _; split; [constructor|lia]|done].
  - cbn [seq all_among]. destruct (lookup_lt_is_Some_2 row j) as [e E]; [lia|]. destruct (RD j e E) as [-> ->]. cbn [mbind outcome_bind].
    rewrite (drop_S _ _ _ E). destruct (N.ltb_spec e (N.of_nat (num (tgt r) m))) as [EL|EL].
    + case_bool_decide as EI.
      * destruct (IH (S j) (S count)) as (b & k & -> & B1 & B2); [lia|]. exists b, k. split; [done|]. split.
        -- intros ->. destruct B1 as [B1 ->]; [done|]. split; [by constructor|lia].
        -- intros -> [_ F]%Forall_cons. by apply B2.
      * exists false, count. split; [done|]. split; [done|]. intros _ [F _]%Forall_cons. done.
    + exists false, count. split; [done|]. split; [done|]. intros _ [F%EX _]%Forall_cons. unfold is_cell in F. lia.
Qed.

Record edges_sorted (s : list (N * bool) * list N) : Prop := {
  es_once1 : NoDup (s.1.*1);
  es_once2 : NoDup s.2;
  es_stay : forall e b, (e, b) ∈ s.1 -> ~ inner_edge fs m e /\ exists u o, runs_from fs m e u /\ Cell1DOrigin (N.to_nat e) m = Ok o /\ b = bool_decide (o = u);
  es_go : forall e, e ∈ s.2 -> inner_edge fs m e
}.

Lemma sort_edge_ok f vs es k e u s : f ∈ fs -> RelRow V2 (N.to_nat f) m = Ok vs -> RelRow E2 (N.to_nat f) m = Ok es -> vs !! k = Some u -> es !! k = Some e ->
  is_cell D1 m e -> edges_sorted s ->
  exists s', sort_edge fs (N.to_nat f) m s k = Ok s' /\ edges_sorted s' /\ forall w, (w ∈ s'.1.*1 \/ w ∈ s'.2) <-> w = e \/ (w ∈ s.1.*1 \/ w ∈ s.2).
Proof.
  intros F HV HE KV KE L [O1 O2 ST GO]. unfold sort_edge. rewrite (proj1 (proj2 (row_reads m RM _ _ _ HE) k e KE)). cbn [mbind outcome_bind].
  case_bool_decide as I. { exists s. split_and!; [done|done|]. intros w. split; [tauto|]. intros [-> |?]; tauto. }
  destruct (row_exists m RM R12 (N.to_nat e)) as [row H]; [unfold is_cell in L; cbn [src]; lia|].
  destruct (row_reads m RM _ _ _ H) as [-> _]. cbn [mbind outcome_bind]. rewrite Nat2N.id.
  destruct (all_among_ok R12 fs _ _ (fun f I => proj1 (PE f I)) H (length row) 0 0 eq_refl) as (b & c & -> & B1 & B2). cbn [mbind outcome_bind fst snd]. rewrite drop_0 in B1, B2.
  assert (edge_of fs m e) as EO. { exists f, es. split_and!; [done|done|]. by eapply elem_of_list_lookup_2. }
  destruct (b && (2 <=? c)) eqn:BK.
  - apply andb_true_iff in BK as [-> K%Nat.leb_le]. destruct B1 as [FA ->]; [done|].
    eexists. split; [done|]. cbn [fst snd]. split.
    + split; cbn [fst snd]; [done|by apply set_add_nodup|done|]. intros w [-> |W]%set_add_elem; [|by apply GO]. split; [done|]. by exists row.
    + intros w. rewrite set_add_elem. tauto.
  - case_bool_decide as I1. { exists s. split_and!; [done|done|]. intros w. split; [tauto|]. intros [-> |?]; tauto. }
    destruct (edge_vertices m RM e L) as (o & t & HO & _ & _ & _). rewrite HO. cbn [mbind outcome_bind].
    rewrite (proj1 (proj2 (row_reads m RM _ _ _ HV) k u KV)). cbn [mbind outcome_bind]. eexists. split; [done|]. cbn [fst snd]. split.
    + split; cbn [fst snd]; [|done| |done].
      * rewrite fmap_app. apply NoDup_app. split_and!; [done| |apply NoDup_singleton]. intros y Y ->%elem_of_list_singleton. done.
      * intros e' b' [X|X%elem_of_list_singleton]%elem_of_app; [by apply ST|]. injection X as -> ->. split.
        -- intros (_ & row' & H' & L2 & FA). rewrite H in H'. injection H' as <-. destruct b; [|by apply B2].
           destruct B1 as [_ ->]; [done|]. apply andb_false_iff in BK as [?|BK%Nat.leb_gt]; [done|lia].
        -- exists u, o. split_and!; [|done|done]. by exists f, vs, es, k.
    + intros w. rewrite fmap_app, elem_of_app. cbn [fmap list_fmap fst]. rewrite elem_of_list_singleton. tauto.
Qed.

Definition edges_of_polygons : outcome (list (N * bool) * list N) :=
  ofold (fun s f => n ← RelNumber E2 (N.to_nat f) m; ofold (sort_edge fs (N.to_nat f) m) (seq 0 (N.to_nat n)) s) fs ([], []).
Lemma sort_edges : exists s, edges_of_polygons = Ok s /\ edges_sorted s /\ forall e, (e ∈ s.1.*1 \/ e ∈ s.2) <-> edge_of fs m e.
Proof.
  destruct (collect (fun s f => n ← RelNumber E2 (N.to_nat f) m; ofold (sort_edge fs (N.to_nat f) m) (seq 0 (N.to_nat n)) s) edges_sorted
    (fun s w => w ∈ s.1.*1 \/ w ∈ s.2) (fun f w => exists row, RelRow E2 (N.to_nat f) m = Ok row /\ w ∈ row) fs) with (s := (@nil (N * bool), @nil N)) as (s & E & S & M).
  - intros f s F S. destruct (PE f F) as (_ & vs & es & HV & HE & LE & _ & FE). rewrite (proj1 (row_reads m RM _ _ _ HE)). cbn [mbind outcome_bind]. rewrite Nat2N.id.
    destruct (collect (sort_edge fs (N.to_nat f) m) edges_sorted (fun s w => w ∈ s.1.*1 \/ w ∈ s.2) (fun k w => es !! k = Some w) (seq 0 (length es))) with (s := s)
      as (s' & E & S' & M).
    + intros k s1 [_ K]%elem_of_seq S1. destruct (lookup_lt_is_Some_2 es k) as [e KE]; [lia|]. destruct (lookup_lt_is_Some_2 vs k) as [u KV]; [lia|].
      destruct (sort_edge_ok f vs es k e u s1) as (s2 & E & S2 & M); [done..| |done|].
      { rewrite Forall_forall in FE. apply FE. by eapply elem_of_list_lookup_2. }
      exists s2. split_and!; [done|done|]. intros w. rewrite M, KE. split; [intros [-> |?]; tauto|]. intros [[= ->]|?]; tauto.
    + done.
    + exists s'. split_and!; [done|done|]. intros w. rewrite M. split.
      * intros [(k & _ & K)|?]; [left; exists es; split; [done|]; by eapply elem_of_list_lookup_2|tauto].
      * intros [(row & H & [k K]%elem_of_list_lookup)|?]; [|tauto]. rewrite HE in H. injection H as <-. left. exists k. split; [|done].
        apply elem_of_seq. apply lookup_lt_Some in K. lia.
  - split; cbn; try constructor; intros; exfalso; by eapply elem_of_nil.
  - exists s. split_and!; [exact E|done|]. intros e. rewrite M. cbn. rewrite elem_of_nil. unfold edge_of. split.
    + intros [(f & F & row & H)|[?|?]]; [by exists f, row|done|done].
    + intros (f & row & F & H). left. exists f. split; [done|]. by exists row.
Qed.

Section corners.
Context (gone1 : list N) (G1 : forall e, e ∈ gone1 <-> inner_edge fs m e).
Record corners_sorted (s : list N * list N) : Prop := {
  cs_once1 : NoDup s.1;
  cs_once2 : NoDup s.2;
  cs_stay : forall v, v ∈ s.1 -> ~ inner_corner fs m v;
  cs_go : forall v, v ∈ s.2 -> inner_corner fs m v
}.
Lemma edge_of_cell e : edge_of fs m e -> is_cell D1 m e.
Proof.
  intros (f & row & F & H & I). destruct (PE f F) as (_ & vs & es & _ & HE & _ & _ & FE). rewrite H in HE. injection HE as <-.
  rewrite Forall_forall in FE. by apply FE.
Qed.
Lemma corner_of_cell v : corner_of fs m v -> is_cell D0 m v.
Proof.
  intros (f & row & F & H & I). destruct (PE f F) as (_ & vs & es & HV & _ & _ & FV & _). rewrite H in HV. injection HV as <-.
  rewrite Forall_forall in FV. by apply FV.
Qed.

Lemma sort_corner_ok f vs k v s : f ∈ fs -> RelRow V2 (N.to_nat f) m = Ok vs -> vs !! k = Some v -> is_cell D0 m v -> corners_sorted s ->
  exists s', sort_corner gone1 (N.to_nat f) m s k = Ok s' /\ corners_sorted s' /\ forall w, (w ∈ s'.1 \/ w ∈ s'.2) <-> w = v \/ (w ∈ s.1 \/ w ∈ s.2).
Proof.
  intros F HV KV L [O1 O2 ST GO]. unfold sort_corner. rewrite (proj1 (proj2 (row_reads m RM _ _ _ HV) k v KV)). cbn [mbind outcome_bind].
  case_bool_decide as I. { exists s. split_and!; [done|done|]. intros w. split; [tauto|]. intros [-> |?]; tauto. }
  destruct (row_exists m RM R01 (N.to_nat v)) as [row H]; [unfold is_cell in L; cbn [src]; lia|].
  destruct (row_reads m RM _ _ _ H) as [-> _]. cbn [mbind outcome_bind]. rewrite Nat2N.id.
  destruct (all_among_ok R01 gone1 (N.to_nat v) row) with (n := length row) (j := 0) (count := 0) as (b & c & -> & B1 & B2); [|done|done|].
  { intros e [EO _]%G1. by apply edge_of_cell. }
  cbn [mbind outcome_bind fst snd]. rewrite drop_0 in B1, B2.
  assert (corner_of fs m v) as CO. { exists f, vs. split_and!; [done|done|]. by eapply elem_of_list_lookup_2. }
  destruct b; eexists; (split; [done|]); cbn [fst snd]; (split; [|intros w; rewrite set_add_elem; tauto]).
  - destruct B1 as [FA _]; [done|]. split; cbn [fst snd]; [done|by apply set_add_nodup|done|].
    intros w [-> |W]%set_add_elem; [|by apply GO]. split; [done|]. exists row. split; [done|]. eapply Forall_impl; [done|]. intros e. apply G1.
  - split; cbn [fst snd]; [by apply set_add_nodup|done| |done]. intros w [-> |W]%set_add_elem; [|by apply ST].
    intros (_ & row' & H' & FA). rewrite H in H'. injection H' as <-. apply B2; [done|]. eapply Forall_impl; [done|]. intros e. apply G1.
Qed.

Definition corners_of_polygons : outcome (list N * list N) :=
  ofold (fun t f => n ← RelNumber V2 (N.to_nat f) m; ofold (sort_corner gone1 (N.to_nat f) m) (seq 0 (N.to_nat n)) t) fs ([], []).
Lemma sort_corners : exists s, corners_of_polygons = Ok s /\ corners_sorted s /\ forall v, (v ∈ s.1 \/ v ∈ s.2) <-> corner_of fs m v.
Proof.
  destruct (collect (fun t f => n ← RelNumber V2 (N.to_nat f) m; ofold (sort_corner gone1 (N.to_nat f) m) (seq 0 (N.to_nat n)) t) corners_sorted
    (fun s w => w ∈ s.1 \/ w ∈ s.2) (fun f w => exists row, RelRow V2 (N.to_nat f) m = Ok row /\ w ∈ row) fs) with (s := (@nil N, @nil N)) as (s & E & S & M).
  - intros f s F S. destruct (PE f F) as (_ & vs & es & HV & HE & LE & FV & _). rewrite (proj1 (row_reads m RM _ _ _ HV)). cbn [mbind outcome_bind]. rewrite Nat2N.id.
    destruct (collect (sort_corner gone1 (N.to_nat f) m) corners_sorted (fun s w => w ∈ s.1 \/ w ∈ s.2) (fun k w => vs !! k = Some w) (seq 0 (length vs))) with (s := s)
      as (s' & E & S' & M).
    + intros k s1 [_ K]%elem_of_seq S1. destruct (lookup_lt_is_Some_2 vs k) as [u KV]; [lia|].
      destruct (sort_corner_ok f vs k u s1) as (s2 & E & S2 & M); [done..| |done|].
      { rewrite Forall_forall in FV. apply FV. by eapply elem_of_list_lookup_2. }
      exists s2. split_and!; [done|done|]. intros w. rewrite M, KV. split; [intros [-> |?]; tauto|]. intros [[= ->]|?]; tauto.
    + done.
    + exists s'. split_and!; [done|done|]. intros w. rewrite M. split.
      * intros [(k & _ & K)|?]; [left; exists vs; split; [done|]; by eapply elem_of_list_lookup_2|tauto].
      * intros [(row & H & [k K]%elem_of_list_lookup)|?]; [|tauto]. rewrite HV in H. injection H as <-. left. exists k. split; [|done].
        apply elem_of_seq. apply lookup_lt_Some in K. lia.
  - split; cbn; try constructor; intros; exfalso; by eapply elem_of_nil.
  - exists s. split_and!; [exact E|done|]. intros e. rewrite M. cbn. rewrite elem_of_nil. unfold corner_of. split.
    + intros [(f & F & row & H)|[?|?]]; [by exists f, row|done|done].
    + intros (f & row & F & H). left. exists f. split; [done|]. by exists row.
Qed.
End corners.

(** Both loops. *)
Record parts (s : list (N * bool) * list N) (t : list N * list N) : Prop := {
  pt_edges : edges_of_polygons = Ok s;
  pt_corners : corners_of_polygons s.2 = Ok t;
  pt_once : NoDup (s.1.*1) /\ NoDup s.2 /\ NoDup t.1 /\ NoDup t.2;
  pt_outer1 : forall e, e ∈ s.1.*1 <-> edge_of fs m e /\ ~ inner_edge fs m e;
  pt_inner1 : forall e, e ∈ s.2 <-> inner_edge fs m e;
  pt_outer0 : forall v, v ∈ t.1 <-> corner_of fs m v /\ ~ inner_corner fs m v;
  pt_inner0 : forall v, v ∈ t.2 <-> inner_corner fs m v;
  pt_flags : forall e b, (e, b) ∈ s.1 -> exists u o, runs_from fs m e u /\ Cell1DOrigin (N.to_nat e) m = Ok o /\ b = bool_decide (o = u)
}.
Lemma parts_ok : exists s t, parts s t.
Proof.
  destruct sort_edges as (s & E & [S1 S2 S3 S4] & M).
  assert (forall e, e ∈ s.1.*1 -> ~ inner_edge fs m e) as S3'. { intros e ([e' b] & -> & I)%elem_of_list_fmap. by apply (S3 e' b). }
  assert (forall e, e ∈ s.2 <-> inner_edge fs m e) as G1.
  { intros e. split; [apply S4|]. intros I. destruct (proj2 (M e) (proj1 I)) as [X|X]; [|done]. by destruct (S3' e X). }
  destruct (sort_corners s.2 G1) as (t & E' & [T1 T2 T3 T4] & M').
  exists s, t. split; [done|done|done| |done| | |].
  - intros e. split; [intros I; split; [apply M; by left|by apply S3']|]. intros [I NI]. apply M in I as [I|I]; [done|]. by destruct (NI (S4 e I)).
  - intros e. split; [intros I; split; [apply M'; by left|by apply T3]|]. intros [I NI]. apply M' in I as [I|I]; [done|]. by destruct (NI (T4 e I)).
  - intros v. split; [apply T4|]. intros I. destruct (proj2 (M' v) (proj1 I)) as [X|X]; [|done]. by destruct (T3 v X).
  - intros e b I. by apply S3.
Qed.
End inside.

(** What is said to be inside is inside. *)
Lemma outline_inside fuel order order2 fs m o : reachable m -> polygons_exist fs m -> 2 <= length fs -> (forall l, order l ≡ₚ l) ->
  PolygonsOutline fuel order order2 fs m = Ok o ->
  NoDup (ou_gone0 o) /\ NoDup (ou_gone1 o) /\ (forall e, e ∈ ou_gone1 o <-> inner_edge fs m e) /\ (forall v, v ∈ ou_gone0 o <-> inner_corner fs m v).
Proof.
  intros RM PE L O H. destruct (parts_ok m RM fs PE) as (s & t & [E1 E2 ON _ I1 _ I0 _]).
  unfold PolygonsOutline in H. destruct (Nat.ltb_spec (length fs) 2) as [|_]; [lia|]. unfold edges_of_polygons in E1. rewrite E1 in H. cbn [mbind outcome_bind] in H.
  unfold corners_of_polygons in E2. rewrite E2 in H. cbn [mbind outcome_bind] in H. apply bind_ok in H as (segs & _ & H).
  destruct (order t.1) as [|v l]; [done|]. apply bind_ok in H as (cols & _ & H). destruct (length cols =? length t.1); [|done].
  destruct cols as [|[w i] cols]; [done|]. apply bind_ok in H as (x & _ & H). apply bind_ok in H as (g & _ & H). apply bind_ok in H as (names & _ & H).
  injection H as <-. cbn [ou_gone0 ou_gone1]. rewrite !O. split_and!; [apply ON|apply ON|..].
  - intros e. rewrite O. apply I1.
  - intros v'. rewrite O. apply I0.
Qed.
