(** From the rows of the files to the mesh: each stage of the import, followed on the abstract mesh. *)
From Verif Require Import Base BaseProof StringsModel StringsProof CsrModel CsrSpec MeshModel MeshSpec MeshRep MeshHist
  MeshProof MeshProof2 MeshProof3 MeshProof4 MeshProof5 MeshProof6 MeshProof7 MeshProof8 MeshProof9 MeshProg CsvModel CsvSpec CsvText CsvRows CsvLoop.
From Coq Require Import Ascii ZifyBool ZifyNat ZifyN.

Lemma does_InitDimension n b F : does (fun m => Ok (InitializeDimension n m)) (amap F b) (amap F (AMesh n (am_cells b) (am_names b))).
Proof. by apply (does_step (amap F b) (OInitDimension n)). Qed.

Lemma does_AddProperty a d id m : rr m a -> id ∉ am_names a d ->
  exists m', AddDoubleProperty d id m = Ok (m', length (am_names a d)) /\
    rr m' (AMesh (am_dim a) (upd_fun (am_cells a) d ((fun x => with_props (ac_prop x ++ [[]]) x) <$> am_cells a d))
                 (upd_fun (am_names a) d (am_names a d ++ [id]))).
Proof.
  intros Hm Hid.
  destruct (rr_step m a (OAddProperty d id) _ Hm I ltac:(cbn [astep]; rewrite decide_False by done; reflexivity)) as (m' & E & Hm').
  cbn [step] in E. apply bind_ok in E as ([m1 k] & E & [= <-]). exists m1. split; [|done]. rewrite E. f_equal. f_equal.
  unfold AddDoubleProperty in E. apply bind_ok in E as (u & _ & [= _ <-]).
  apply (rp_len _ _ _ (rc_props _ _ _ _ _ _ _ _ _ (r_cells _ _ (proj2 Hm) d))).
Qed.

Lemma does_PropInsert F b d i p k v x :
  am_cells b d !! i = Some x -> p < length (am_names b d) -> (forall l, ac_prop (F d i x) !! p = Some l -> k < length l) ->
  does (PropInsert d i p k v) (amap F b)
       (amap (also F d i (fun y => with_props (<[p := <[k := v]> (prop_of p y)]> (ac_prop y)) y)) b).
Proof.
  intros Hx Hp Hk. apply (does_cell F b (OPropInsert d i p k v)); [by eapply lookup_lt_Some| |].
  - intros y l Hy Hl. rewrite amap_lookup, Hx in Hy. injection Hy as <-. by apply (Hk l).
  - cbn [astep]. by rewrite decide_True.
Qed.

Section stages.
Context (a : amesh).
Context (repl : dim -> nat -> option (gset N)) (from : dim -> nat -> N).

(** What is there after a part of the import: the dimensions [on], the attributes [rels], [np] properties, the history. *)
Definition base (dm : nat) (on : dim -> bool) (np : dim -> nat) : amesh :=
  AMesh dm (fun d => if on d then am_cells a d else []) (fun d => take (np d) (am_names a d)).
Definition kept (r : rel) (l : list N) : list N := if is_neighbour r then map (known (anum (tgt r) a)) l else l.
Definition view (rels : rel -> bool) (np : dim -> nat) (ups : dim -> bool) : dim -> nat -> acell -> acell :=
  fun d i x => ACell (ac_geo x) (ac_mark x) (ac_act x) (if ups d then from d i else UINT_MAX) (if ups d then repl d i else None)
                     (fun r => if decide (rels r = true /\ src r = d) then kept r (ac_rel x r) else [])
                     (take (np d) (ac_prop x)).
Definition stage (dm : nat) (on : dim -> bool) (rels : rel -> bool) (np : dim -> nat) (ups : dim -> bool) : amesh :=
  amap (view rels np ups) (base dm on np).

Definition none {A} : A -> nat := fun _ => 0.
Definition off {A} : A -> bool := fun _ => false.
Definition plus (rels : rel -> bool) (rs : list rel) : rel -> bool := fun r => rels r || bool_decide (r ∈ rs).

Lemma base_on dm on np d : on d = true -> am_cells (base dm on np) d = am_cells a d.
Proof. intros E. unfold base. cbn. by rewrite E. Qed.

(** ** The cells *)

Lemma does_Initialize dm on rels d : on d = false ->
  does (fun m => Ok (CellsInitialize d (anum d a) m)) (stage dm on rels none off)
       (amap (alls (view rels none off) d (fun _ _ _ => new_cell d 0)) (base dm (upd_fun on d true) none)).
Proof.
  intros Hon. eapply does_aeq.
  - apply (does_step (stage dm on rels none off) (OInitialize d (anum d a))).
    + right. unfold stage. rewrite amap_num. unfold anum. cbn. rewrite Hon. cbn. split; [lia|constructor].
    + reflexivity.
  - apply aeq_intro; [done..| |].
    + intros d'. rewrite amap_num. unfold anum. cbn. unfold upd_fun. repeat case_decide; subst; try done.
      * rewrite app_length, replicate_length, imap_length, Hon. cbn. unfold anum. lia.
      * by rewrite imap_length.
    + intros d' i x y Hx Hy. rewrite amap_lookup in Hy. cbn in Hx, Hy. unfold upd_fun in *. unfold alls in Hy.
      destruct (decide (d = d')) as [<-|E].
      * rewrite Hon in Hx. cbn in Hx. apply lookup_replicate in Hx as [-> _].
        destruct (am_cells a d !! i); [|done]. cbn in Hy. rewrite decide_True in Hy by done. injection Hy as <-. apply ceq_refl.
      * rewrite list_lookup_imap in Hx. destruct ((if on d' then am_cells a d' else []) !! i); [|done]. cbn in Hx, Hy.
        rewrite decide_False in Hy by congruence. injection Hx as <-. injection Hy as <-. apply ceq_refl.
Qed.

(** Reading the cells of one dimension: [first] prepares all of them, [body] fills one. *)
Lemma does_convert {A} dm on rels rs d (h : nat -> acell -> A) (first : mesh -> outcome mesh) (body : mesh -> nat * A -> outcome mesh) F :
  let b := base dm (upd_fun on d true) none in
  on d = false -> Forall (fun r => src r = d) rs ->
  does first (amap (alls (view rels none off) d (fun _ _ _ => new_cell d 0)) b) (amap (alls (view rels none off) d F) b) ->
  (forall i x, am_cells a d !! i = Some x ->
     exists f, (forall G, G d i x = F i x (view rels none off d i x) -> does (fun m => body m (i, h i x)) (amap G b) (amap (also G d i f) b)) /\
       ceq (f (F i x (view rels none off d i x))) (view (plus rels rs) none off d i x)) ->
  does (fun m => match imap h (am_cells a d) with
                 | [] => Ok m
                 | _ => m ← first (CellsInitialize d (length (imap h (am_cells a d))) m);
                        ofold body (imap pair (imap h (am_cells a d))) m
                 end)
       (stage dm on rels none off) (stage dm (upd_fun on d true) (plus rels rs) none off).
Proof.
  intros b Hon Hrs Hf Hb.
  assert (Ho : forall d' i x, d' <> d -> ceq (view rels none off d' i x) (view (plus rels rs) none off d' i x)).
  { intros d' i x Hd. unfold view. repeat split. intros r. cbn. unfold plus.
    destruct (decide (src r = d')) as [E|E]; [|by rewrite !decide_False by tauto].
    rewrite bool_decide_false; [by rewrite orb_false_r|]. intros Hr. rewrite Forall_forall in Hrs. rewrite (Hrs r Hr) in E. congruence. }
  destruct (decide (am_cells a d = [])) as [E|E].
  { rewrite E. cbn [imap]. eapply does_aeq; [apply does_ret|]. unfold stage. apply aeq_intro; [done..| |].
    - intros d'. rewrite !amap_num. unfold anum. cbn. unfold upd_fun. case_decide; [|done]. subst. by rewrite Hon, E.
    - intros d' i x y. rewrite !amap_lookup. cbn. unfold upd_fun. case_decide as Ed.
      + subst. by rewrite Hon.
      + destruct (on d'); [|done]. destruct (am_cells a d' !! i) as [z|]; [|done]. intros [= <-] [= <-]. by apply Ho. }
  intros m Hm. rewrite imap_length.
  destruct (does_Initialize dm on rels d Hon m Hm) as (m1 & E1 & H1). injection E1 as E1.
  destruct (Hf m1 H1) as (m2 & E2 & H2).
  assert (Hl : am_cells b d = am_cells a d) by (apply base_on; apply upd_fun_eq).
  destruct (does_each body (imap pair (imap h (am_cells a d))) b d (alls (view rels none off) d F) (view (plus rels rs) none off)) with (m := m2)
    as (m3 & E3 & H3).
  - rewrite !imap_length. unfold anum. by rewrite Hl.
  - intros i y x Hy Hx. rewrite Hl in Hx. rewrite !list_lookup_imap, Hx in Hy. injection Hy as <-.
    destruct (Hb i x Hx) as (f & Hd & Hc). apply (also_mix _ b d i _ _ f x); [by rewrite Hl| |].
    + apply Hd. rewrite mix_at. unfold alls. by rewrite decide_True.
    + unfold alls. by rewrite decide_True.
  - intros d' i x Hd Hx. unfold alls. rewrite decide_False by done. by apply Ho.
  - done.
  - exists m3. split; [|done]. destruct (imap h (am_cells a d)) eqn:Ei.
    { apply (f_equal length) in Ei. rewrite imap_length in Ei. by destruct (am_cells a d). }
    rewrite <- Ei in *. unfold anum in E1. rewrite E1, E2. exact E3.
Qed.

Lemma plus_nil rels r : plus rels [] r = rels r.
Proof. unfold plus. rewrite bool_decide_false by apply not_elem_of_nil. apply orb_false_r. Qed.

Context (Hgeo : forall d i x, am_cells a d !! i = Some x -> length (ac_geo x) = geo_size d).
Context (Hbelow : forall r i x, is_neighbour r = false -> am_cells a (src r) !! i = Some x -> all_below (anum (tgt r) a) (row_of r x)).
Context (Hsides : forall i x, am_cells a D2 !! i = Some x -> length (row_of V2 x) = length (row_of E2 x)).

Lemma does_Cell0Ds dm on rels : on D0 = false -> (forall r, rels r = true -> src r <> D0) ->
  does (ConvertCell0Ds (imap (fun i x => (N.of_nat i, ac_mark x, ac_act x, geo_triple x)) (am_cells a D0)))
       (stage dm on rels none off) (stage dm (upd_fun on D0 true) (plus rels []) none off).
Proof.
  intros Hon Hr. unfold ConvertCell0Ds.
  apply (does_convert dm on rels [] D0 (fun i x => (N.of_nat i, ac_mark x, ac_act x, geo_triple x)) (fun m => Ok m)
    (fun m irow => let '(v, (_, mk, ac, (x, y, z))) := irow in
           m ← SetMarker D0 v mk m; m ← SetState D0 v ac m; Cell0DInsertCoordinates v x y z m) (fun _ _ _ => new_cell D0 0)); [done|done|apply does_ret|].
  intros i x Hx. destruct (geo_triple x) as [[p q] s] eqn:Eg.
  assert (Hi : i < anum D0 (base dm (upd_fun on D0 true) none)).
  { unfold anum. rewrite base_on by done. by eapply lookup_lt_Some. }
  exists (fun y => with_geo [p; q; s] (with_act (ac_act x) (with_mark (ac_mark x) y))). split.
  - intros G _.
    apply (also_bind _ (fun m => m ← SetState D0 i (ac_act x) m; Cell0DInsertCoordinates i p q s m) G _ D0 i (with_mark (ac_mark x))
             (fun y => with_geo [p; q; s] (with_act (ac_act x) y))); [by apply does_Marker| |intros; apply ceq_refl].
    eapply also_bind; [by apply does_State|by apply does_Coordinates|intros; apply ceq_refl].
  - pose proof (Hgeo D0 i x Hx) as Hl. unfold geo_triple in Eg. destruct (ac_geo x) as [|p' [|q' [|s' [|]]]] eqn:E; try done.
    injection Eg as <- <- <-. repeat split; cbn; [done|]. intros r. rewrite decide_False; [done|].
    rewrite plus_nil. intros [H1 H2]. by apply (Hr r).
Qed.

Lemma does_Cell1Ds dm on rels : on D1 = false -> (forall r, rels r = true -> src r <> D1) ->
  does (ConvertCell1Ds (imap (fun i x => (N.of_nat i, ac_mark x, ac_act x, geo_pair x)) (am_cells a D1)))
       (stage dm on rels none off) (stage dm (upd_fun on D1 true) (plus rels []) none off).
Proof.
  intros Hon Hr. unfold ConvertCell1Ds.
  apply (does_convert dm on rels [] D1 (fun i x => (N.of_nat i, ac_mark x, ac_act x, geo_pair x)) (fun m => Ok m)
    (fun m irow => let '(e, (_, mk, ac, (o, t))) := irow in
           m ← SetMarker D1 e mk m; m ← SetState D1 e ac m; Cell1DInsertExtremes e o t m) (fun _ _ _ => new_cell D1 0)); [done|done|apply does_ret|].
  intros i x Hx. destruct (geo_pair x) as [p q] eqn:Eg.
  assert (Hi : i < anum D1 (base dm (upd_fun on D1 true) none)).
  { unfold anum. rewrite base_on by done. by eapply lookup_lt_Some. }
  exists (fun y => with_geo [p; q] (with_act (ac_act x) (with_mark (ac_mark x) y))). split.
  - intros G _.
    apply (also_bind _ (fun m => m ← SetState D1 i (ac_act x) m; Cell1DInsertExtremes i p q m) G _ D1 i (with_mark (ac_mark x))
             (fun y => with_geo [p; q] (with_act (ac_act x) y))); [by apply does_Marker| |intros; apply ceq_refl].
    eapply also_bind; [by apply does_State|by apply does_Extremes|intros; apply ceq_refl].
  - pose proof (Hgeo D1 i x Hx) as Hl. unfold geo_pair in Eg. destruct (ac_geo x) as [|p' [|q' [|]]] eqn:E; try done.
    injection Eg as <- <-. repeat split; cbn; [done|]. intros r. rewrite decide_False; [done|].
    rewrite plus_nil. intros [H1 H2]. by apply (Hr r).
Qed.

(** The cells with lists: [rs] are all the lists described in the row. *)
Lemma does_listed dm on rels d rs (check : list (list N) -> bool) :
  on d = false -> geo_size d = 0 -> (forall r, rels r = true -> src r <> d) -> NoDup rs ->
  (forall r, r ∈ rs -> src r = d /\ is_neighbour r = false /\ on (tgt r) = true) ->
  (forall i x, am_cells a d !! i = Some x -> check (lists_of rs x) = true) ->
  let rows := imap (fun i x => (N.of_nat i, ac_mark x, ac_act x, lists_of rs x)) (am_cells a d) in
  does (fun m => match rows with
                 | [] => Ok m
                 | _ => m ← init_lists rs (map snd rows) (CellsInitialize d (length rows) m);
                        ofold (fun m (irow : nat * (N * N * bool * list (list N))) =>
                          let '(f, (_, mk, ac, ls)) := irow in
                          m ← SetMarker d f mk m; m ← SetState d f ac m; require (check ls);; insert_lists rs f ls m) (imap pair rows) m
                 end)
       (stage dm on rels none off) (stage dm (upd_fun on d true) (plus rels rs) none off).
Proof.
  intros Hon Hgd Hrels Hnd Hrs Hck rows. set (b := base dm (upd_fun on d true) none).
  assert (Hs : Forall (fun r => src r = d) rs) by (apply Forall_forall; intros r Hr; by apply Hrs).
  assert (Hb : am_cells b d = am_cells a d) by (apply base_on, upd_fun_eq).
  apply (does_convert dm on rels rs d (fun i x => (N.of_nat i, ac_mark x, ac_act x, lists_of rs x))
    (fun m => init_lists rs (map snd rows) m)
    (fun m irow => let '(f, (_, mk, ac, ls)) := irow in
           m ← SetMarker d f mk m; m ← SetState d f ac m; require (check ls);; insert_lists rs f ls m)
    (fun _ x _ => set_rows rs (fun r => replicate (length (row_of r x)) (default_bulk r)) (new_cell d 0))); [done|done| |].
  - assert (Er : map snd rows = map (fun x => map (fun r => row_of r x) rs) (am_cells b d)).
    { unfold rows. rewrite Hb, map_imap. apply (imap_const (fun x => map (fun r => row_of r x) rs)). }
    rewrite Er. eapply does_aeq.
    + apply (does_init_lists _ b d rs (fun x r => row_of r x) Hs Hnd). intros i x r Hx Hr. unfold alls. by rewrite decide_True.
    + apply amap_ext. intros d' i x Hx. unfold alls. case_decide; [|apply ceq_refl]. apply ceq_refl.
  - intros i x Hx.
    assert (Hi : i < anum d b) by (unfold anum; rewrite Hb; by eapply lookup_lt_Some).
    exists (fun y => set_rows rs (fun r => row_of r x) (with_act (ac_act x) (with_mark (ac_mark x) y))). split.
    + intros G EG.
      apply (also_bind _ (fun m => m ← SetState d i (ac_act x) m; require (check (lists_of rs x));; insert_lists rs i (lists_of rs x) m)
               G _ d i (with_mark (ac_mark x)) (fun y => set_rows rs (fun r => row_of r x) (with_act (ac_act x) y)));
        [by apply does_Marker| |intros; apply ceq_refl].
      apply (also_bind _ (fun m => require (check (lists_of rs x));; insert_lists rs i (lists_of rs x) m) _ _ d i (with_act (ac_act x))
               (set_rows rs (fun r => row_of r x))); [by apply does_State| |intros; apply ceq_refl].
      rewrite (Hck i x Hx). cbn [require mbind outcome_bind].
      apply (does_insert_lists _ b d rs i x (fun r => row_of r x) Hs Hnd); [by rewrite Hb|]. intros r Hr.
      destruct (Hrs r Hr) as (Hsr & Hnb & Hon'). split.
      * unfold also. rewrite !decide_True by done. rewrite EG. cbn. rewrite decide_True by done. apply replicate_length.
      * assert (E : anum (tgt r) b = anum (tgt r) a).
        { unfold anum. unfold b. rewrite base_on; [done|]. unfold upd_fun. by case_decide. }
        rewrite E. apply (Hbelow r i x Hnb). by rewrite Hsr.
    + pose proof (Hgeo d i x Hx) as Hl. rewrite Hgd in Hl. destruct (ac_geo x) as [|] eqn:E; [|done].
      split; [cbn; by rewrite E, Hgd|]. repeat split. intros r. cbn. unfold plus. destruct (decide (r ∈ rs)) as [Hr|Hr].
      * destruct (Hrs r Hr) as (Hsr & Hnb & _). rewrite decide_True by (split; [|done]; rewrite bool_decide_true by done; apply orb_true_r).
        unfold kept. by rewrite Hnb.
      * rewrite decide_False; [done|]. rewrite bool_decide_false, orb_false_r by done. intros [H1 H2]. by apply (Hrels r).
Qed.

Lemma does_Cell2Ds dm on rels : on D2 = false -> on D0 = true -> on D1 = true -> (forall r, rels r = true -> src r <> D2) ->
  does (ConvertCell2Ds (imap (fun i x => (N.of_nat i, ac_mark x, ac_act x, lists_of [V2; E2] x)) (am_cells a D2)))
       (stage dm on rels none off) (stage dm (upd_fun on D2 true) (plus rels [V2; E2]) none off).
Proof.
  intros H2 H0 H1 Hr. apply (does_listed dm on rels D2 [V2; E2] (fun ls => length (nth 0 ls []) =? length (nth 1 ls []))); try done.
  - repeat constructor; set_solver.
  - intros r Hin. apply elem_of_cons in Hin as [-> | Hin]; [done|]. apply elem_of_list_singleton in Hin as ->. done.
  - intros i x Hx. cbn. apply Nat.eqb_eq. by apply (Hsides i x).
Qed.

Lemma does_Cell3Ds dm on rels : on D3 = false -> on D0 = true -> on D1 = true -> on D2 = true -> (forall r, rels r = true -> src r <> D3) ->
  does (ConvertCell3Ds (imap (fun i x => (N.of_nat i, ac_mark x, ac_act x, lists_of [V3; E3; F3] x)) (am_cells a D3)))
       (stage dm on rels none off) (stage dm (upd_fun on D3 true) (plus rels [V3; E3; F3]) none off).
Proof.
  intros H3 H0 H1 H2 Hr. apply (does_listed dm on rels D3 [V3; E3; F3] (fun _ => true)); try done.
  - repeat constructor; set_solver.
  - intros r Hin. apply elem_of_cons in Hin as [-> | Hin]; [done|]. apply elem_of_cons in Hin as [-> | Hin]; [done|].
    apply elem_of_list_singleton in Hin as ->. done.
Qed.

(** ** Further lists of the cells *)

Lemma does_further dm on rels np ups d rs (ins : list rel -> nat -> list (list N) -> mesh -> outcome mesh) :
  on d = true -> NoDup rs -> (forall r, r ∈ rs -> src r = d /\ rels r = false) ->
  (forall G i x, am_cells a d !! i = Some x ->
     (forall r, r ∈ rs -> ac_rel (G d i x) r = replicate (length (row_of r x)) (default_bulk r)) ->
     does (ins rs i (lists_of rs x)) (amap G (base dm on np))
          (amap (also G d i (set_rows rs (fun r => kept r (row_of r x)))) (base dm on np))) ->
  let rows := imap (fun i x => (N.of_nat i, lists_of rs x)) (am_cells a d) in
  does (fun m => match rows with
                 | [] => Ok m
                 | _ => m ← init_lists rs (map snd rows) m;
                        ofold (fun m (irow : nat * (N * list (list N))) => ins rs irow.1 irow.2.2 m) (imap pair rows) m
                 end)
       (stage dm on rels np ups) (stage dm on (plus rels rs) np ups).
Proof.
  intros Hon Hnd Hrs Hins rows. set (b := base dm on np) in *.
  assert (Hs : Forall (fun r => src r = d) rs) by (apply Forall_forall; intros r Hr; by apply Hrs).
  assert (Hb : am_cells b d = am_cells a d) by (by apply base_on).
  assert (Ho : forall d' i x, d' <> d -> ceq (view rels np ups d' i x) (view (plus rels rs) np ups d' i x)).
  { intros d' i x Hd. unfold view. repeat split. intros r. cbn. unfold plus.
    destruct (decide (src r = d')) as [E|E]; [|by rewrite !decide_False by tauto].
    rewrite bool_decide_false; [by rewrite orb_false_r|]. intros Hr. destruct (Hrs r Hr) as [E' _]. congruence. }
  destruct (decide (am_cells a d = [])) as [E|E].
  { unfold rows. rewrite E. cbn [imap]. eapply does_aeq; [apply does_ret|]. unfold stage. apply amap_ext. intros d' i x Hx.
    apply Ho. intros ->. fold b in Hx. by rewrite Hb, E in Hx. }
  intros m Hm.
  assert (Er : map snd rows = map (fun x => map (fun r => row_of r x) rs) (am_cells b d)).
  { unfold rows. rewrite Hb, map_imap. apply (imap_const (fun x => map (fun r => row_of r x) rs)). }
  destruct (does_init_lists (view rels np ups) b d rs (fun x r => row_of r x) Hs Hnd) with (m := m) as (m1 & E1 & H1); [|done|].
  { intros i x r Hx Hr. cbn. rewrite decide_False; [done|]. destruct (Hrs r Hr) as [_ ->]. by intros [? _]. }
  destruct (does_each (fun m (irow : nat * (N * list (list N))) => ins rs irow.1 irow.2.2 m) (imap pair rows) b d
              (alls (view rels np ups) d (fun _ x => set_rows rs (fun r => replicate (length (row_of r x)) (default_bulk r))))
              (view (plus rels rs) np ups)) with (m := m1) as (m2 & E2 & H2).
  - unfold rows. rewrite !imap_length. unfold anum. by rewrite Hb.
  - intros i y x Hy Hx. rewrite Hb in Hx. unfold rows in Hy. rewrite !list_lookup_imap, Hx in Hy. injection Hy as <-. cbn [fst snd].
    apply (also_mix _ b d i _ _ (set_rows rs (fun r => kept r (row_of r x))) x); [by rewrite Hb| |].
    + apply (Hins _ i x Hx). intros r Hr. rewrite mix_at. unfold alls. rewrite decide_True by done. cbn. by rewrite decide_True.
    + unfold alls. rewrite decide_True by done. repeat split. intros r. cbn. unfold plus.
      destruct (decide (r ∈ rs)) as [Hr|Hr].
      * destruct (Hrs r Hr) as [Hsr _]. rewrite decide_True; [done|]. split; [|done]. rewrite bool_decide_true by done. apply orb_true_r.
      * rewrite bool_decide_false by done. by rewrite orb_false_r.
  - intros d' i x Hd Hx. unfold alls. rewrite decide_False by done. by apply Ho.
  - done.
  - exists m2. split; [|done]. destruct rows as [|row rows'] eqn:Ei.
    { apply (f_equal length) in Ei. unfold rows in Ei. rewrite imap_length in Ei. by destruct (am_cells a d). }
    rewrite <- Er in E1. rewrite E1. exact E2.
Qed.

Lemma does_Neighbours dm on rels np ups d rs : (forall d, on d = true) -> NoDup rs ->
  (forall r, r ∈ rs -> src r = d /\ rels r = false /\ is_neighbour r = true) ->
  does (ConvertNeighbours rs (imap (fun i x => (N.of_nat i, lists_of rs x)) (am_cells a d)))
       (stage dm on rels np ups) (stage dm on (plus rels rs) np ups).
Proof.
  intros Hon Hnd Hrs. apply (does_further dm on rels np ups d rs insert_neighbours); [done..|intros r Hr; by destruct (Hrs r Hr) as (? & ? & _)|].
  intros G i x Hx HG.
  assert (Hs : Forall (fun r => src r = d) rs) by (apply Forall_forall; intros r Hr; by apply Hrs).
  eapply also_ext; [by rewrite base_on| |].
  - apply (does_insert_neighbours G (base dm on np) d rs i x (fun r => row_of r x) Hs Hnd); [by rewrite base_on|].
    intros r Hr. rewrite (HG r Hr). destruct (Hrs r Hr) as (_ & _ & Hn). by destruct r.
  - repeat split. intros r. cbn. destruct (decide (r ∈ rs)) as [Hr|Hr]; [|done]. destruct (Hrs r Hr) as (_ & _ & Hn).
    unfold kept. by rewrite Hn, Hon.
Qed.

Lemma does_SubDivisions dm on rels np ups : (forall d, on d = true) -> rels S2 = false ->
  does (ConvertCell2DSubDivisions (imap (fun i x => (N.of_nat i, lists_of [S2] x)) (am_cells a D2)))
       (stage dm on rels np ups) (stage dm on (plus rels [S2]) np ups).
Proof.
  intros Hon Hr. apply (does_further dm on rels np ups D2 [S2] insert_lists); [done|apply NoDup_singleton| |].
  - intros r ->%elem_of_list_singleton. done.
  - intros G i x Hx HG. eapply also_ext; [by rewrite base_on| |].
    + apply (does_insert_lists G (base dm on np) D2 [S2] i x (fun r => row_of r x)); [by repeat constructor|apply NoDup_singleton|by rewrite base_on|].
      intros r Hin. rewrite (HG r Hin), replicate_length. apply elem_of_list_singleton in Hin as ->. split; [done|].
      unfold anum. rewrite base_on by done. by apply (Hbelow S2 i x).
    + repeat split. intros r. cbn. destruct (decide (r ∈ [S2])) as [Hin|Hin]; [|done]. apply elem_of_list_singleton in Hin as ->. done.
Qed.
End stages.
