(** The import of the properties and of the replaced cells, followed on the abstract mesh. *)
From Verif Require Import Base BaseProof StringsModel StringsProof CsrModel CsrSpec MeshModel MeshSpec MeshRep MeshHist
  MeshProof MeshProof2 MeshProof3 MeshProof4 MeshProof5 MeshProof6 MeshProof7 MeshProof8 MeshProof9 MeshProg CsvModel CsvSpec CsvText CsvRows
  CsvLoop CsvConv.
From Coq Require Import Ascii ZifyBool ZifyNat ZifyN.

Section properties.
Context (a : amesh) (repl : dim -> nat -> option (gset N)) (from : dim -> nat -> N).
Context (Hprops : forall d i x, am_cells a d !! i = Some x -> length (ac_prop x) = length (am_names a d)).
Context (Hnames : forall d, NoDup (am_names a d)).
Local Notation view := (view a repl from).
Local Notation stage := (stage a repl from).

(** The values of property [p] are [l], the later properties are not there yet. *)
Definition valued (d : dim) (p : nat) (l : nat -> acell -> list N) (F : dim -> nat -> acell -> acell) : dim -> nat -> acell -> acell :=
  alls F d (fun i x y => with_props (take p (ac_prop x) ++ [l i x]) y).

Lemma take_prop d i x p : am_cells a d !! i = Some x -> p < length (am_names a d) ->
  take (S p) (ac_prop x) = take p (ac_prop x) ++ [prop_of p x] /\ length (take p (ac_prop x)) = p.
Proof.
  intros Hx Hp. pose proof (Hprops d i x Hx) as Hl. destruct (lookup_lt_is_Some_2 (ac_prop x) p) as [l E]; [lia|].
  split; [|rewrite take_length; lia]. rewrite (take_S_r _ _ _ E). unfold prop_of. by rewrite E.
Qed.

Lemma insert_end {A} (l : list A) x y p : length l = p -> <[p := y]> (l ++ [x]) = l ++ [y].
Proof. intros <-. rewrite <- (Nat.add_0_r (length l)), insert_app_r. done. Qed.

Lemma does_property dm on rels np ups d p id :
  on d = true -> np d = p -> am_names a d !! p = Some id -> am_cells a d <> [] ->
  does (fun m => '(m, q) ← AddDoubleProperty d id m;
                 m ← PropInitAll d q (map (fun row : N * list N => length row.2) (imap (fun i x => (N.of_nat i, prop_of p x)) (am_cells a d))) m;
                 ofold (fun m row => ofold (fun m kx => PropInsert d (N.to_nat row.1) q kx.1 kx.2 m) (imap pair row.2) m)
                       (imap (fun i x => (N.of_nat i, prop_of p x)) (am_cells a d)) m)
       (stage dm on rels np ups) (stage dm on rels (upd_fun np d (S p)) ups).
Proof.
  intros Hon Hnp Hid Hne m Hm. set (np' := upd_fun np d (S p)). set (b := base a dm on np').
  pose proof (lookup_lt_Some _ _ _ Hid) as Hp.
  assert (Hb : am_cells b d = am_cells a d) by (by apply base_on).
  assert (Hnb : length (am_names b d) = S p).
  { unfold b, base, np'. cbn. rewrite upd_fun_eq, take_length. lia. }
  (* the new property *)
  assert (Hq : length (am_names (stage dm on rels np ups) d) = p).
  { cbn. rewrite Hnp, take_length. lia. }
  destruct (does_AddProperty (stage dm on rels np ups) d id m Hm) as (m1 & E1 & H1).
  { cbn. rewrite Hnp. intros (j & Hj)%elem_of_list_lookup. apply lookup_take_Some in Hj as [Hj Hl].
    pose proof (NoDup_lookup _ _ _ _ (Hnames d) Hj Hid). lia. }
  rewrite Hq in E1. rewrite E1. cbn [mbind outcome_bind].
  assert (H1' : rr m1 (amap (valued d p (fun _ _ => []) (view rels np' ups)) b)).
  { eapply rr_aeq; [exact H1|]. apply aeq_intro; [done| | |].
    - intros d'. cbn. unfold np', upd_fun. case_decide; [|done]. subst. by rewrite (take_S_r _ _ _ Hid).
    - intros d'. rewrite amap_num. unfold anum. cbn. unfold upd_fun. case_decide; [subst; by rewrite fmap_length, imap_length|by rewrite imap_length].
    - intros d' i x y Hx Hy. rewrite amap_lookup in Hy. cbn in Hx, Hy. unfold upd_fun in Hx.
      destruct (decide (d = d')) as [<-|Hd].
      + rewrite list_lookup_fmap, list_lookup_imap in Hx. destruct ((if on d then am_cells a d else []) !! i) as [z|]; [|done].
        injection Hx as <-. injection Hy as <-. unfold valued, alls. rewrite decide_True by done. repeat split. cbn. by rewrite Hnp.
      + rewrite list_lookup_imap in Hx. destruct ((if on d' then am_cells a d' else []) !! i) as [z|]; [|done].
        injection Hx as <-. injection Hy as <-. unfold valued, alls. rewrite decide_False by congruence. repeat split. cbn.
        unfold np', upd_fun. by rewrite decide_False. }
  (* its sizes *)
  assert (Ec : map (fun row : N * list N => length row.2) (imap (fun i x => (N.of_nat i, prop_of p x)) (am_cells a d)) =
               map (fun x => length (prop_of p x)) (am_cells b d)).
  { rewrite Hb, map_imap. apply (imap_const (fun x => length (prop_of p x))). }
  rewrite Ec.
  assert (H2 : does (PropInitAll d p (map (fun x => length (prop_of p x)) (am_cells b d)))
                 (amap (valued d p (fun _ _ => []) (view rels np' ups)) b)
                 (amap (valued d p (fun _ x => replicate (length (prop_of p x)) 0%N) (view rels np' ups)) b)).
  { set (V := valued d p (fun _ _ => []) (view rels np' ups)). eapply does_aeq.
    - apply (does_step (amap V b) (OPropInitAll d p (map (fun x => length (prop_of p x)) (am_cells b d)))); [done|].
      cbn [astep]. rewrite decide_True; [reflexivity|]. rewrite amap_num, map_length, amap_names, Hnb. split; [lia|done].
    - assert (Hr : forall i x, am_cells b d !! i = Some x -> prop_of p (V d i x) = [] /\ <[p := replicate (length (prop_of p x)) 0%N]> (ac_prop (V d i x)) =
                      take p (ac_prop x) ++ [replicate (length (prop_of p x)) 0%N]).
      { intros i x Hx. rewrite Hb in Hx. destruct (take_prop d i x p Hx Hp) as [_ Hl]. unfold V, valued, alls. rewrite decide_True by done. split.
        - unfold prop_of. cbn. rewrite lookup_app_r by lia. by rewrite Hl, Nat.sub_diag.
        - cbn. by apply insert_end. }
      rewrite redeal_empty.
      2: { apply Forall_fmap, Forall_forall. intros y [i Hi]%elem_of_list_lookup. rewrite amap_lookup in Hi.
           destruct (am_cells b d !! i) as [x|] eqn:E; [|done]. injection Hi as <-. by apply (Hr i x E). }
      rewrite map_map. apply aeq_intro; [done..| |].
      + intros d'. rewrite amap_num. unfold anum. cbn [with_cells am_cells]. unfold upd_fun. case_decide as E; [subst d'|].
        * rewrite zip_with_length, map_length. change (imap (V d) (am_cells b d)) with (am_cells (amap V b) d).
          pose proof (amap_num V b d) as E. unfold anum in E. lia.
        * apply (amap_num V b d').
      + intros d' i x y Hx Hy. rewrite amap_lookup in Hy. cbn [with_cells am_cells] in Hx. unfold upd_fun in Hx.
        destruct (am_cells b d' !! i) as [w|] eqn:Ew; [|done]. injection Hy as <-.
        destruct (decide (d = d')) as [<-|E].
        * change (imap (V d) (am_cells b d)) with (am_cells (amap V b) d) in Hx.
          rewrite lookup_zip_with, amap_lookup, Ew in Hx. change (map ?f ?l) with (f <$> l) in Hx. rewrite list_lookup_fmap, Ew in Hx.
          cbn [fmap option_fmap option_map mbind option_bind] in Hx. injection Hx as <-. destruct (Hr i w Ew) as [_ E]. rewrite E.
          unfold V, valued, alls. rewrite !decide_True by done. apply ceq_refl.
        * change (imap (V d') (am_cells b d')) with (am_cells (amap V b) d') in Hx. rewrite amap_lookup, Ew in Hx.
          injection Hx as <-. unfold V, valued, alls. rewrite !decide_False by congruence. apply ceq_refl. }
  destruct (H2 m1 H1') as (m2 & E2 & H2'). rewrite E2. cbn [mbind outcome_bind].
  (* its values *)
  destruct (does_each (fun m (row : N * list N) => ofold (fun m kx => PropInsert d (N.to_nat row.1) p kx.1 kx.2 m) (imap pair row.2) m)
              (imap (fun i x => (N.of_nat i, prop_of p x)) (am_cells a d)) b d
              (valued d p (fun _ x => replicate (length (prop_of p x)) 0%N) (view rels np' ups)) (view rels np' ups)) with (m := m2)
    as (m3 & E3 & H3); [| | |done|by exists m3].
  - rewrite imap_length. unfold anum. by rewrite Hb.
  - intros i y x Hy Hx. rewrite Hb in Hx. rewrite list_lookup_imap, Hx in Hy. injection Hy as <-. cbn [fst snd]. rewrite Nat2N.id.
    destruct (take_prop d i x p Hx Hp) as [Ht Hl].
    apply (also_mix _ b d i _ _ (with_props (take p (ac_prop x) ++ [prop_of p x])) x); [by rewrite Hb| |].
    2: { unfold valued, alls. rewrite decide_True by done. repeat split. cbn. unfold np'. by rewrite upd_fun_eq, Ht. }
    set (V := valued d p (fun _ x => replicate (length (prop_of p x)) 0%N) (view rels np' ups)).
    set (M := mix d i (view rels np' ups) V). set (vs := prop_of p x) in *.
    set (g := fun n => amap (also M d i (with_props (take p (ac_prop x) ++ [take n vs ++ replicate (length vs - n) 0%N]))) b).
    intros m4 Hm4.
    destruct (does_loop (fun m kx => PropInsert d i p kx.1 kx.2 m) (imap pair vs) g) with (m := m4) as (m5 & E5 & H5).
    + intros n kv Hkv. rewrite list_lookup_imap in Hkv. destruct (vs !! n) as [v|] eqn:Ev; [|done]. injection Hkv as <-. cbn [fst snd].
      pose proof (lookup_lt_Some _ _ _ Ev) as Hlt.
      assert (Er : replicate (length vs - n) 0%N = 0%N :: replicate (length vs - S n) 0%N).
      { replace (length vs - n) with (S (length vs - S n)) by lia. done. }
      assert (El : length (take n vs) = n) by (rewrite take_length; lia).
      unfold g at 1. eapply does_aeq; [apply (does_PropInsert _ b d i p n v x)|].
      * by rewrite Hb.
      * rewrite Hnb. lia.
      * unfold also. rewrite decide_True by done. cbn. intros l. rewrite lookup_app_r by lia. rewrite Hl, Nat.sub_diag. cbn.
        intros [= <-]. rewrite app_length, El, replicate_length. lia.
      * unfold g. apply amap_ext. intros d' j y Hy. unfold also. case_decide; [|apply ceq_refl]. repeat split. cbn.
        unfold prop_of at 1. cbn. rewrite lookup_app_r by lia. rewrite Hl, Nat.sub_diag. cbn. rewrite insert_end by done.
        rewrite (take_S_r _ _ _ Ev), Er, <- app_assoc. f_equal. f_equal.
        rewrite <- El at 1. rewrite <- (Nat.add_0_r (length _)), insert_app_r. done.
    + eapply rr_aeq; [exact Hm4|]. apply amap_ext. intros d' j y Hy. unfold also. case_decide as Ed; [|apply ceq_refl].
      destruct Ed as [-> ->]. assert (y = x) as -> by congruence. unfold M. rewrite mix_at, Nat.sub_0_r.
      unfold V, valued, alls. rewrite decide_True by done. repeat split.
    + exists m5. split; [done|]. unfold g in H5. rewrite imap_length, (take_ge vs), Nat.sub_diag, app_nil_r in H5 by lia. exact H5.
  - intros d' i x Hd Hx. unfold valued, alls. rewrite decide_False by done. apply ceq_refl.
Qed.

Lemma stage_ext dm on rels np ups on' rels' np' ups' :
  (forall d, on d = on' d) -> (forall r, rels r = rels' r) -> (forall d, take (np d) (am_names a d) = take (np' d) (am_names a d)) ->
  (forall d, ups d = ups' d) -> aeq (stage dm on rels np ups) (stage dm on' rels' np' ups').
Proof.
  intros H1 H2 H3 H4. unfold CsvConv.stage. apply aeq_intro; [done|done| |].
  - intros d. rewrite !amap_num. unfold anum. cbn. by rewrite H1.
  - intros d i x y. rewrite !amap_lookup. cbn. rewrite <- H1. destruct ((if on d then am_cells a d else []) !! i) as [z|] eqn:E; [|done].
    intros [= <-] [= <-]. unfold CsvConv.view. rewrite <- H4. repeat split; cbn.
    + intros r. by rewrite H2.
    + destruct (on d) eqn:Eo; [|done]. pose proof (Hprops d i z E) as Hl. pose proof (H3 d) as E3.
      apply (f_equal length) in E3. rewrite !take_length in E3. rewrite <- Hl in E3.
      destruct (decide (np d < length (ac_prop z))).
      * f_equal. lia.
      * rewrite !take_ge by lia. done.
Qed.

Lemma does_Properties dm on rels np ups d : on d = true -> np d = 0 -> (am_names a d <> [] -> am_cells a d <> []) ->
  does (ConvertCellDoubleProperties d
          (imap (fun p id => (id, imap (fun i x => (N.of_nat i, prop_of p x)) (am_cells a d))) (am_names a d)))
       (stage dm on rels np ups) (stage dm on rels (upd_fun np d (length (am_names a d))) ups).
Proof.
  intros Hon Hnp Hne. unfold ConvertCellDoubleProperties.
  intros m Hm.
  destruct (does_loop (fun m (idrows : string * list (N * list N)) =>
    match idrows.2 with
    | [] => Ok m
    | _ => '(m, p) ← AddDoubleProperty d idrows.1 m;
           m ← PropInitAll d p (map (fun row : N * list N => length row.2) idrows.2) m;
           ofold (fun m row => ofold (fun m kx => PropInsert d (N.to_nat row.1) p kx.1 kx.2 m) (imap pair row.2) m) idrows.2 m
    end) (imap (fun p id => (id, imap (fun i x => (N.of_nat i, prop_of p x)) (am_cells a d))) (am_names a d))
    (fun p => stage dm on rels (upd_fun np d p) ups)) with (m := m) as (m' & E & H').
  - intros p y Hy. rewrite list_lookup_imap in Hy. destruct (am_names a d !! p) as [id|] eqn:Eid; [|done]. injection Hy as <-. cbn [fst snd].
    assert (Hc : am_cells a d <> []) by (apply Hne; intros E; by rewrite E in Eid).
    destruct (imap (fun i x => (N.of_nat i, prop_of p x)) (am_cells a d)) eqn:Ei.
    { apply (f_equal length) in Ei. rewrite imap_length in Ei. by destruct (am_cells a d). }
    rewrite <- Ei. clear Ei. eapply does_aeq; [apply (does_property dm on rels (upd_fun np d p) ups d p id Hon); [apply upd_fun_eq|done..]|].
    apply stage_ext; [done..| |done]. intros d'. unfold upd_fun. by case_decide.
  - eapply rr_aeq; [exact Hm|]. apply stage_ext; [done..| |done]. intros d'. unfold upd_fun. case_decide; [|done]. by subst d'; rewrite Hnp.
  - exists m'. split; [done|]. rewrite imap_length in H'. exact H'.
Qed.
End properties.

(** ** Replaced cells *)

Section history.
Context (a : amesh) (fin : dim -> nat -> list N).
Context (Hfin : forall d i v, i < anum d a -> v ∈ fin d i -> (v < N.of_nat (anum d a))%N).

Definition repl_of (d : dim) (i : nat) : option (gset N) := if decide (fin d i = []) then None else Some (list_to_set (fin d i)).
(** The last of the first [n] cells replaced by [j]. *)
Fixpoint last_of (d : dim) (n j : nat) : N :=
  match n with
  | 0 => UINT_MAX
  | S n => if decide (N.of_nat j ∈ fin d n) then N.of_nat n else last_of d n j
  end.
Definition from_of (d : dim) (j : nat) : N := if decide (d = D0) then UINT_MAX else last_of d (anum d a) j.

Local Notation view := (view a repl_of from_of).
Local Notation stage := (stage a repl_of from_of).

(** After [i] cells, and [k] of the cells which replace the next one. *)
Definition so_far (d : dim) (i k : nat) (F : dim -> nat -> acell -> acell) : dim -> nat -> acell -> acell :=
  alls F d (fun j _ y =>
    with_orig (if decide (d = D0) then UINT_MAX else if decide (N.of_nat j ∈ take k (fin d i)) then N.of_nat i else last_of d i j)
      (with_upd (if decide (j < i) then repl_of d j
                 else if decide (j = i) then (if decide (take k (fin d i) = []) then None else Some (list_to_set (take k (fin d i)))) else None) y)).

Lemma grow (l : list N) u :
  Some ({[N.of_nat (N.to_nat u)]} ∪ default ∅ (if decide (l = []) then None else Some (list_to_set l))) =
  (if decide (l ++ [u] = []) then None else Some (list_to_set (l ++ [u]) : gset N)).
Proof.
  rewrite N2Nat.id. rewrite (decide_False (P := l ++ [u] = [])) by (intros E; by apply app_eq_nil in E as [_ ?]).
  f_equal. rewrite list_to_set_app_L. case_decide as E; [rewrite E|]; cbn; set_solver.
Qed.

Lemma does_one F b d i : i < anum d b -> anum d b = anum d a ->
  does (fun m => ofold (fun m u => InsertUpdated d i (N.to_nat u) m) (fin d i) m) (amap (so_far d i 0 F) b) (amap (so_far d (S i) 0 F) b).
Proof.
  intros Hi Hn m Hm.
  destruct (does_loop (fun m u => InsertUpdated d i (N.to_nat u) m) (fin d i) (fun k => amap (so_far d i k F) b)) with (m := m) as (m' & E & H').
  - intros k u Hu. assert (Hlt : (u < N.of_nat (anum d a))%N) by (apply (Hfin d i); [lia|by eapply elem_of_list_lookup_2]).
    eapply does_aeq; [apply does_Updated; [done|lia]|]. apply amap_ext. intros d' j x Hx. unfold also, so_far, alls.
    destruct (decide (d' = d)) as [->|Hd]; [|rewrite !decide_False by tauto; apply ceq_refl].
    rewrite (take_S_r _ _ _ Hu).
    destruct (decide (j = N.to_nat u)) as [->|Hju].
    + rewrite (decide_True (P := d = d /\ N.to_nat u = N.to_nat u)) by done. rewrite N2Nat.id.
      unfold orig_with. destruct (decide (d = D0)) as [Ed|Ed].
      * destruct (decide (N.to_nat u = i)) as [Ei|Ei].
        -- rewrite (decide_True (P := d = d /\ N.to_nat u = i)) by done. repeat split. cbn.
           rewrite !(decide_False (P := N.to_nat u < i)) by lia. apply grow.
        -- rewrite (decide_False (P := d = d /\ N.to_nat u = i)) by tauto. repeat split.
      * destruct (decide (N.to_nat u = i)) as [Ei|Ei].
        -- rewrite (decide_True (P := d = d /\ N.to_nat u = i)) by done. repeat split; cbn.
           ++ rewrite decide_True; [done|]. set_solver.
           ++ rewrite !(decide_False (P := N.to_nat u < i)) by lia. apply grow.
        -- rewrite (decide_False (P := d = d /\ N.to_nat u = i)) by tauto. repeat split; cbn.
           rewrite decide_True; [done|]. set_solver.
    + rewrite (decide_False (P := d = d /\ j = N.to_nat u)) by tauto.
      assert (Eor : (if decide (d = D0) then UINT_MAX else if decide (N.of_nat j ∈ take k (fin d i)) then N.of_nat i else last_of d i j) =
                    (if decide (d = D0) then UINT_MAX else if decide (N.of_nat j ∈ take k (fin d i) ++ [u]) then N.of_nat i else last_of d i j)).
      { case_decide; [done|]. destruct (decide (N.of_nat j ∈ take k (fin d i))) as [Hin|Hin].
        - by rewrite decide_True by (rewrite elem_of_app; by left).
        - rewrite decide_False; [done|]. rewrite elem_of_app, elem_of_list_singleton. intros [?|?]; [done|lia]. }
      destruct (decide (j = i)) as [->|Hji].
      * rewrite (decide_True (P := d = d /\ i = i)) by done. repeat split; cbn; [exact Eor|].
        rewrite !(decide_False (P := i < i)) by lia. rewrite ?(decide_True (P := i = i)) by done. apply grow.
      * rewrite (decide_False (P := d = d /\ j = i)) by tauto. repeat split; cbn; exact Eor.
  - done.
  - exists m'. split; [done|]. eapply rr_aeq; [exact H'|]. apply amap_ext. intros d' j x Hx. unfold so_far, alls.
    case_decide; [|apply ceq_refl]. rewrite take_ge by lia. repeat split; cbn.
    rewrite (decide_True (P := take 0 (fin d (S i)) = [])) by done. destruct (decide (j < i)).
    + by rewrite decide_True by lia.
    + destruct (decide (j = i)) as [->|Hji]; [by rewrite (decide_True (P := i < S i)) by lia|]. rewrite decide_False by lia. by case_decide.
Qed.

Lemma does_Updateds dm on rels np ups d : on d = true -> ups d = false ->
  does (ConvertCellUpdatedCells d (imap (fun i _ => (N.of_nat i, [fin d i])) (am_cells a d)))
       (stage dm on rels np ups) (stage dm on rels np (upd_fun ups d true)).
Proof.
  intros Hon Hu m Hm. set (b := base a dm on np).
  assert (Hb : am_cells b d = am_cells a d) by (by apply base_on).
  set (rows := imap (fun i (_ : acell) => (N.of_nat i, [fin d i])) (am_cells a d)).
  assert (Hrows : forall i, i < anum d a -> rows !! i = Some (N.of_nat i, [fin d i])).
  { intros i Hi. unfold rows. rewrite list_lookup_imap. destruct (lookup_lt_is_Some_2 (am_cells a d) i Hi) as [x ->]. done. }
  assert (Hl : length rows = anum d a) by (unfold rows; apply imap_length).
  set (F := view rels np ups).
  assert (H0 : rr m (amap (so_far d 0 0 F) b)).
  { eapply rr_aeq; [exact Hm|]. apply amap_ext. intros d' j x Hx. unfold so_far, alls. case_decide; [|apply ceq_refl]. subst d'.
    unfold F, CsvConv.view. rewrite Hu. repeat split; cbn.
    - by case_decide.
    - rewrite (decide_False (P := j < 0)) by lia. by case_decide. }
  assert (Hnm : num d m = anum d a).
  { rewrite (g_num _ _ (proj2 Hm)). unfold CsvConv.stage. rewrite amap_num. unfold anum. fold b. by rewrite Hb. }
  destruct (does_seq (fun m c => row ← vget rows c; ofold (fun m u => InsertUpdated d (N.to_nat row.1) (N.to_nat u) m) (nth 0 row.2 []) m)
              (anum d a) (fun i => amap (so_far d i 0 F) b)) with (m := m) as (m' & E & H').
  - intros i Hi. eapply does_ext; [|apply does_one].
    + intros m1 _. rewrite (vget_Ok rows i _ (Hrows i Hi)). cbn [mbind outcome_bind fst snd nth]. by rewrite Nat2N.id.
    + unfold anum. by rewrite Hb.
    + unfold anum. by rewrite Hb.
  - done.
  - exists m'. split.
    + unfold ConvertCellUpdatedCells. fold rows. destruct rows as [|row rows'] eqn:Er.
      * cbn in Hl. rewrite <- Hl in E. exact E.
      * rewrite Hnm. exact E.
    + eapply rr_aeq; [exact H'|]. apply amap_ext. intros d' j x Hx. unfold so_far, alls.
      destruct (decide (d' = d)) as [->|Hd].
      * fold b in Hx. rewrite Hb in Hx. apply lookup_lt_Some in Hx. fold (anum d a) in Hx.
        unfold F, CsvConv.view. rewrite upd_fun_eq. repeat split; cbn.
        by rewrite decide_True by exact Hx.
      * unfold F, CsvConv.view. unfold upd_fun. rewrite (decide_False (P := d = d')) by congruence. apply ceq_refl.
Qed.
End history.
