(** Loops over the cells of one dimension, followed on the abstract mesh. *)
From Verif Require Import Base BaseProof StringsModel CsrModel CsrSpec MeshModel MeshSpec MeshRep MeshHist
  MeshProof MeshProof2 MeshProof3 MeshProof4 MeshProof5 MeshProof6 MeshProof7 MeshProof8 MeshProof9 MeshProg CsvModel CsvSpec.
From Coq Require Import ZifyBool ZifyNat ZifyN.

(** [G] on the first [i] cells of dimension [d], [F] elsewhere. *)
Definition mix (d : dim) (i : nat) (G F : dim -> nat -> acell -> acell) : dim -> nat -> acell -> acell :=
  fun d' j x => if decide (d' = d /\ j < i) then G d' j x else F d' j x.

Lemma mix_at d i G F x : mix d i G F d i x = F d i x.
Proof. unfold mix. rewrite decide_False; [done|lia]. Qed.

Lemma does_each {A} (f : mesh -> A -> outcome mesh) (l : list A) b d F G :
  length l = anum d b ->
  (forall i y x, l !! i = Some y -> am_cells b d !! i = Some x ->
     does (fun m => f m y) (amap (mix d i G F) b) (amap (mix d (S i) G F) b)) ->
  (forall d' i x, d' <> d -> am_cells b d' !! i = Some x -> ceq (F d' i x) (G d' i x)) ->
  does (ofold f l) (amap F b) (amap G b).
Proof.
  intros Hl Hf Ho m Hm.
  assert (H0 : rr m (amap (mix d 0 G F) b)).
  { eapply rr_aeq; [exact Hm|]. apply amap_ext. intros d' i x Hx. unfold mix. rewrite decide_False by lia. apply ceq_refl. }
  destruct (does_loop f l (fun i => amap (mix d i G F) b)) with (m := m) as (m' & E & Hm'); [|done|].
  - intros i y Hy. destruct (lookup_lt_is_Some_2 (am_cells b d) i) as [x Hx].
    { apply lookup_lt_Some in Hy. unfold anum in Hl. lia. }
    by eapply Hf.
  - exists m'. split; [done|]. eapply rr_aeq; [exact Hm'|]. apply amap_ext. intros d' i x Hx. unfold mix.
    case_decide as E'; [apply ceq_refl|]. destruct (decide (d' = d)) as [->|Hd]; [|by apply (Ho d')].
    destruct E'. split; [done|]. apply lookup_lt_Some in Hx. unfold anum in Hl. lia.
Qed.

(** A step which changes only cell [i]. *)
Lemma also_mix P b d i G F f x :
  am_cells b d !! i = Some x -> does P (amap (mix d i G F) b) (amap (also (mix d i G F) d i f) b) -> ceq (f (F d i x)) (G d i x) ->
  does P (amap (mix d i G F) b) (amap (mix d (S i) G F) b).
Proof.
  intros Hx Hp Hf. eapply does_aeq; [exact Hp|]. apply amap_ext. intros d' j y Hy. unfold also.
  case_decide as E.
  - destruct E as [-> ->]. assert (y = x) as -> by congruence. rewrite mix_at. unfold mix. by rewrite decide_True by (split; [done|lia]).
  - unfold mix. destruct (decide (d' = d /\ j < i)) as [[-> Hj]|Hj].
    + rewrite decide_True by (split; [done|lia]). apply ceq_refl.
    + rewrite decide_False; [apply ceq_refl|]. intros [-> Hj']. apply E. split; [done|].
      destruct (decide (j = i)); [done|]. destruct Hj. split; [done|lia].
Qed.

Lemma also_bind P Q F b d i f g h :
  does P (amap F b) (amap (also F d i f) b) ->
  does Q (amap (also F d i f) b) (amap (also (also F d i f) d i g) b) ->
  (forall x, ceq (g (f x)) (h x)) ->
  does (fun m => m' ← P m; Q m') (amap F b) (amap (also F d i h) b).
Proof.
  intros Hp Hq Hh. eapply does_aeq; [eapply does_bind; [exact Hp|exact Hq]|]. apply amap_ext. intros d' j x Hx. unfold also.
  case_decide; [apply Hh|apply ceq_refl].
Qed.

Lemma also_ext P F b d i f g x :
  am_cells b d !! i = Some x -> does P (amap F b) (amap (also F d i f) b) -> ceq (f (F d i x)) (g (F d i x)) ->
  does P (amap F b) (amap (also F d i g) b).
Proof.
  intros Hx Hp Hf. eapply does_aeq; [exact Hp|]. apply amap_ext. intros d' j y Hy. unfold also.
  case_decide as E; [|apply ceq_refl]. destruct E as [-> ->]. by assert (y = x) as -> by congruence.
Qed.

(** ** Rows *)

(** The rows of [rs] are replaced by those of [R]. *)
Definition set_rows (rs : list rel) (R : rel -> list N) (y : acell) : acell :=
  ACell (ac_geo y) (ac_mark y) (ac_act y) (ac_orig y) (ac_upd y) (fun r => if decide (r ∈ rs) then R r else ac_rel y r) (ac_prop y).

Definition alls (F : dim -> nat -> acell -> acell) (d : dim) (f : nat -> acell -> acell -> acell) : dim -> nat -> acell -> acell :=
  fun d' j x => if decide (d' = d) then f j x (F d' j x) else F d' j x.

Lemma redeal_empty {A} (dv : A) cnt (rows : list (list A)) : Forall (fun l => l = []) rows ->
  redeal dv cnt rows = map (fun n => replicate n dv) cnt.
Proof.
  intros H. unfold redeal. assert (concat rows = []) as -> by (induction H as [|l rows -> _ IH]; done).
  rewrite resize_nil. induction cnt as [|n cnt IH]; [done|]. cbn [deal sum_list map].
  change (sum_list (n :: cnt)) with (n + sum_list cnt). rewrite replicate_add, take_app_alt, drop_app_alt by (by rewrite replicate_length).
  by rewrite IH.
Qed.

Lemma does_InitAll F b r (n : acell -> nat) :
  (forall i x, am_cells b (src r) !! i = Some x -> ac_rel (F (src r) i x) r = []) ->
  does (RelInitAll r (map n (am_cells b (src r)))) (amap F b)
       (amap (alls F (src r) (fun _ x y => with_row r (replicate (n x) (default_bulk r)) y)) b).
Proof.
  intros He. eapply does_aeq.
  - apply (does_step (amap F b) (OInitAll r (map n (am_cells b (src r))))); [done|].
    cbn [astep]. rewrite decide_True by (by rewrite amap_num, map_length). reflexivity.
  - assert (Hr : Forall (fun l => l = []) (row_of r <$> am_cells (amap F b) (src r))).
    { apply Forall_fmap, Forall_forall. intros y [i Hi]%elem_of_list_lookup. rewrite amap_lookup in Hi.
      destruct (am_cells b (src r) !! i) as [x|] eqn:E; [|done]. injection Hi as <-. by apply (He i x). }
    rewrite redeal_empty by exact Hr. rewrite map_map.
    apply aeq_intro; [done..| |].
    + intros d. rewrite amap_num. unfold anum. cbn [with_cells am_cells]. unfold upd_fun. case_decide as E; [subst d|].
      * rewrite zip_with_length, map_length. change (imap (F (src r)) (am_cells b (src r))) with (am_cells (amap F b) (src r)).
        pose proof (amap_num F b (src r)) as E. unfold anum in E. lia.
      * apply (amap_num F b d).
    + intros d i x y Hx Hy. rewrite amap_lookup in Hy. cbn [with_cells am_cells] in Hx. unfold upd_fun in Hx.
      destruct (am_cells b d !! i) as [w|] eqn:Ew; [|done]. injection Hy as <-. unfold alls.
      destruct (decide (src r = d)) as [<-|E].
      * rewrite decide_True by done.
        change (imap (F (src r)) (am_cells b (src r))) with (am_cells (amap F b) (src r)) in Hx.
        rewrite lookup_zip_with, amap_lookup, Ew in Hx. change (map ?f ?l) with (f <$> l) in Hx. rewrite list_lookup_fmap, Ew in Hx.
        cbn in Hx. injection Hx as <-. apply ceq_refl.
      * rewrite decide_False by congruence.
        change (imap (F d) (am_cells b d)) with (am_cells (amap F b) d) in Hx. rewrite amap_lookup, Ew in Hx.
        injection Hx as <-. apply ceq_refl.
Qed.

(** Bulk initialisation of the lists [rs] of all cells of dimension [d]. *)
Lemma does_init_lists F b d rs (R : acell -> rel -> list N) :
  Forall (fun r => src r = d) rs -> NoDup rs ->
  (forall i x r, am_cells b d !! i = Some x -> r ∈ rs -> ac_rel (F d i x) r = []) ->
  does (init_lists rs (map (fun x => map (R x) rs) (am_cells b d))) (amap F b)
       (amap (alls F d (fun _ x => set_rows rs (fun r => replicate (length (R x r)) (default_bulk r)))) b).
Proof.
  intros Hs Hn He. unfold init_lists.
  set (g := fun n => amap (alls F d (fun _ x => set_rows (take n rs) (fun r => replicate (length (R x r)) (default_bulk r)))) b).
  intros m Hm.
  destruct (does_loop (fun m nr => RelInitAll nr.2
              (map (fun ls : list (list N) => length (nth nr.1 ls [])) (map (fun x => map (R x) rs) (am_cells b d))) m)
              (imap pair rs) g) with (m := m) as (m' & E & Hm').
  - intros n nr Hnr. rewrite list_lookup_imap in Hnr. destruct (rs !! n) as [r|] eqn:Er; [|done]. injection Hnr as <-. cbn [fst snd].
    assert (Hsr : src r = d) by (rewrite Forall_forall in Hs; apply Hs; by eapply elem_of_list_lookup_2).
    rewrite map_map.
    assert (Ec : map (fun x => length (nth n (map (R x) rs) [])) (am_cells b d) = map (fun x => length (R x r)) (am_cells b (src r))).
    { rewrite Hsr. apply map_ext. intros x. f_equal. rewrite nth_lookup. change (map ?f ?l) with (f <$> l).
      by rewrite list_lookup_fmap, Er. }
    rewrite Ec. eapply does_aeq; [apply does_InitAll|].
    + intros i x Hx. rewrite Hsr in *. unfold alls. rewrite decide_True by done. cbn. rewrite decide_False.
      * apply (He i x r Hx). by eapply elem_of_list_lookup_2.
      * intros (j & Hj)%elem_of_list_lookup. apply lookup_take_Some in Hj as [Hj Hjn].
        pose proof (NoDup_lookup _ _ _ _ Hn Hj Er). lia.
    + apply amap_ext. intros d' j x Hx. rewrite Hsr. unfold alls. case_decide; [|apply ceq_refl]. subst d'.
      repeat split. intros r'. cbn. unfold upd_fun. rewrite (take_S_r rs n r Er).
      destruct (decide (r = r')) as [<-|Hr].
      * rewrite decide_True; [done|]. rewrite elem_of_app, elem_of_list_singleton. by right.
      * destruct (decide (r' ∈ take n rs)) as [Hi|Hi].
        -- rewrite decide_True; [done|]. rewrite elem_of_app. by left.
        -- rewrite decide_False; [done|]. rewrite elem_of_app, elem_of_list_singleton. intros [?|?]; congruence.
  - eapply rr_aeq; [exact Hm|]. apply amap_ext. intros d' j x Hx. unfold alls. case_decide; [|apply ceq_refl].
    repeat split.
  - exists m'. split; [done|]. unfold g in Hm'. rewrite imap_length, take_ge in Hm' by lia. exact Hm'.
Qed.

(** The loops which insert the entries of the lists [rs] of cell [i]; [ins] inserts one list. *)
Lemma does_rows (ins : rel -> list N -> mesh -> outcome mesh) F b d rs i x (Old New : rel -> list N) :
  Forall (fun r => src r = d) rs -> NoDup rs -> am_cells b d !! i = Some x ->
  (forall r G, r ∈ rs -> ac_rel (G d i x) r = ac_rel (F d i x) r ->
     does (ins r (Old r)) (amap G b) (amap (also G d i (with_row r (New r))) b)) ->
  does (ofold (fun m nr => ins nr.2 (nth nr.1 (map Old rs) []) m) (imap pair rs)) (amap F b) (amap (also F d i (set_rows rs New)) b).
Proof.
  intros Hs Hn Hx Hi. set (g := fun n => amap (also F d i (set_rows (take n rs) New)) b). intros m Hm.
  destruct (does_loop (fun m nr => ins nr.2 (nth nr.1 (map Old rs) []) m) (imap pair rs) g) with (m := m) as (m' & E & Hm').
  - intros n nr Hnr. rewrite list_lookup_imap in Hnr. destruct (rs !! n) as [r|] eqn:Er; [|done]. injection Hnr as <-. cbn [fst snd].
    rewrite nth_lookup. change (map Old rs) with (Old <$> rs). rewrite list_lookup_fmap, Er. cbn [fmap option_fmap option_map default].
    eapply does_aeq; [apply (Hi r)|].
    + by eapply elem_of_list_lookup_2.
    + unfold also. rewrite decide_True by done. cbn. rewrite decide_False; [done|].
      intros (j & Hj)%elem_of_list_lookup. apply lookup_take_Some in Hj as [Hj Hjn].
      pose proof (NoDup_lookup _ _ _ _ Hn Hj Er). lia.
    + apply amap_ext. intros d' j y Hy. unfold also. case_decide; [|apply ceq_refl].
      repeat split. intros r'. cbn. unfold upd_fun. rewrite (take_S_r rs n r Er).
      destruct (decide (r = r')) as [<-|Hr].
      * rewrite decide_True; [done|]. rewrite elem_of_app, elem_of_list_singleton. by right.
      * destruct (decide (r' ∈ take n rs)) as [Hi'|Hi'].
        -- rewrite decide_True; [done|]. rewrite elem_of_app. by left.
        -- rewrite decide_False; [done|]. rewrite elem_of_app, elem_of_list_singleton. intros [?|?]; congruence.
  - eapply rr_aeq; [exact Hm|]. apply amap_ext. intros d' j y Hy. unfold also. case_decide; [|apply ceq_refl].
    repeat split.
  - exists m'. split; [done|]. unfold g in Hm'. rewrite imap_length, take_ge in Hm' by lia. exact Hm'.
Qed.

Lemma does_insert_lists F b d rs i x (Old : rel -> list N) :
  Forall (fun r => src r = d) rs -> NoDup rs -> am_cells b d !! i = Some x ->
  (forall r, r ∈ rs -> length (ac_rel (F d i x) r) = length (Old r) /\ all_below (anum (tgt r) b) (Old r)) ->
  does (insert_lists rs i (map Old rs)) (amap F b) (amap (also F d i (set_rows rs Old)) b).
Proof.
  intros Hs Hn Hx Ho. apply (does_rows (fun r vs m => RelInsertList r i vs m) F b d rs i x Old Old Hs Hn Hx).
  intros r G Hr E. destruct (Ho r Hr) as [Hl Hb]. assert (Hsr : src r = d) by (rewrite Forall_forall in Hs; by apply Hs).
  subst d. eapply also_ext; [done|apply (does_InsertList G b r i (Old r) x Hx)|]; [rewrite E; lia|done|].
  repeat split. intros r'. cbn. unfold upd_fun. case_decide; [|done]. rewrite drop_ge, app_nil_r; [done|]. rewrite E. lia.
Qed.

Lemma does_insert_neighbours F b d rs i x (Old : rel -> list N) :
  Forall (fun r => src r = d) rs -> NoDup rs -> am_cells b d !! i = Some x ->
  (forall r, r ∈ rs -> ac_rel (F d i x) r = replicate (length (Old r)) UINT_MAX) ->
  does (insert_neighbours rs i (map Old rs)) (amap F b)
       (amap (also F d i (set_rows rs (fun r => map (known (anum (tgt r) b)) (Old r)))) b).
Proof.
  intros Hs Hn Hx Ho. unfold insert_neighbours.
  apply (does_rows (fun r vs m => ofold (fun m kv => if (N.of_nat (num (tgt r) m) <=? kv.2)%N then Ok m else RelInsert r i kv.1 kv.2 m)
                                    (imap pair vs) m) F b d rs i x Old _ Hs Hn Hx).
  intros r G Hr E. rewrite (Ho r Hr) in E. assert (Hsr : src r = d) by (rewrite Forall_forall in Hs; by apply Hs). subst d.
  set (kn := known (anum (tgt r) b)). set (vs := Old r) in *.
  set (g := fun n => amap (also G (src r) i (with_row r (map kn (take n vs) ++ replicate (length vs - n) UINT_MAX))) b).
  intros m Hm.
  destruct (does_loop (fun m kv => if (N.of_nat (num (tgt r) m) <=? kv.2)%N then Ok m else RelInsert r i kv.1 kv.2 m)
              (imap pair vs) g) with (m := m) as (m' & Em & Hm').
  - intros n kv Hkv. rewrite list_lookup_imap in Hkv. destruct (vs !! n) as [v|] eqn:Ev; [|done]. injection Hkv as <-. cbn [fst snd].
    pose proof (lookup_lt_Some _ _ _ Ev) as Hlt.
    assert (El : length (map kn (take n vs)) = n) by (rewrite map_length, take_length; lia).
    assert (Er : replicate (length vs - n) UINT_MAX = UINT_MAX :: replicate (length vs - S n) UINT_MAX).
    { replace (length vs - n) with (S (length vs - S n)) by lia. done. }
    assert (Es : map kn (take (S n) vs) = map kn (take n vs) ++ [kn v]) by (rewrite (take_S_r _ _ _ Ev), map_app; done).
    destruct (decide (v < N.of_nat (anum (tgt r) b))%N) as [Hv|Hv].
    + eapply does_ext with (Q := RelInsert r i n v).
      { intros m1 Hm1. rewrite (g_num _ _ (proj2 Hm1)). unfold g. rewrite amap_num. by rewrite (proj2 (N.leb_gt _ _) Hv). }
      unfold g at 1. eapply does_aeq; [apply (does_Insert _ b r i n v x Hx); [|done]|].
      * unfold also. rewrite decide_True by done. cbn. rewrite upd_fun_eq, app_length, El, replicate_length. lia.
      * unfold g. apply amap_ext. intros d' j y Hy. unfold also. case_decide; [|apply ceq_refl].
        repeat split. intros r'. cbn. unfold upd_fun. case_decide; [|done]. rewrite decide_True by done.
        rewrite Es, Er, <- app_assoc. rewrite <- El at 1. rewrite <- (Nat.add_0_r (length _)), insert_app_r. cbn. f_equal. f_equal.
        unfold kn, known. by rewrite (proj2 (N.ltb_lt _ _) Hv).
    + eapply does_ext with (Q := fun m => Ok m).
      { intros m1 Hm1. rewrite (g_num _ _ (proj2 Hm1)). unfold g. rewrite amap_num.
        by rewrite (proj2 (N.leb_le _ _) (proj1 (N.nlt_ge _ _) Hv)). }
      eapply does_aeq; [apply does_ret|]. unfold g. apply amap_ext. intros d' j y Hy. unfold also. case_decide; [|apply ceq_refl].
      repeat split. intros r'. cbn. unfold upd_fun. case_decide; [|done]. rewrite Es, Er, <- app_assoc. cbn. f_equal. f_equal.
      unfold kn, known. by rewrite (proj2 (N.ltb_ge _ _) (proj1 (N.nlt_ge _ _) Hv)).
  - eapply rr_aeq; [exact Hm|]. apply amap_ext. intros d' j y Hy. unfold also. case_decide as Ed; [|apply ceq_refl].
    destruct Ed as [-> ->]. assert (y = x) as -> by congruence. rewrite Nat.sub_0_r. cbn [take map Datatypes.app].
    repeat split. intros r'. cbn. unfold upd_fun. case_decide; [by subst|done].
  - exists m'. split; [done|]. unfold g in Hm'. rewrite imap_length, take_ge, Nat.sub_diag, app_nil_r in Hm' by lia. exact Hm'.
Qed.
