(** Splitting a cell: the general argument. *)
From Verif Require Import Base BaseProof CsrModel CsrSpec CsrProof MeshModel MeshSpec MeshRep MeshHist
  MeshProof MeshProof2 MeshProof3 MeshProof4 MeshProof5 MeshProof6 MeshProof7 MeshProof8 MeshProof9 MeshProofA MeshProofB
  MeshProg MeshWit UtilModel UtilSpec UtilProofA UtilProofB UtilProofC UtilProofD.
From Coq Require Import ZifyBool ZifyNat ZifyN.

Definition cellfun := dim -> nat -> acell -> acell.

(** [parent] replaced by [child] in a list. *)
Definition repl (parent child : nat) (l : list N) : list N :=
  (fun w => if (w =? N.of_nat parent)%N then N.of_nat child else w) <$> l.

Definition red_cells (r : rel) (parent child : nat) (l : list N) (F : cellfun) : cellfun := fun d i x =>
  if decide (d = src r /\ N.of_nat i ∈ l) then with_row r (repl parent child (ac_rel (F d i x) r)) (F d i x) else F d i x.

Definition clean (n : nat) (l : list N) : list N := (fun v => if (v <? N.of_nat n)%N then v else UINT_MAX) <$> l.

Lemma with_row_same r l x : ac_rel x r = l -> ceq x (with_row r l x).
Proof.
  intros <-. unfold ceq. split_and!; [done..| |done]. intros r'. cbn [with_row ac_rel]. unfold upd_fun. case_decide; [by subst|done].
Qed.

Lemma amap_get m F a r i k : rr m (amap F a) ->
  RelGet r i k m = match am_cells a (src r) !! i with
                   | Some x => match ac_rel (F (src r) i x) r !! k with Some v => Ok v | None => Abort end
                   | None => Abort end.
Proof.
  intros [_ H]. rewrite (g_get _ _ H), amap_lookup. by destruct (am_cells a (src r) !! i).
Qed.

Lemma amap_has m F a r i k : rr m (amap F a) ->
  RelHas r i k m = match am_cells a (src r) !! i with
                   | Some x => match ac_rel (F (src r) i x) r !! k with
                               | Some v => Ok (v <? N.of_nat (anum (tgt r) a))%N | None => Abort end
                   | None => Abort end.
Proof.
  intros Hm. unfold RelHas. rewrite (amap_get m F a) by done. rewrite (g_num _ _ (proj2 Hm)), amap_num.
  destruct (am_cells a (src r) !! i); [|done]. by destruct (ac_rel _ r !! k).
Qed.

Lemma amap_count m F a r i x : rr m (amap F a) -> am_cells a (src r) !! i = Some x ->
  RelNumber r i m = Ok (N.of_nat (length (ac_rel (F (src r) i x) r))).
Proof. intros [_ H] Hx. rewrite (g_count _ _ H). unfold look. by rewrite amap_lookup, Hx. Qed.

Lemma redirect_ok r parent child v F a :
  parent < anum (tgt r) a -> child < anum (tgt r) a -> v < anum (src r) a ->
  does (redirect r parent child v) (amap F a)
       (amap (also F (src r) v (fun y => with_row r (repl parent child (ac_rel y r)) y)) a).
Proof.
  intros Hp Hc Hv. destruct (lookup_lt_is_Some_2 (am_cells a (src r)) v Hv) as [x Hx].
  set (l := ac_rel (F (src r) v x) r).
  set (g := fun k => amap (also F (src r) v (fun y => with_row r (repl parent child (take k (ac_rel y r)) ++ drop k (ac_rel y r)) y)) a).
  unfold redirect. eapply does_ext.
  { intros m Hm. rewrite (amap_count m F a r v x Hm Hx). cbn [mbind outcome_bind]. rewrite Nat2N.id. fold l. reflexivity. }
  apply (does_aeq_l _ _ (g 0)).
  { apply amap_ext. intros d i y Hy. unfold also. case_decide; [|apply ceq_refl]. apply with_row_same. done. }
  apply (does_aeq _ _ (g (length l))).
  2: { apply amap_ext. intros d i y Hy. unfold also. case_decide as E; [|apply ceq_refl]. destruct E as [-> ->].
       rewrite Hx in Hy. injection Hy as <-. fold l. rewrite firstn_all, drop_all, app_nil_r. apply ceq_refl. }
  apply does_seq. intros k Hk. destruct (lookup_lt_is_Some_2 l k Hk) as [w Hw].
  assert (Hrow : ac_rel (also F (src r) v (fun y => with_row r (repl parent child (take k (ac_rel y r)) ++ drop k (ac_rel y r)) y) (src r) v x) r
                 = repl parent child (take k l) ++ drop k l).
  { unfold also. rewrite decide_True by done. cbn [with_row ac_rel]. by rewrite upd_fun_eq. }
  assert (Hlk : length (repl parent child (take k l)) = k).
  { unfold repl. rewrite fmap_length, take_length. lia. }
  assert (Hget : (repl parent child (take k l) ++ drop k l) !! k = Some w).
  { rewrite lookup_app_r by lia. rewrite Hlk, lookup_drop. by replace (k + (k - k)) with k by lia. }
  assert (Hnext : repl parent child (take (S k) l) ++ drop (S k) l =
                  <[k := if (w =? N.of_nat parent)%N then N.of_nat child else w]> (repl parent child (take k l) ++ drop k l)).
  { rewrite (take_S_r _ _ _ Hw). unfold repl at 1. rewrite fmap_app. cbn [fmap list_fmap]. rewrite <- app_assoc.
    rewrite (drop_S l w k Hw). rewrite insert_app_r_alt by lia. rewrite Hlk, Nat.sub_diag. done. }
  eapply does_ext.
  { intros m Hm. rewrite (amap_has m _ a r v k Hm), Hx, Hrow, Hget. cbn [mbind outcome_bind].
    rewrite (amap_get m _ a r v k Hm), Hx, Hrow, Hget. cbn [mbind outcome_bind]. reflexivity. }
  destruct (w =? N.of_nat parent)%N eqn:Ew.
  - replace (w <? N.of_nat (anum (tgt r) a))%N with true by lia.
    eapply does_aeq; [apply does_Insert with x; [done|rewrite Hrow, app_length, Hlk, drop_length; lia|lia]|].
    apply amap_ext. intros d i y Hy. unfold also. destruct (decide (d = src r /\ i = v)) as [[-> ->]|E].
    + rewrite Hx in Hy. injection Hy as <-. fold l. rewrite Hnext. unfold ceq. split_and!; [done..| |done]. intros r'.
      cbn [with_row ac_rel]. rewrite upd_fun_eq. unfold upd_fun. by case_decide.
    + apply ceq_refl.
  - assert (Heq : aeq (g k) (g (S k))).
    { apply amap_ext. intros d i y Hy. unfold also. destruct (decide (d = src r /\ i = v)) as [[-> ->]|E].
      - rewrite Hx in Hy. injection Hy as <-. fold l. rewrite Hnext.
        rewrite (list_insert_id _ k w) by done. apply ceq_refl.
      - apply ceq_refl. }
    eapply does_aeq; [|exact Heq]. destruct (w <? _)%N; apply does_ret.
Qed.

Lemma redirect_all_ok r parent child row l F a :
  parent < anum (tgt r) a -> child < anum (tgt r) a -> parent <> child ->
  all_below (anum (src r) a) l -> (forall m, rr m (amap F a) -> row m = Ok l) ->
  does (redirect_all r parent child row) (amap F a) (amap (red_cells r parent child l F) a).
Proof.
  intros Hp Hc Hne Hl Hrow. unfold redirect_all. eapply does_ext.
  { intros m Hm. rewrite (Hrow m Hm). reflexivity. }
  cbn [mbind outcome_bind].
  set (g := fun k => amap (red_cells r parent child (take k l) F) a).
  apply (does_aeq_l _ _ (g 0)).
  { apply amap_ext. intros d i y Hy. unfold red_cells. rewrite decide_False; [apply ceq_refl|]. intros [_ H]. by apply elem_of_nil in H. }
  assert (Hg : does (ofold (fun m v => redirect r parent child (N.to_nat v) m) l) (g 0) (g (length l))).
  2: { unfold g in Hg at 2. rewrite firstn_all in Hg. exact Hg. }
  apply does_loop. intros k v Hv.
  assert (Hvb : (v < N.of_nat (anum (src r) a))%N).
  { unfold all_below in Hl. rewrite Forall_forall in Hl. apply Hl. by eapply elem_of_list_lookup_2. }
  eapply does_aeq; [apply redirect_ok; [done|done|lia]|].
  apply amap_ext. intros d i y Hy. unfold also, red_cells. rewrite (take_S_r _ _ _ Hv).
  destruct (decide (d = src r /\ i = N.to_nat v)) as [[-> ->]|E].
  - rewrite (decide_True (P := src r = src r /\ N.of_nat (N.to_nat v) ∈ take k l ++ [v])).
    2: { split; [done|]. rewrite N2Nat.id. apply elem_of_app. right. by apply elem_of_list_singleton. }
    case_decide as E2; [|apply ceq_refl]. unfold ceq. split_and!; [done..| |done].
    intros r'. cbn [with_row ac_rel]. rewrite upd_fun_eq. unfold upd_fun. case_decide; [|done].
    unfold repl. rewrite <- list_fmap_compose. apply list_fmap_ext. intros q w _. cbn.
    destruct (w =? N.of_nat parent)%N eqn:Ew; [|by rewrite Ew]. by replace (N.of_nat child =? N.of_nat parent)%N with false by lia.
  - destruct (decide (d = src r /\ N.of_nat i ∈ take k l)) as [E1|E1].
    + rewrite decide_True; [apply ceq_refl|]. destruct E1 as [? ?]. split; [done|]. apply elem_of_app. by left.
    + rewrite decide_False; [apply ceq_refl|]. intros [? [?|?%elem_of_list_singleton]%elem_of_app]; [naive_solver|].
      subst. apply E. split; [done|]. by rewrite Nat2N.id.
Qed.

Lemma inherit_ok r parent child p q F a :
  is_neighbour r = true -> parent <> child ->
  am_cells a (src r) !! parent = Some p -> am_cells a (src r) !! child = Some q ->
  ac_rel (F (src r) child q) r = [] ->
  does (inherit r parent child) (amap F a)
       (amap (also F (src r) child (with_row r (clean (anum (tgt r) a) (ac_rel (F (src r) parent p) r)))) a).
Proof.
  intros Hr Hne Hp Hq He. set (l := ac_rel (F (src r) parent p) r). unfold inherit. eapply does_ext.
  { intros m Hm. rewrite (amap_count m F a r parent p Hm Hp). cbn [mbind outcome_bind]. fold l. rewrite Nat2N.id. reflexivity. }
  assert (Hchild : child < anum (src r) a) by (by eapply lookup_lt_Some).
  destruct (0 <? N.of_nat (length l))%N eqn:E0.
  2: { eapply does_aeq; [apply does_ret|]. apply amap_ext. intros d i y Hy. unfold also. case_decide as E; [|apply ceq_refl].
       destruct E as [-> ->]. rewrite Hq in Hy. injection Hy as <-. apply with_row_same. rewrite He.
       assert (l = []) as -> by (apply nil_length_inv; lia). done. }
  set (g := fun k => amap (also F (src r) child (with_row r (take k (clean (anum (tgt r) a) l) ++ replicate (length l - k) UINT_MAX))) a).
  assert (Hcl : length (clean (anum (tgt r) a) l) = length l) by (unfold clean; by rewrite fmap_length).
  apply does_bind with (b := g 0).
  { eapply does_aeq; [apply does_InitOne; [done|]; destruct r; done|].
    apply amap_ext. intros d i y Hy. unfold also. case_decide as E; [|apply ceq_refl].
    destruct E as [-> ->]. rewrite Hq in Hy. injection Hy as <-. rewrite He. unfold default_single. rewrite Hr.
    rewrite resize_nil, Nat.sub_0_r, take_0. apply ceq_refl. }
  assert (Hfin : g (length l) = amap (also F (src r) child (with_row r (clean (anum (tgt r) a) l))) a).
  { unfold g. rewrite <- Hcl at 1. rewrite firstn_all, Nat.sub_diag. cbn. by rewrite app_nil_r. }
  rewrite <- Hfin. apply does_seq. intros k Hk. destruct (lookup_lt_is_Some_2 l k Hk) as [w Hw].
  assert (Hpar : ac_rel (also F (src r) child (with_row r (take k (clean (anum (tgt r) a) l) ++ replicate (length l - k) UINT_MAX))
                   (src r) parent p) r = l).
  { unfold also. rewrite decide_False by (intros [_ ?]; done). done. }
  assert (Hck : clean (anum (tgt r) a) l !! k = Some (if (w <? N.of_nat (anum (tgt r) a))%N then w else UINT_MAX)).
  { unfold clean. by rewrite list_lookup_fmap, Hw. }
  assert (Hnext : take (S k) (clean (anum (tgt r) a) l) ++ replicate (length l - S k) UINT_MAX =
            <[k := if (w <? N.of_nat (anum (tgt r) a))%N then w else UINT_MAX]>
             (take k (clean (anum (tgt r) a) l) ++ replicate (length l - k) UINT_MAX)).
  { rewrite (take_S_r _ _ _ Hck), <- app_assoc. replace (length l - k) with (S (length l - S k)) by lia. cbn [replicate app].
    assert (Htl : length (take k (clean (anum (tgt r) a) l)) = k) by (rewrite take_length; lia).
    rewrite insert_app_r_alt by lia. rewrite Htl, Nat.sub_diag. done. }
  eapply does_ext.
  { intros m Hm. rewrite (amap_has m _ a r parent k Hm), Hp, Hpar, Hw. cbn [mbind outcome_bind].
    rewrite (amap_get m _ a r parent k Hm), Hp, Hpar, Hw. cbn [mbind outcome_bind]. reflexivity. }
  destruct (w <? N.of_nat (anum (tgt r) a))%N eqn:Ew.
  - eapply does_aeq.
    + apply does_Insert with q; [done| |lia]. unfold also. rewrite decide_True by done. cbn [with_row ac_rel]. rewrite upd_fun_eq.
      rewrite app_length, take_length, replicate_length. lia.
    + apply amap_ext. intros d i y Hy. unfold also. destruct (decide (d = src r /\ i = child)) as [[-> ->]|E]; [|apply ceq_refl].
      rewrite Hnext. unfold ceq. split_and!; [done..| |done]. intros r'.
      cbn [with_row ac_rel]. rewrite upd_fun_eq. unfold upd_fun. by case_decide.
  - eapply does_aeq; [apply does_ret|]. unfold g. apply amap_ext. intros d i y Hy. unfold also.
    destruct (decide (d = src r /\ i = child)) as [[-> ->]|E]; [|apply ceq_refl]. rewrite Hnext.
    rewrite (list_insert_id _ k UINT_MAX); [apply ceq_refl|]. rewrite lookup_app_r by (rewrite take_length; lia).
    rewrite take_length. apply lookup_replicate_2. lia.
Qed.

Definition adopted (d : dim) (parent child : nat) (mk : N) (F : cellfun) : cellfun :=
  also (also (also (also F d child (with_mark mk)) d child (with_act true)) d parent (upd_with child)) d child (orig_with d parent).

Lemma adopt_ok d parent child p F a :
  am_cells a d !! parent = Some p -> child < anum d a ->
  does (adopt d parent child) (amap F a) (amap (adopted d parent child (ac_mark (F d parent p)) F) a).
Proof.
  intros Hp Hc. assert (Hpl : parent < anum d a) by (by eapply lookup_lt_Some). unfold adopt. eapply does_ext.
  { intros m [_ H]. rewrite (g_marker _ _ H). unfold look. rewrite amap_lookup, Hp. cbn [fmap option_fmap option_map mbind outcome_bind]. reflexivity. }
  eapply does_bind; [apply does_Marker; done|]. eapply does_bind; [apply does_State; done|].
  by apply does_Updated.
Qed.
