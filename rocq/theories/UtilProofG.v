(** Splitting a cell: the state after the split, and what the queries answer. *)
From Verif Require Import Base BaseProof CsrModel CsrSpec CsrProof MeshModel MeshSpec MeshRep MeshHist
  MeshProof MeshProof2 MeshProof3 MeshProof4 MeshProof5 MeshProof6 MeshProof7 MeshProof8 MeshProof9 MeshProofA MeshProofB
  MeshProofC MeshProofD MeshProofE MeshProg MeshWit UtilModel UtilSpec UtilProofA UtilProofB UtilProofC UtilProofD UtilProofF.
From Coq Require Import ZifyBool ZifyNat ZifyN.

(** The first child (of the first [k]) having [v]. *)
Fixpoint first_child (lst : nat -> list N) (v : N) (k : nat) : option nat :=
  match k with
  | 0 => None
  | S k => match first_child lst v k with
           | Some c => Some c
           | None => if decide (v ∈ lst k) then Some k else None
           end
  end.

Lemma first_child_find lst v k :
  list_find (fun row => v ∈ row) (lst <$> seq 0 k) = (fun c => (c, lst c)) <$> first_child lst v k.
Proof.
  induction k as [|k IH]; [done|]. rewrite seq_S, fmap_app. cbn [first_child plus].
  destruct (first_child lst v k) as [c|] eqn:E; cbn [fmap option_fmap option_map] in IH.
  - by rewrite (list_find_app_l _ _ _ _ _ IH).
  - rewrite list_find_app_r by done. cbn. rewrite fmap_length, seq_length.
    destruct (decide (v ∈ lst k)); cbn; [|done]. do 2 f_equal; lia.
Qed.

(** The redirected row after [k] children. *)
Definition rowk (parent n0 : nat) (lst : nat -> list N) (v : N) (k : nat) (l : list N) : list N :=
  (fun w => match first_child lst v k with
            | Some c => if (w =? N.of_nat parent)%N then N.of_nat (n0 + c) else w
            | None => w
            end) <$> l.

Lemma rowk_0 parent n0 lst v l : rowk parent n0 lst v 0 l = l.
Proof. unfold rowk. cbn. apply list_fmap_id. Qed.

Lemma rowk_in parent n0 lst v k l :
  parent < n0 -> v ∈ lst k -> repl parent (n0 + k) (rowk parent n0 lst v k l) = rowk parent n0 lst v (S k) l.
Proof.
  intros Hp Hv. unfold repl, rowk. rewrite <- list_fmap_compose. apply list_fmap_ext. intros i w _. cbn.
  destruct (first_child lst v k) as [c|].
  - destruct (w =? N.of_nat parent)%N eqn:E; [|by rewrite E]. by replace (N.of_nat (n0 + c) =? N.of_nat parent)%N with false by lia.
  - by rewrite decide_True.
Qed.

Lemma rowk_out parent n0 lst v k l : v ∉ lst k -> rowk parent n0 lst v k l = rowk parent n0 lst v (S k) l.
Proof.
  intros Hv. unfold rowk. cbn. destruct (first_child lst v k); [done|]. by rewrite decide_False.
Qed.

Section split.
Context (a : amesh) (d : dim) (parent n : nat) (p : acell).
Context (Hd : d <> D0) (Hp : am_cells a d !! parent = Some p).
Context (own : nat -> acell -> acell) (reds : list (rel * (nat -> list N))) (inhs : list rel).

Notation n0 := (anum d a).
Notation b := (aappend d n a).

Record split_ok : Prop := {
  so_own : forall k x, ac_mark (own k x) = ac_mark x /\ ac_act (own k x) = ac_act x /\ ac_orig (own k x) = ac_orig x /\
             ac_upd (own k x) = ac_upd x /\ ac_prop (own k x) = ac_prop x;
  so_inhs : forall r, r ∈ inhs -> src r = d /\ tgt r <> d /\ forall k x, ac_rel (own k x) r = ac_rel x r;
  so_inhs_nodup : NoDup inhs;
  so_reds : forall q, q ∈ reds -> src q.1 <> d /\ tgt q.1 = d;
  so_reds_nodup : NoDup (reds.*1)
}.
Context (Hok : split_ok).

Definition inh_row (r : rel) : list N := clean (anum (tgt r) a) (ac_rel p r).
Definition inh_cells (k : nat) (F : cellfun) (r : rel) : cellfun := also F d (n0 + k) (with_row r (inh_row r)).
Definition red_step (k : nat) (F : cellfun) (q : rel * (nat -> list N)) : cellfun := red_cells q.1 parent (n0 + k) (q.2 k) F.
Definition own_step (k : nat) (F : cellfun) : cellfun := adopted d parent (n0 + k) (ac_mark p) (also F d (n0 + k) (own k)).
Definition Fstep (k : nat) (F : cellfun) : cellfun := foldl (inh_cells k) (foldl (red_step k) (own_step k F) reds) inhs.

Fixpoint Fk (k : nat) : cellfun :=
  match k with
  | 0 => also keep d parent (with_act false)
  | S k => Fstep k (Fk k)
  end.

Lemma parent_lt : parent < n0.
Proof. by eapply lookup_lt_Some. Qed.

Lemma also_other F d' i f e j x : ~ (e = d' /\ j = i) -> also F d' i f e j x = F e j x.
Proof. intros H. unfold also. by rewrite decide_False. Qed.
Lemma also_here F d' i f x : also F d' i f d' i x = f (F d' i x).
Proof. unfold also. by rewrite decide_True. Qed.

(** Inheritance. *)
Lemma inh_other k e j x rs F : ~ (e = d /\ j = n0 + k) -> foldl (inh_cells k) F rs e j x = F e j x.
Proof.
  intros H. revert F. induction rs as [|r rs IH]; intros F; [done|]. cbn. rewrite IH. by apply also_other.
Qed.

Definition kid_rows (rs : list rel) (x : acell) : acell := foldl (fun y r => with_row r (inh_row r) y) x rs.

Lemma inh_here k x rs F : foldl (inh_cells k) F rs d (n0 + k) x = kid_rows rs (F d (n0 + k) x).
Proof.
  revert F. induction rs as [|r rs IH]; intros F; [done|]. cbn. rewrite IH. unfold inh_cells at 1. by rewrite also_here.
Qed.

Lemma kid_rows_frame rs x :
  ac_geo (kid_rows rs x) = ac_geo x /\ ac_mark (kid_rows rs x) = ac_mark x /\ ac_act (kid_rows rs x) = ac_act x /\
  ac_orig (kid_rows rs x) = ac_orig x /\ ac_upd (kid_rows rs x) = ac_upd x /\ ac_prop (kid_rows rs x) = ac_prop x.
Proof.
  revert x. induction rs as [|r rs IH]; intros x; [done|]. change (kid_rows (r :: rs) x) with (kid_rows rs (with_row r (inh_row r) x)). destruct (IH (with_row r (inh_row r) x)) as (->&->&->&->&->&->). done.
Qed.

Lemma kid_rows_out rs x r : r ∉ rs -> ac_rel (kid_rows rs x) r = ac_rel x r.
Proof.
  revert x. induction rs as [|r' rs IH]; intros x; [done|]. intros [Hne Hni]%not_elem_of_cons. cbn.
  fold (kid_rows rs (with_row r' (inh_row r') x)). rewrite IH by done. cbn. unfold upd_fun. rewrite decide_False; [done|congruence].
Qed.

Lemma kid_rows_in rs x r : NoDup rs -> r ∈ rs -> ac_rel (kid_rows rs x) r = inh_row r.
Proof.
  revert x. induction rs as [|r' rs IH]; intros x; [by intros _ ?%elem_of_nil|].
  intros [Hni Hnd]%NoDup_cons [->|Hin]%elem_of_cons; cbn; fold (kid_rows rs (with_row r' (inh_row r') x)).
  - rewrite kid_rows_out by done. cbn. by rewrite upd_fun_eq.
  - by apply IH.
Qed.

(** Redirection. *)
Lemma red_dim k i x qs F : (forall q, q ∈ qs -> src q.1 <> d) -> foldl (red_step k) F qs d i x = F d i x.
Proof.
  revert F. induction qs as [|q qs IH]; intros F Hq; [done|]. cbn. rewrite IH by (intros q' ?; apply Hq; by apply elem_of_cons; right).
  unfold red_step, red_cells. rewrite decide_False; [done|]. intros [E _]. apply (Hq q); [by apply elem_of_cons; left|done].
Qed.

Lemma red_frame k e i x qs F : let y := foldl (red_step k) F qs e i x in
  ac_geo y = ac_geo (F e i x) /\ ac_mark y = ac_mark (F e i x) /\ ac_act y = ac_act (F e i x) /\ ac_orig y = ac_orig (F e i x) /\
  ac_upd y = ac_upd (F e i x) /\ ac_prop y = ac_prop (F e i x).
Proof.
  revert F. induction qs as [|q qs IH]; intros F; [done|]. cbn. destruct (IH (red_step k F q)) as (->&->&->&->&->&->).
  unfold red_step, red_cells. by case_decide.
Qed.

Lemma red_out k e i x qs F r : r ∉ qs.*1 -> ac_rel (foldl (red_step k) F qs e i x) r = ac_rel (F e i x) r.
Proof.
  revert F. induction qs as [|q qs IH]; intros F; [done|]. cbn. intros [Hne Hni]%not_elem_of_cons. rewrite IH by done.
  unfold red_step, red_cells. case_decide; [|done]. cbn. unfold upd_fun. rewrite decide_False; [done|congruence].
Qed.

Lemma red_in k i x qs F q : NoDup (qs.*1) -> q ∈ qs ->
  ac_rel (foldl (red_step k) F qs (src q.1) i x) q.1 =
  if decide (N.of_nat i ∈ q.2 k) then repl parent (n0 + k) (ac_rel (F (src q.1) i x) q.1) else ac_rel (F (src q.1) i x) q.1.
Proof.
  revert F. induction qs as [|q' qs IH]; intros F; [by intros _ ?%elem_of_nil|].
  cbn. intros [Hni Hnd]%NoDup_cons [->|Hin]%elem_of_cons.
  - rewrite red_out by done. unfold red_step, red_cells. destruct (decide (N.of_nat i ∈ q'.2 k)) as [E|E].
    + rewrite decide_True by done. cbn. by rewrite upd_fun_eq.
    + rewrite decide_False; [done|]. by intros [_ ?].
  - rewrite IH by done. unfold red_step, red_cells.
    assert (q.1 <> q'.1). { intros E. apply Hni. rewrite <- E. by apply elem_of_list_fmap_1. }
    assert (Hr : forall l y, ac_rel (with_row q'.1 l y) q.1 = ac_rel y q.1).
    { intros l y. cbn. unfold upd_fun. rewrite decide_False; [done|congruence]. }
    destruct (decide (src q.1 = src q'.1 /\ N.of_nat i ∈ q'.2 k)); [|done]. by rewrite Hr.
Qed.

Lemma adopted_other child mk F e j x : ~ (e = d /\ j = parent) -> ~ (e = d /\ j = child) -> adopted d parent child mk F e j x = F e j x.
Proof. intros H1 H2. unfold adopted. by rewrite !also_other. Qed.
Lemma adopted_parent child mk F x : child <> parent -> adopted d parent child mk F d parent x = upd_with child (F d parent x).
Proof.
  intros H. unfold adopted. rewrite also_other by (intros [_ ?]; congruence). rewrite also_here. f_equal.
  by rewrite !also_other by (intros [_ ?]; congruence).
Qed.
Definition adopted_cell (mk : N) (y : acell) : acell := with_orig (N.of_nat parent) (with_act true (with_mark mk y)).
Lemma adopted_child child mk F x : child <> parent -> adopted d parent child mk F d child x = adopted_cell mk (F d child x).
Proof.
  intros H. unfold adopted, adopted_cell. rewrite also_here, also_other by (intros [_ ?]; congruence). rewrite !also_here.
  unfold orig_with. by rewrite decide_False.
Qed.

Lemma reds_src : forall q, q ∈ reds -> src q.1 <> d.
Proof. intros q Hq. apply (so_reds Hok q Hq). Qed.

(** The state before and inside step [k]. *)
Lemma Fk_parent k x : let y := Fk k d parent x in
  ac_geo y = ac_geo x /\ ac_mark y = ac_mark x /\ ac_act y = false /\ ac_orig y = ac_orig x /\
  (forall j, j ∈ default ∅ (ac_upd y) <-> j ∈ default ∅ (ac_upd x) \/ exists c, c < k /\ j = N.of_nat (n0 + c)) /\
  ac_prop y = ac_prop x /\ (forall r, ac_rel y r = ac_rel x r).
Proof.
  cbn zeta. pose proof parent_lt as Hpl. induction k as [|k IH].
  - cbn [Fk]. rewrite also_here. cbn. split_and!; [done..| |done|done]. intros j. split; [by left|]. intros [?|(c & ? & _)]; [done|lia].
  - cbn [Fk]. unfold Fstep. rewrite inh_other by (intros [_ ?]; lia). rewrite red_dim by apply reds_src.
    unfold own_step. rewrite adopted_parent by lia. rewrite also_other by (intros [_ ?]; lia).
    unfold upd_with. cbn [with_upd ac_geo ac_mark ac_act ac_orig ac_upd ac_prop ac_rel]. destruct IH as (->&->&->&->&Hu&->&Hr). split_and!; [done..| |done|done].
    intros j. cbn [default]. unfold default, from_option, id in *. rewrite elem_of_union, elem_of_singleton, Hu.
    split.
    + intros [->|[?|(c & Hc & ->)]]; [right|by left|right; exists c; split; [lia|done]]. exists k. split; [lia|done].
    + intros [?|(c & Hc & ->)]; [by right; left|]. destruct (decide (c = k)) as [->|]; [by left|].
      right. right. exists c. split; [lia|done].
Qed.

Lemma Fk_new k j x : k <= j -> Fk k d (n0 + j) x = x.
Proof.
  pose proof parent_lt as Hpl. induction k as [|k IH]; intros Hj; cbn [Fk].
  - rewrite also_other by (intros [_ ?]; lia). done.
  - unfold Fstep. rewrite inh_other by (intros [_ ?]; lia). rewrite red_dim by apply reds_src.
    unfold own_step. rewrite adopted_other by (intros [_ ?]; lia). rewrite also_other by (intros [_ ?]; lia). apply IH. lia.
Qed.

Lemma Fk_kid k j x : j < k -> Fk k d (n0 + j) x = kid_rows inhs (adopted_cell (ac_mark p) (own j x)).
Proof.
  pose proof parent_lt as Hpl. induction k as [|k IH]; intros Hj; [lia|]. cbn [Fk]. unfold Fstep.
  destruct (decide (j = k)) as [->|Hne].
  - rewrite inh_here, red_dim by apply reds_src. unfold own_step. rewrite adopted_child by lia. by rewrite also_here, Fk_new.
  - rewrite inh_other by (intros [_ ?]; lia). rewrite red_dim by apply reds_src.
    unfold own_step. rewrite adopted_other by (intros [_ ?]; lia). rewrite also_other by (intros [_ ?]; lia). apply IH. lia.
Qed.

Lemma Fk_old k e i x : ~ (e = d /\ (i = parent \/ n0 <= i)) -> let y := Fk k e i x in
  ac_geo y = ac_geo x /\ ac_mark y = ac_mark x /\ ac_act y = ac_act x /\ ac_orig y = ac_orig x /\
  ac_upd y = ac_upd x /\ ac_prop y = ac_prop x /\ (forall r, r ∉ reds.*1 -> ac_rel y r = ac_rel x r) /\
  (forall q, q ∈ reds -> src q.1 = e -> ac_rel y q.1 = rowk parent n0 q.2 (N.of_nat i) k (ac_rel x q.1)).
Proof.
  intros Hni. cbn zeta. pose proof parent_lt as Hpl. induction k as [|k IH]; cbn [Fk].
  - rewrite also_other by naive_solver. split_and!; [done..|]. intros q _ _. by rewrite rowk_0.
  - unfold Fstep. rewrite inh_other by (intros [? ?]; apply Hni; split; [done|lia]).
    assert (Hown : own_step k (Fk k) e i x = Fk k e i x).
    { unfold own_step. rewrite adopted_other; [|naive_solver|intros [? ?]; apply Hni; split; [done|lia]].
      apply also_other. intros [? ?]; apply Hni; split; [done|lia]. }
    destruct IH as (H1&H2&H3&H4&H5&H6&H7&H8).
    destruct (red_frame k e i x reds (own_step k (Fk k))) as (->&->&->&->&->&->). rewrite Hown.
    split_and!; [done..| |].
    + intros r Hr. rewrite red_out by done. rewrite Hown. by apply H7.
    + intros q Hq <-. rewrite (red_in k i x reds _ q (so_reds_nodup Hok) Hq). rewrite Hown, (H8 q Hq eq_refl).
      case_decide as E; [by apply rowk_in|by apply rowk_out].
Qed.

(** ** What the queries answer *)
Context (m m' : mesh) (Hm : rr m a) (Hm' : rr m' (amap (Fk n) b)).

Notation new := (new_cell d (length (am_names a d))).
Definition kid (c : nat) : acell := kid_rows inhs (adopted_cell (ac_mark p) (own c new)).

Lemma fin_old e i x : am_cells a e !! i = Some x -> am_cells (amap (Fk n) b) e !! i = Some (Fk n e i x).
Proof. intros Hx. rewrite amap_lookup, aappend_old by (by eapply lookup_lt_Some). by rewrite Hx. Qed.

Lemma fin_kid c : c < n -> am_cells (amap (Fk n) b) d !! (n0 + c) = Some (kid c).
Proof. intros Hc. rewrite amap_lookup, aappend_new by lia. cbn. by rewrite Fk_kid. Qed.

Lemma fin_num e : anum e (amap (Fk n) b) = anum e a + if decide (e = d) then n else 0.
Proof. by rewrite amap_num, aappend_num. Qed.

(** Old cells: fields other than neighbours. *)
Lemma fin_fields e i x : am_cells a e !! i = Some x -> let y := Fk n e i x in
  ac_geo y = ac_geo x /\ ac_mark y = ac_mark x /\ ac_act y = (if decide (e = d /\ i = parent) then false else ac_act x) /\
  ac_orig y = ac_orig x /\ ac_prop y = ac_prop x /\ (forall r, src r = e -> r ∉ reds.*1 -> ac_rel y r = ac_rel x r) /\
  (forall j, j ∈ default ∅ (ac_upd y) <->
     j ∈ default ∅ (ac_upd x) \/ (e = d /\ i = parent /\ exists c, c < n /\ j = N.of_nat (n0 + c))).
Proof.
  intros Hx. cbn zeta. pose proof (lookup_lt_Some _ _ _ Hx) as Hl. fold (anum e a) in Hl.
  destruct (decide (e = d /\ i = parent)) as [[-> ->]|E].
  - destruct (Fk_parent n x) as (->&->&->&->&Hu&->&Hr). split_and!; [done..|by intros; apply Hr|]. intros j. rewrite Hu. naive_solver.
  - destruct (Fk_old n e i x) as (->&->&->&->&->&->&Hr&_).
    { intros [-> [->|?]]; [by apply E|lia]. }
    split_and!; [done..|by intros; apply Hr|]. naive_solver.
Qed.

Lemma fin_look {B} e i (f : acell -> B) :
  i < anum e a -> (forall x, am_cells a e !! i = Some x -> f (Fk n e i x) = f x) ->
  look (amap (Fk n) b) e i f = look a e i f.
Proof.
  intros Hi H. destruct (lookup_lt_is_Some_2 (am_cells a e) i Hi) as [x Hx]. unfold look. rewrite (fin_old e i x Hx), Hx. by rewrite (H x Hx).
Qed.

Lemma split_frame_ok : split_frame d parent n m m'.
Proof.
  destruct Hm as [_ R], Hm' as [_ R']. split_and!.
  - by rewrite (r_dim _ _ R'), (r_dim _ _ R).
  - intros e. by rewrite (g_num _ _ R'), (g_num _ _ R), fin_num.
  - intros e i. rewrite (g_num _ _ R). intros Hi. rewrite (g_marker _ _ R'), (g_marker _ _ R). apply fin_look; [done|].
    intros x Hx. apply (fin_fields e i x Hx).
  - intros e i. rewrite (g_num _ _ R). intros Hi. rewrite (g_active _ _ R'), (g_active _ _ R).
    destruct (lookup_lt_is_Some_2 (am_cells a e) i Hi) as [x Hx]. unfold look. rewrite (fin_old e i x Hx), Hx.
    destruct (fin_fields e i x Hx) as (_&_&->&_). by case_decide.
  - intros i. rewrite (g_num _ _ R). intros Hi. rewrite (g_coord _ _ R'), (g_coord _ _ R). apply fin_look; [done|].
    intros x Hx. unfold geo_triple. by destruct (fin_fields D0 i x Hx) as (->&_).
  - intros e. rewrite (g_num _ _ R). intros Hi. rewrite (g_origin _ _ R'), (g_origin _ _ R), (g_end _ _ R'), (g_end _ _ R).
    split; apply fin_look; try done; intros x Hx; unfold geo_pair; by destruct (fin_fields D1 e x Hx) as (->&_).
  - intros e i He. rewrite (g_num _ _ R). intros Hi. rewrite (g_original _ _ R'), (g_original _ _ R) by done. apply fin_look; [done|].
    intros x Hx. apply (fin_fields e i x Hx).
  - intros e i q. rewrite (g_num _ _ R). intros Hi. destruct (lookup_lt_is_Some_2 (am_cells a e) i Hi) as [x Hx].
    destruct (fin_fields e i x Hx) as (_&_&_&_&Hpr&_).
    split; [rewrite (g_propsize _ _ R'), (g_propsize _ _ R)|intros z; rewrite (g_propvalue _ _ R'), (g_propvalue _ _ R)];
      rewrite (fin_old e i x Hx), Hx; rewrite amap_names; unfold aappend; cbn [with_cells am_names]; unfold prop_of; by rewrite Hpr.
  - intros e i j. rewrite (g_num _ _ R), (g_num _ _ R). intros Hi. destruct (lookup_lt_is_Some_2 (am_cells a e) i Hi) as [x Hx].
    destruct (fin_fields e i x Hx) as (_&_&_&_&_&_&Hu).
    rewrite (replaced_by_abs _ _ _ _ _ R'), (replaced_by_abs _ _ _ _ _ R), fin_num, (fin_old e i x Hx), Hx.
    assert (Hd' : forall (y : acell), (exists z s, Some y = Some z /\ ac_upd z = Some s /\ N.of_nat j ∈ s) <-> N.of_nat j ∈ (default ∅ (ac_upd y) : gset N)).
    { intros y. destruct (ac_upd y) as [s|] eqn:E; cbn.
      - split; [|by intros ?; exists y, s]. intros (z & s' & [= <-] & E' & ?). rewrite E in E'. by injection E' as <-.
      - split; [|by intros ?%elem_of_empty]. intros (z & s' & [= <-] & E' & ?). congruence. }
    rewrite (Hd' (Fk n e i x)), (Hd' x), Hu. split.
    + intros [Hj [Hin|(-> & -> & c & Hc & Hjc)]]; [left|right; split_and!; [done..|lia|lia]].
      split; [|done]. destruct (ac_upd x) as [s|] eqn:Eu; cbn in Hin; [|by apply elem_of_empty in Hin].
      apply (replaced_set m a e i x R Hx s Eu) in Hin as (j' & Hjj & Hr). apply (replaced_lt _ _ _ _ _ R) in Hr as [_ ?]. lia.
    + intros [[Hj Hin]|(-> & -> & Hj)]; [split; [lia|by left]|]. rewrite decide_True by done. split; [lia|]. right.
      split_and!; [done..|]. exists (j - n0). split; [lia|]. f_equal. lia.
Qed.

Lemma kid_fields c : ac_geo (kid c) = ac_geo (own c new) /\ ac_mark (kid c) = ac_mark p /\ ac_act (kid c) = true /\
  ac_orig (kid c) = N.of_nat parent /\ ac_upd (kid c) = None /\
  (forall r, r ∉ inhs -> ac_rel (kid c) r = ac_rel (own c new) r) /\ (forall r, r ∈ inhs -> ac_rel (kid c) r = inh_row r).
Proof.
  unfold kid. destruct (kid_rows_frame inhs (adopted_cell (ac_mark p) (own c new))) as (->&->&->&->&->&_).
  destruct (so_own Hok c new) as (_&_&_&Hu&_). split_and!; [done..| | |].
  - cbn. by rewrite Hu.
  - intros r Hr. by rewrite kid_rows_out.
  - intros r Hr. apply kid_rows_in; [apply (so_inhs_nodup Hok)|done].
Qed.

Lemma split_children_ok : split_children d parent n m m'.
Proof.
  destruct Hm as [_ R], Hm' as [_ R']. intros c Hc. cbn zeta. rewrite (g_num _ _ R). destruct (kid_fields c) as (_&H1&H2&H3&H4&_).
  rewrite (g_marker _ _ R'), (g_marker _ _ R), (g_active _ _ R'), (g_original _ _ R'), (g_hasupdateds _ _ R') by done.
  unfold look. rewrite (fin_kid c Hc), Hp, H1, H2, H3, H4. done.
Qed.

Lemma inherited_ok r : r ∈ inhs -> inherited r parent n m m'.
Proof.
  destruct Hm as [_ R], Hm' as [_ R']. intros Hr c Hc. destruct (so_inhs Hok r Hr) as (Hs & Ht & _). exists (ac_rel p r).
  rewrite (g_row _ _ R), (g_row _ _ R'), !(g_num _ _ R). unfold look. rewrite Hs, Hp, (fin_kid c Hc). split; [done|].
  f_equal. unfold row_of. destruct (kid_fields c) as (_&_&_&_&_&_&->); done.
Qed.

Lemma redirected_ok q : q ∈ reds -> redirected q.1 parent (q.2 <$> seq 0 n) m m'.
Proof.
  destruct Hm as [_ R], Hm' as [_ R']. intros Hq v. destruct (so_reds Hok q Hq) as (Hs & Ht). rewrite !(g_num _ _ R). intros Hv.
  destruct (lookup_lt_is_Some_2 (am_cells a (src q.1)) v Hv) as [x Hx].
  exists (ac_rel x q.1). rewrite (g_row _ _ R), (g_row _ _ R'). unfold look. rewrite (fin_old _ v x Hx), Hx. split; [done|].
  f_equal. unfold row_of. destruct (Fk_old n (src q.1) v x) as (_&_&_&_&_&_&_&Hrow); [by intros [? _]|].
  rewrite (Hrow q Hq eq_refl). unfold rowk. apply list_fmap_ext. intros i w _. rewrite first_child_find, Ht.
  by destruct (first_child q.2 (N.of_nat v) n).
Qed.

Lemma rows_kept r i : r ∉ reds.*1 -> i < num (src r) m -> RelRow r i m' = RelRow r i m.
Proof.
  destruct Hm as [_ R], Hm' as [_ R']. intros Hr. rewrite (g_num _ _ R). intros Hi. rewrite (g_row _ _ R), (g_row _ _ R').
  apply fin_look; [done|]. intros x Hx. unfold row_of. destruct (fin_fields _ i x Hx) as (_&_&_&_&_&Hrow&_). by apply Hrow.
Qed.

Lemma kid_row r c : src r = d -> r ∉ inhs -> c < n -> RelRow r (num d m + c) m' = Ok (ac_rel (own c new) r).
Proof.
  destruct Hm as [_ R], Hm' as [_ R']. intros Hs Hr Hc. rewrite (g_row _ _ R'), (g_num _ _ R). unfold look. rewrite Hs, (fin_kid c Hc).
  f_equal. unfold row_of. destruct (kid_fields c) as (_&_&_&_&_&H&_). by apply H.
Qed.

(** No double properties are stored for the new cells. *)
Lemma kid_props c q : c < n -> q < length (am_names a d) -> PropSize d (num d m + c) q m' = Ok 0%N.
Proof.
  destruct Hm as [_ R], Hm' as [_ R']. intros Hc Hq. rewrite (g_propsize _ _ R'), (g_num _ _ R), (fin_kid c Hc).
  rewrite amap_names. change (am_names b d) with (am_names a d). rewrite decide_True by done.
  unfold prop_of, kid. destruct (kid_rows_frame inhs (adopted_cell (ac_mark p) (own c new))) as (_&_&_&_&_&->).
  cbn. destruct (so_own Hok c new) as (_&_&_&_&->). cbn. rewrite (lookup_replicate_2 _ _ q) by done. done.
Qed.

(** ** The steps of one pass of the loop *)
Lemma b_num e : anum e a <= anum e b.
Proof. rewrite aappend_num. lia. Qed.
Lemma b_parent : am_cells b d !! parent = Some p.
Proof. rewrite aappend_old by apply parent_lt. done. Qed.
Lemma b_child c : c < n -> am_cells b d !! (n0 + c) = Some new.
Proof. intros Hc. apply aappend_new. lia. Qed.
Lemma b_child_lt c : c < n -> n0 + c < anum d b.
Proof. intros Hc. rewrite aappend_num, decide_True by done. lia. Qed.

End split.
