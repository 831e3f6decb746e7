(** Lemmas about [CsrModel]: every helper commutes with the list-of-rows view. *)
From Verif Require Import Base BaseProof CsrModel CsrSpec.
From Coq Require Import ZifyBool ZifyNat ZifyN.

(** ** Rows, offsets, concatenation *)

Lemma row_ends_length {A} o (rows : list (list A)) :
  length (row_ends o rows) = length rows + 1.
Proof. revert o. induction rows as [|r rows IH]; intros o; cbn; [done|]. rewrite IH. lia. Qed.

Lemma concat_take_S {A} (rows : list (list A)) i r :
  rows !! i = Some r -> concat (take (S i) rows) = concat (take i rows) ++ r.
Proof.
  intros H. rewrite (take_S_r _ _ r) by done. rewrite concat_app. cbn. by rewrite app_nil_r.
Qed.

Lemma row_ends_lookup {A} o (rows : list (list A)) i :
  i <= length rows -> row_ends o rows !! i = Some (o + length (concat (take i rows))).
Proof.
  revert o i. induction rows as [|r rows IH]; intros o i Hi.
  - destruct i; cbn in *; [f_equal; lia|lia].
  - destruct i; cbn; [f_equal; lia|]. rewrite IH by (cbn in Hi; lia).
    f_equal. rewrite app_length. lia.
Qed.

Lemma row_ends_app {A} o (rows1 rows2 : list (list A)) :
  row_ends o (rows1 ++ rows2) = take (length rows1) (row_ends o rows1) ++ row_ends (o + length (concat rows1)) rows2.
Proof.
  revert o. induction rows1 as [|r rows IH]; intros o; cbn.
  - f_equal. lia.
  - f_equal. rewrite IH. f_equal. f_equal. rewrite app_length. lia.
Qed.

Lemma concat_length_le {A} (rows : list (list A)) i :
  length (concat (take i rows)) <= length (concat rows).
Proof.
  rewrite <- (take_drop i rows) at 2. rewrite concat_app, app_length. lia.
Qed.

Lemma concat_split {A} (rows : list (list A)) i r :
  rows !! i = Some r ->
  concat rows = concat (take i rows) ++ r ++ concat (drop (S i) rows).
Proof.
  intros H. rewrite <- (take_drop_middle _ _ _ H) at 1. rewrite concat_app. done.
Qed.

Lemma concat_lookup {A} (rows : list (list A)) i r k :
  rows !! i = Some r -> k < length r ->
  concat rows !! (length (concat (take i rows)) + k) = r !! k.
Proof.
  intros H Hk. rewrite (concat_split _ _ _ H).
  rewrite lookup_app_r by lia. rewrite lookup_app_l by lia. f_equal. lia.
Qed.

(** ** Representation *)

Lemma rep_off {A} (c : csr A) rows i :
  csr_rep c rows -> i <= length rows ->
  vget (coff c) i = Ok (length (concat (take i rows))).
Proof.
  intros [-> _] Hi. apply vget_ok. rewrite row_ends_lookup by done. done.
Qed.

Lemma rep_off_S {A} (c : csr A) rows i r :
  csr_rep c rows -> rows !! i = Some r ->
  vget (coff c) (i + 1) = Ok (length (concat (take i rows)) + length r).
Proof.
  intros Hc Hr. pose proof (lookup_lt_Some _ _ _ Hr).
  rewrite (rep_off c rows) by (done || lia).
  replace (i + 1) with (S i) by lia. rewrite (concat_take_S _ _ r) by done.
  by rewrite app_length.
Qed.

Lemma rep_unique {A} (c : csr A) rows1 rows2 :
  csr_rep c rows1 -> csr_rep c rows2 -> rows1 = rows2.
Proof.
  intros [H1 H2] [H3 H4].
  assert (forall (rows1 rows2 : list (list A)) o, row_ends o rows1 = row_ends o rows2 -> concat rows1 = concat rows2 -> rows1 = rows2) as HH.
  { clear. induction rows1 as [|r1 rows1 IH]; intros [|r2 rows2] o H1 H2; cbn in *; try done.
    - injection H1 as H1. apply (f_equal length) in H1. rewrite row_ends_length in H1. cbn in H1. lia.
    - injection H1 as H1. apply (f_equal length) in H1. rewrite row_ends_length in H1. cbn in H1. lia.
    - injection H1 as H1.
      assert (o + length r1 = o + length r2) as Hl.
      { apply (f_equal (fun l => l !! 0)) in H1. rewrite !row_ends_lookup in H1 by lia. cbn in H1.
        injection H1. lia. }
      assert (length r1 = length r2) as Hl' by lia.
      apply app_inj_1 in H2 as [-> H2]; [|done].
      f_equal. eapply IH; [|done]. exact H1. }
  eapply (HH _ _ 0); congruence.
Qed.

Lemma rep_empty {A} : csr_rep (@csr_empty A) [].
Proof. done. Qed.

(** A representation exists iff the documented sizes hold. *)
Lemma rep_shape {A} (c : csr A) rows : csr_rep c rows -> csr_shape (length rows) c.
Proof.
  intros [Ho Hv]. unfold csr_shape. rewrite Ho, Hv. split_and!.
  - apply row_ends_length.
  - by rewrite row_ends_lookup by lia.
  - intros i a b Ha Hb.
    assert (i + 1 < length (row_ends 0 rows)) by (by eapply lookup_lt_Some).
    rewrite row_ends_length in *.
    rewrite row_ends_lookup in Ha, Hb by lia. injection Ha as <-. injection Hb as <-.
    replace (take i rows) with (take i (take (i + 1) rows)).
    + apply (concat_length_le (take (i+1) rows) i).
    + rewrite take_take. f_equal. lia.
  - rewrite row_ends_lookup by lia. by rewrite firstn_all.
Qed.

Lemma off_rows {A} (off : list nat) (vals : list A) o n :
  length off = n + 1 -> off !! 0 = Some o ->
  (forall i a b, off !! i = Some a -> off !! (i + 1) = Some b -> a <= b) ->
  off !! n = Some (o + length vals) ->
  exists rows, length rows = n /\ off = row_ends o rows /\ vals = concat rows.
Proof.
  revert off vals o. induction n as [|n IH]; intros off vals o Hl H0 Hm Hn.
  - destruct off as [|o' [|? ?]]; try (cbn in Hl; lia). cbn in *.
    injection H0 as ->. injection Hn as Hn. exists []. cbn.
    destruct vals; [done|cbn in *; lia].
  - destruct off as [|o' [|o1 off]]; try (cbn in Hl; lia). cbn in H0. injection H0 as ->.
    assert (o <= o1) by (apply (Hm 0); done).
    assert (Hge : forall (k : nat) (off : list nat) (a : nat), (forall i a b, off !! i = Some a -> off !! (i + 1) = Some b -> a <= b) ->
                    off !! k = Some a -> forall z, off !! 0 = Some z -> z <= a).
    { clear. induction k as [|k IHk]; intros off a Hm Ha z Hz.
      - rewrite Ha in Hz. injection Hz as ->. lia.
      - destruct (off !! k) as [b|] eqn:Hb.
        + transitivity b; [eapply IHk; eauto|]. eapply Hm; eauto. by replace (k+1) with (S k) by lia.
        + apply lookup_ge_None in Hb. apply lookup_lt_Some in Ha. lia. }
    change ((o1 :: off) !! n = Some (o + length vals)) in Hn.
    destruct (IH (o1 :: off) (drop (o1 - o) vals) o1) as (rows & Hr1 & Hr2 & Hr3).
    + cbn in *. lia.
    + done.
    + intros i a b Ha Hb. apply (Hm (S i)); done.
    + rewrite Hn. f_equal. rewrite drop_length.
      assert (o1 <= o + length vals).
      { eapply (Hge n (o1 :: off)); [|exact Hn|done]. intros i a b Ha Hb. apply (Hm (S i)); done. }
      lia.
    + exists (take (o1 - o) vals :: rows).
      assert (o1 <= o + length vals).
      { eapply (Hge n (o1 :: off)); [|exact Hn|done]. intros i a b Ha Hb. apply (Hm (S i)); done. }
      split_and!.
      * cbn. lia.
      * cbn. f_equal. rewrite Hr2. f_equal. rewrite take_length. lia.
      * cbn. rewrite <- Hr3. by rewrite take_drop.
Qed.

Lemma shape_rep {A} (c : csr A) n :
  csr_shape n c -> exists rows, length rows = n /\ csr_rep c rows.
Proof.
  intros (H1 & H2 & H3 & H4).
  destruct (off_rows (coff c) (cval c) 0 n) as (rows & ? & ? & ?); auto.
  exists rows. done.
Qed.

(** ** Reading *)

Lemma csr_count_spec {A} (c : csr A) rows i r :
  csr_rep c rows -> rows !! i = Some r ->
  csr_count c i = Ok (N.of_nat (length r)).
Proof.
  intros Hc Hr. unfold csr_count. pose proof (lookup_lt_Some _ _ _ Hr).
  rewrite (rep_off c rows i) by (done || lia). rewrite bind_Ok.
  rewrite (rep_off_S c rows i r) by done. rewrite bind_Ok. f_equal.
  destruct (_ <=? _) eqn:E; lia.
Qed.

Lemma csr_get_spec {A} (c : csr A) rows i r k :
  csr_rep c rows -> rows !! i = Some r -> k < length r ->
  csr_get c i k = vget r k.
Proof.
  intros Hc Hr Hk. unfold csr_get. pose proof (lookup_lt_Some _ _ _ Hr).
  rewrite (rep_off c rows i) by (done || lia). rewrite bind_Ok.
  destruct Hc as [_ ->]. unfold vget. by rewrite (concat_lookup rows i r).
Qed.

(** ** Writing one slot *)

Lemma concat_insert {A} (rows : list (list A)) i r r' :
  rows !! i = Some r ->
  concat (<[i := r']> rows) = concat (take i rows) ++ r' ++ concat (drop (S i) rows).
Proof.
  intros H. rewrite (insert_take_drop rows i r') by (by eapply lookup_lt_Some).
  by rewrite concat_app.
Qed.

Lemma row_ends_insert_same {A} o (rows : list (list A)) i r r' :
  rows !! i = Some r -> length r' = length r ->
  row_ends o (<[i := r']> rows) = row_ends o rows.
Proof.
  revert o i. induction rows as [|r0 rows IH]; intros o i H Hl; [done|].
  destruct i; cbn in *.
  - injection H as ->. by rewrite Hl.
  - f_equal. by apply IH.
Qed.

Lemma csr_set_spec {A} (c : csr A) rows i r k v :
  csr_rep c rows -> rows !! i = Some r -> k < length r ->
  exists c', csr_set c i k v = Ok c' /\ csr_rep c' (<[i := <[k := v]> r]> rows).
Proof.
  intros Hc Hr Hk. unfold csr_set. pose proof (lookup_lt_Some _ _ _ Hr).
  rewrite (rep_off c rows i) by (done || lia). rewrite bind_Ok.
  destruct Hc as [Ho Hv].
  assert (length (concat (take i rows)) + k < length (cval c)).
  { rewrite Hv, (concat_split _ _ _ Hr), !app_length. lia. }
  unfold vset. rewrite decide_True by done. rewrite bind_Ok. eexists. split; [done|].
  split; cbn.
  - rewrite Ho. symmetry. eapply row_ends_insert_same; [done|]. by rewrite insert_length.
  - rewrite Hv, (concat_split _ _ _ Hr), (concat_insert _ _ _ _ Hr).
    rewrite insert_app_r. f_equal. by rewrite insert_app_l.
Qed.

(** ** Bulk initialisation *)

Lemma pieces_length {A} cnt (l : list A) : length (pieces cnt l) = length cnt.
Proof. revert l. induction cnt as [|n cnt IH]; intros l; cbn; [done|]. by rewrite IH. Qed.

Lemma pieces_concat {A} cnt (l : list A) :
  length l = sum_list cnt -> concat (pieces cnt l) = l.
Proof.
  revert l. induction cnt as [|n cnt IH]; intros l Hl; cbn in *.
  - by destruct l.
  - rewrite IH; [apply take_drop|]. rewrite drop_length. lia.
Qed.

Lemma offsets_from_pieces {A} o cnt (l : list A) :
  length l = sum_list cnt -> offsets_from o cnt = row_ends o (pieces cnt l).
Proof.
  revert o l. induction cnt as [|n cnt IH]; intros o l Hl; cbn in *; [done|].
  f_equal. rewrite take_length. replace (n `min` length l) with n by lia.
  apply IH. rewrite drop_length. lia.
Qed.

Lemma rep_first_offset {A} (c : csr A) rows : csr_rep c rows -> first_offset (coff c) = 0.
Proof. intros [-> _]. by destruct rows. Qed.

Lemma csr_init_spec {A} (c : csr A) rows cnt d :
  csr_rep c rows ->
  csr_rep (csr_init c cnt d) (pieces cnt (vresize (concat rows) (sum_list cnt) d)).
Proof.
  intros Hc. unfold csr_init. rewrite (rep_first_offset _ _ Hc). destruct Hc as [Ho Hv].
  split; cbn.
  - apply offsets_from_pieces. apply vresize_length.
  - rewrite pieces_concat; [by rewrite Hv|]. apply vresize_length.
Qed.

Lemma sum_list_replicate n k : sum_list (replicate n k) = n * k.
Proof. induction n; cbn; lia. Qed.

Lemma csr_init_const_spec {A} (c : csr A) rows n k d :
  csr_rep c rows ->
  csr_rep (csr_init_const c n k d) (pieces (replicate n k) (vresize (concat rows) (n * k) d)).
Proof.
  intros Hc. rewrite <- sum_list_replicate. unfold csr_init_const.
  rewrite <- (sum_list_replicate n k). by apply (csr_init_spec c rows (replicate n k) d).
Qed.

(** On an attribute without any value yet, initialising gives rows of defaults. *)
Lemma pieces_replicate {A} cnt (d : A) :
  pieces cnt (replicate (sum_list cnt) d) = (fun n => replicate n d) <$> cnt.
Proof.
  induction cnt as [|n cnt IH]; cbn; [done|]. f_equal.
  - rewrite take_replicate. f_equal. lia.
  - rewrite drop_replicate. rewrite <- IH. f_equal. f_equal. lia.
Qed.

Lemma init_rows_empty {A} (rows : list (list A)) cnt d :
  Forall (fun r => r = []) rows ->
  pieces cnt (vresize (concat rows) (sum_list cnt) d) = (fun n => replicate n d) <$> cnt.
Proof.
  intros H. assert (concat rows = []) as ->.
  { induction H as [|r rows -> _ IH]; done. }
  unfold vresize. rewrite take_nil. cbn. rewrite Nat.sub_0_r. apply pieces_replicate.
Qed.

(** ** Growing the offsets *)

Lemma row_ends_replicate_nil {A} o n : row_ends o (replicate n (@nil A)) = replicate (S n) o.
Proof.
  revert o. induction n as [|n IH]; intros o; cbn; [done|]. f_equal.
  rewrite Nat.add_0_r. apply IH.
Qed.

Lemma concat_replicate_nil {A} n : concat (replicate n (@nil A)) = [].
Proof. induction n; done. Qed.

Lemma all_nil_replicate {A} (rows : list (list A)) :
  Forall (fun r => r = []) rows -> rows = replicate (length rows) [].
Proof. induction 1 as [|r rows -> _ IH]; cbn; [done|]. by rewrite <- IH. Qed.

Lemma csr_grow_spec {A} (c : csr A) rows n :
  csr_rep c rows -> Forall (fun r => r = []) rows ->
  csr_rep (csr_grow c n) (replicate n []).
Proof.
  intros [Ho Hv] Hr. apply all_nil_replicate in Hr. rewrite Hr in Ho, Hv.
  rewrite row_ends_replicate_nil in Ho. rewrite concat_replicate_nil in Hv.
  split; cbn.
  - rewrite Ho, row_ends_replicate_nil. unfold vresize.
    change (0 :: replicate (length rows) 0) with (replicate (S (length rows)) 0).
    rewrite take_replicate, replicate_length, <- replicate_add. f_equal. lia.
  - by rewrite Hv, concat_replicate_nil.
Qed.

Lemma csr_grow_same {A} (c : csr A) rows n :
  csr_rep c rows -> n = length rows -> csr_grow c n = c.
Proof.
  intros [Ho Hv] ->. unfold csr_grow. destruct c as [off vals]; cbn in *. f_equal.
  assert (length off = length rows + 1) as Hl by (rewrite Ho; apply row_ends_length).
  unfold vresize. rewrite <- Hl, firstn_all, Nat.sub_diag. cbn. by rewrite app_nil_r.
Qed.

(** ** Appending cells *)

Lemma append_loop (off : list nat) (N o k n : nat) :
  off !! N = Some o -> length off = N + 1 + k + n ->
  ofold (fun off k => o ← vget off N; vset off (N + k + 1) o) (seq k n)
        off
  = Ok (take (N + 1 + k) off ++ replicate n o).
Proof.
  revert off k. induction n as [|n IH]; intros off k Ho Hl; cbn.
  - f_equal. rewrite app_nil_r. rewrite take_ge; [done|lia].
  - rewrite (vget_Ok _ _ _ Ho), bind_Ok, vset_Ok by lia.
    rewrite bind_Ok. rewrite IH.
    + f_equal. replace (N + 1 + S k) with (S (N + k + 1)) by lia.
      rewrite (take_S_r _ _ o) by (rewrite list_lookup_insert by lia; done).
      rewrite take_insert by lia. rewrite <- app_assoc. cbn. f_equal. f_equal. lia.
    + rewrite list_lookup_insert_ne by lia. done.
    + rewrite insert_length. lia.
Qed.

Lemma csr_append_spec {A} (c : csr A) rows n :
  csr_rep c rows ->
  exists c', csr_append c (length rows) n = Ok c' /\ csr_rep c' (rows ++ replicate n []).
Proof.
  intros [Ho Hv]. unfold csr_append.
  rewrite (append_loop _ (length rows) (length (concat rows)) 0 n).
  - rewrite bind_Ok. eexists. split; [done|]. split; cbn.
    + rewrite Ho, row_ends_app, row_ends_replicate_nil.
      rewrite take_app_le by (rewrite row_ends_length; lia).
      rewrite Nat.add_0_r. replace (length rows + 1) with (length (row_ends 0 rows)) by apply row_ends_length.
      rewrite firstn_all.
      rewrite <- (take_drop (length rows) (row_ends 0 rows)) at 1.
      rewrite <- app_assoc. f_equal.
      rewrite (drop_S _ (length (concat rows))).
      * rewrite drop_ge by (rewrite row_ends_length; lia). done.
      * rewrite row_ends_lookup by lia. by rewrite firstn_all.
    + rewrite concat_app, concat_replicate_nil, app_nil_r. done.
  - rewrite Ho. rewrite lookup_app_l by (rewrite row_ends_length; lia).
    rewrite row_ends_lookup by lia. by rewrite firstn_all.
  - rewrite app_length, replicate_length, Ho, row_ends_length. lia.
Qed.

(** ** Resizing one row *)

Lemma shift_row_ends {A} o (rows : list (list A)) i r r' N k :
  rows !! i = Some r ->
  (forall j, j < length rows + 1 -> k + j <= N) ->
  imap (fun j o => if (k + i <? k + j) && (k + j <=? N) then o + length r' - length r else o) (row_ends o rows)
  = row_ends o (<[i := r']> rows).
Proof.
  intros Hr HN. apply list_eq. intros j. rewrite list_lookup_imap.
  pose proof (lookup_lt_Some _ _ _ Hr).
  destruct (decide (j <= length rows)) as [Hj|Hj].
  - rewrite !row_ends_lookup by (rewrite ?insert_length; lia). cbn [fmap option_fmap option_map].
    specialize (HN j).
    destruct (decide (i < j)).
    + replace ((k + i <? k + j) && (k + j <=? N)) with true by lia. f_equal.
      rewrite take_insert_lt by lia.
      assert (take j rows !! i = Some r) as Hr' by (rewrite lookup_take by lia; done).
      rewrite (concat_insert _ _ r r') by done. rewrite (concat_split _ _ _ Hr').
      rewrite !app_length. lia.
    + replace ((k + i <? k + j) && (k + j <=? N)) with false by lia. f_equal.
      rewrite take_insert by lia. done.
  - rewrite !lookup_ge_None_2 by (rewrite row_ends_length, ?insert_length; lia). done.
Qed.

Lemma shift_offsets_spec {A} (rows : list (list A)) i r r' :
  rows !! i = Some r ->
  shift_offsets (row_ends 0 rows) (length rows) i (length r') (length r)
  = row_ends 0 (<[i := r']> rows).
Proof.
  intros Hr. unfold shift_offsets.
  rewrite <- (shift_row_ends 0 rows i r r' (length rows) 0); [done|done|lia].
Qed.

Lemma csr_resize_row_spec {A} (c : csr A) rows i r new d :
  csr_rep c rows -> rows !! i = Some r ->
  exists c', csr_resize_row c (length rows) i new d = Ok c' /\
             csr_rep c' (<[i := vresize r new d]> rows).
Proof.
  intros Hc Hr. pose proof (lookup_lt_Some _ _ _ Hr) as Hi.
  unfold csr_resize_row.
  rewrite (rep_off c rows i) by (done || lia). rewrite bind_Ok.
  rewrite (rep_off_S c rows i r) by done. rewrite bind_Ok.
  rewrite (rep_off c rows (length rows)) by (done || lia). rewrite bind_Ok.
  set (lo := length (concat (take i rows))) in *.
  destruct (lo + length r <? lo) eqn:E; [lia|clear E].
  replace (lo + length r - lo) with (length r) by lia.
  destruct Hc as [Ho Hv]. cbn zeta.
  assert (shift_offsets (coff c) (length rows) i new (length r) = row_ends 0 (<[i:=vresize r new d]> rows)) as ->.
  { rewrite Ho. rewrite <- (shift_offsets_spec rows i r (vresize r new d)) by done.
    by rewrite vresize_length. }
  unfold vget. rewrite row_ends_lookup by (rewrite insert_length; lia).
  rewrite bind_Ok. rewrite firstn_all, Nat.add_0_l.
  rewrite (firstn_all2 (<[i:=_]> rows)) by (rewrite insert_length; lia).
  assert (length (concat rows) = lo + length r + length (concat (drop (S i) rows))) as Hlen.
  { rewrite (concat_split _ _ _ Hr), !app_length. unfold lo. lia. }
  assert (length (concat (<[i:=vresize r new d]> rows)) = lo + new + length (concat (drop (S i) rows))) as Hlen'.
  { rewrite (concat_insert _ _ _ _ Hr), !app_length, vresize_length. unfold lo. lia. }
  destruct (length r <? new) eqn:En.
  - unfold vrotate. rewrite decide_True.
    + rewrite bind_Ok. eexists. split; [done|]. split; cbn [coff cval]; [done|].
      rewrite Hlen'. rewrite (concat_insert _ _ _ _ Hr). rewrite Hv.
      rewrite (concat_split _ _ _ Hr).
      set (P := concat (take i rows)) in *. set (S' := concat (drop (S i) rows)) in *.
      assert (vresize (P ++ r ++ S') (lo + new + length S') d = (P ++ r) ++ S' ++ replicate (new - length r) d) as ->.
      { unfold vresize. rewrite take_ge by (rewrite !app_length; lia). rewrite !app_length.
        rewrite <- !app_assoc. do 4 f_equal. unfold S'. lia. }
      rewrite !app_length. fold lo.
      assert (take (lo + length r) ((P ++ r) ++ S' ++ replicate (new - length r) d) = P ++ r) as ->.
      { apply take_app_alt. rewrite app_length. lia. }
      assert (drop (lo + (length r + length S')) ((P ++ r) ++ S' ++ replicate (new - length r) d) = replicate (new - length r) d) as ->.
      { rewrite app_assoc. apply drop_app_alt. rewrite !app_length. lia. }
      assert (take (lo + (length r + length S')) ((P ++ r) ++ S' ++ replicate (new - length r) d) = (P ++ r) ++ S') as ->.
      { rewrite app_assoc. apply take_app_alt. rewrite !app_length. lia. }
      rewrite drop_app_alt by (rewrite app_length; lia).
      unfold vresize. rewrite take_ge by lia.
      by rewrite <- !app_assoc.
    + rewrite vresize_length. lia.
  - unfold verase_range. rewrite decide_True.
    + rewrite bind_Ok. eexists. split; [done|]. split; cbn [coff cval]; [done|].
      rewrite (concat_insert _ _ _ _ Hr), Hv, (concat_split _ _ _ Hr).
      set (P := concat (take i rows)) in *. set (S' := concat (drop (S i) rows)) in *.
      rewrite (take_app_ge P _ (lo + new)) by (fold lo; lia). fold lo.
      replace (lo + new - lo) with new by lia.
      rewrite take_app_le by lia.
      rewrite (drop_app_ge P _ (lo + length r)) by (fold lo; lia). fold lo.
      replace (lo + length r - lo) with (length r) by lia. rewrite drop_app.
      unfold vresize. replace (new - length r) with 0 by lia. cbn. rewrite app_nil_r.
      by rewrite <- app_assoc.
    + rewrite Hv. lia.
Qed.

Lemma row_ends_delete {A} o (rows : list (list A)) i :
  rows !! i = Some [] ->
  delete i (row_ends o rows) = row_ends o (delete i rows).
Proof.
  revert o i. induction rows as [|r rows IH]; intros o i Hi; [done|].
  destruct i as [|i]; cbn in *.
  - injection Hi as ->. by rewrite Nat.add_0_r.
  - f_equal. by apply IH.
Qed.

Lemma concat_delete_nil {A} (rows : list (list A)) i :
  rows !! i = Some [] -> concat (delete i rows) = concat rows.
Proof.
  intros H. rewrite (concat_split _ _ _ H), delete_take_drop, concat_app. done.
Qed.

Lemma csr_remove_row_spec {A} (c : csr A) rows i d :
  csr_rep c rows -> i < length rows ->
  exists c', csr_remove_row c (length rows) i d = Ok c' /\ csr_rep c' (delete i rows).
Proof.
  intros Hc Hi. destruct (lookup_lt_is_Some_2 rows i Hi) as [r Hr].
  unfold csr_remove_row.
  destruct (csr_resize_row_spec c rows i r 0 d Hc Hr) as (c1 & -> & Hc1).
  rewrite bind_Ok. destruct Hc1 as [Ho Hv].
  change (vresize r 0 d) with (@nil A) in *.
  assert (<[i:=[]]> rows !! i = Some []) as Hnil by (by rewrite list_lookup_insert).
  assert (delete i (<[i:=[]]> rows) = delete i rows) as Hdel.
  { rewrite !delete_take_drop. f_equal; [by rewrite take_insert|by rewrite drop_insert_gt by lia]. }
  unfold verase. rewrite decide_True.
  - rewrite bind_Ok. eexists. split; [done|]. split; cbn.
    + rewrite <- delete_take_drop, Ho, row_ends_delete by done. by rewrite Hdel.
    + rewrite Hv. rewrite <- Hdel. by rewrite concat_delete_nil.
  - rewrite Ho, row_ends_length, insert_length. lia.
Qed.

(** ** Renumbering *)

Lemma row_ends_fmap {A B} (f : A -> B) o (rows : list (list A)) :
  row_ends o (map_rows f rows) = row_ends o rows.
Proof. unfold map_rows. revert o. induction rows as [|r rows IH]; intros o; cbn; [done|]. by rewrite fmap_length, IH. Qed.

Lemma concat_fmap {A B} (f : A -> B) (rows : list (list A)) :
  concat (map_rows f rows) = f <$> concat rows.
Proof. unfold map_rows. induction rows as [|r rows IH]; cbn; [done|]. by rewrite fmap_app, IH. Qed.

Lemma csr_align_spec (c : csr N) rows a b :
  csr_rep c rows -> csr_rep (csr_align a b c) (map_rows (align1 a b) rows).
Proof.
  intros [Ho Hv]. split; cbn; [by rewrite row_ends_fmap|]. unfold align. by rewrite Hv, concat_fmap.
Qed.
