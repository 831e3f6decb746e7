From Verif Require Import Base BaseProof CutModel CutSpec.

(** ** Paths and cycles *)
Lemma path_app l x m : path (l ++ x :: m) = path (l ++ [x]) ++ path (x :: m).
Proof.
  induction l as [|y l IH]; [done|]. destruct l as [|z l]; [done|]. cbn [app path] in *. by rewrite IH.
Qed.
Lemma path_snoc l x y : path ((l ++ [x]) ++ [y]) = path (l ++ [x]) ++ [(x, y)].
Proof. rewrite <- app_assoc. cbn. by rewrite path_app. Qed.
Lemma cycle_split h1 l1 a h2 l2 b l3 L1 L2 : L1 = l1 ++ [a] -> L2 = l2 ++ [b] -> head L1 = Some h1 -> head L2 = Some h2 ->
  cycle (L1 ++ b :: l3) ++ cycle (L2 ++ [a]) ≡ₚ cycle (L1 ++ L2 ++ l3) ++ [(a, b); (b, a)].
Proof.
  intros E1 E2 H1 H2. destruct L1 as [|x1 L1]; [discriminate H1|]. destruct L2 as [|x2 L2]; [discriminate H2|]. injection H1 as ->. injection H2 as ->.
  unfold cycle. cbn [app]. rewrite !app_comm_cons. rewrite E1, E2.
  replace (((l1 ++ [a]) ++ b :: l3) ++ [h1]) with ((l1 ++ [a]) ++ b :: (l3 ++ [h1])) by (by rewrite <- !app_assoc).
  rewrite (path_app (l1 ++ [a]) b), (path_snoc l1 a b).
  replace (((l2 ++ [b]) ++ [a]) ++ [h2]) with ((l2 ++ [b]) ++ a :: [h2]) by (by rewrite <- !app_assoc). rewrite (path_app (l2 ++ [b]) a), (path_snoc l2 b a).
  assert (F : path (((l1 ++ [a]) ++ (l2 ++ [b]) ++ l3) ++ [h1]) = path (l1 ++ [a]) ++ [(a, h2)] ++ path (l2 ++ [b]) ++ path (b :: l3 ++ [h1])).
  { assert (G1 : ((l1 ++ [a]) ++ (l2 ++ [b]) ++ l3) ++ [h1] = (l1 ++ [a]) ++ h2 :: (L2 ++ l3 ++ [h1])).
    { rewrite <- E2, <- !(app_assoc (l1 ++ [a])). f_equal. cbn [app]. by rewrite <- app_assoc. }
    assert (G2 : h2 :: L2 ++ l3 ++ [h1] = l2 ++ b :: l3 ++ [h1]).
    { rewrite app_comm_cons, E2, <- app_assoc. done. }
    rewrite G1, (path_app (l1 ++ [a]) h2), (path_snoc l1 a h2), <- app_assoc, G2, (path_app l2 b). done. }
  rewrite F. cbn [path app]. rewrite <- !app_assoc. cbn [app]. solve_Permutation.
Qed.

Definition st (n j : nat) : nat * nat := (j, (j + 1) mod n).
Lemma path_seq n i k : i + k < n -> path (seq i (k + 1)) = st n <$> seq i k.
Proof.
  rewrite Nat.add_1_r. revert i. induction k as [|k IH]; intros i H; [done|]. specialize (IH (S i) ltac:(lia)).
  change (path (seq i (S (S k)))) with ((i, S i) :: path (seq (S i) (S k))). rewrite IH. cbn [seq fmap list_fmap]. f_equal.
  unfold st. rewrite Nat.mod_small by lia. f_equal. lia.
Qed.
Lemma path_seq_wrap n i k : i + k = n -> 0 < n -> path (seq i k ++ [0]) = st n <$> seq i k.
Proof.
  revert i. induction k as [|k IH]; intros i H Hn; [done|]. cbn [seq app fmap list_fmap]. destruct k as [|k].
  - cbn. unfold st. replace (i + 1) with n by lia. by rewrite Nat.mod_same by lia.
  - specialize (IH (S i) ltac:(lia) Hn). cbn [seq app fmap list_fmap path] in *. rewrite IH. f_equal. unfold st. rewrite Nat.mod_small by lia. f_equal. lia.
Qed.

(** ** Visited vertices *)
Definition marks (n : nat) (f : nat -> bool) : list bool := f <$> seq 0 n.
Lemma marks_length n f : length (marks n f) = n.
Proof. unfold marks. by rewrite fmap_length, seq_length. Qed.
Lemma marks_lookup n f i : i < n -> marks n f !! i = Some (f i).
Proof. intros H. unfold marks. rewrite list_lookup_fmap, lookup_seq_lt by lia. done. Qed.
Lemma marks_ext n f g : (forall i, i < n -> f i = g i) -> marks n f = marks n g.
Proof. intros H. unfold marks. apply list_fmap_ext. intros ? i ?. apply lookup_seq in H0 as [-> ?]. apply H. lia. Qed.
Lemma marks_set n f v : v < n -> vset (marks n f) v true = Ok (marks n (fun i => f i || (i =? v))).
Proof.
  intros H. unfold vset. rewrite marks_length. destruct (decide (v < n)); [|lia]. f_equal. apply list_eq. intros i.
  destruct (decide (i < n)) as [Hi|Hi].
  - rewrite (marks_lookup _ _ i) by done. destruct (decide (i = v)) as [-> |Hv].
    + rewrite list_lookup_insert by (by rewrite marks_length). by rewrite Nat.eqb_refl, orb_true_r.
    + rewrite list_lookup_insert_ne, marks_lookup by done. apply Nat.eqb_neq in Hv. by rewrite Hv, orb_false_r.
  - rewrite !lookup_ge_None_2; [done| |]; rewrite ?insert_length, marks_length; lia.
Qed.
Lemma first_false_seq f : forall n s, first_false (f <$> seq s n) s = find (fun i => negb (f i)) (seq s n).
Proof.
  induction n as [|n IH]; intros s; [done|]. cbn. destruct (f s); [|done]. cbn. rewrite <- IH. f_equal. lia.
Qed.
Lemma first_false_none n f : (forall i, i < n -> f i = true) -> first_false (marks n f) 0 = None.
Proof.
  intros H. unfold marks. rewrite first_false_seq. destruct (find _ _) as [x|] eqn:E; [|done]. apply find_some in E as [I B].
  apply in_seq in I. rewrite H in B by lia. done.
Qed.
Lemma first_false_some n f k : k < n -> (forall i, i < k -> f i = true) -> f k = false -> first_false (marks n f) 0 = Some k.
Proof.
  intros Hk H Hf. unfold marks. rewrite first_false_seq. replace n with (k + (1 + (n - k - 1))) by lia. rewrite !seq_app.
  assert (E : forall l m (P : nat -> bool), find P l = None -> find P (l ++ m) = find P m).
  { induction l as [|x l IH]; intros m P; [done|]. cbn. destruct (P x); [done|]. apply IH. }
  rewrite E; [cbn; by rewrite Hf|]. destruct (find _ _) as [x|] eqn:F; [|done]. apply find_some in F as [I B]. apply in_seq in I. rewrite H in B by lia. done.
Qed.

(** ** The walk *)
Section walk.
Context (inp : split_input).
Notation n := (number_vertices inp).
Context (first : bool).
Definition plain (v : nat) : Prop := visit inp first v = Visit [v] [v] [] [] ((v + 1) mod n).
Definition add_range (f : nat -> bool) (v k : nat) (i : nat) : bool := f i || ((v <=? i) && (i <? v + k)).

Lemma walk_run k : forall fuel start v p f nv ne, v + k < n -> (forall j, v <= j < v + k -> plain j) -> (forall j, v < j <= v + k -> j <> start) ->
  walk (k + fuel) inp first start v p (Walk (marks n f) nv ne) =
  walk fuel inp first start (v + k) (NewPolygon (new_vertices_of p ++ seq v k) (new_edges_of p ++ seq v k)) (Walk (marks n (add_range f v k)) nv ne).
Proof.
  induction k as [|k IH]; intros fuel start v p f nv ne Hv Hp Hs.
  - cbn [Nat.add seq]. rewrite Nat.add_0_r, !app_nil_r. destruct p; cbn. do 2 f_equal. apply marks_ext. intros i _. unfold add_range.
    destruct (Nat.leb_spec v i), (Nat.ltb_spec i (v + 0)); cbn; try lia; by rewrite orb_false_r.
  - cbn [Nat.add walk visited]. rewrite marks_set by lia. cbn [mbind outcome_bind]. rewrite (Hp v) by lia. cbn [visit_vertices visit_edges visit_news visit_new_edges visit_next insert_all fold_left walk_news walk_new_edges visited].
    rewrite Nat.mod_small by lia. destruct (Nat.eqb_spec (v + 1) start) as [E|_]; [exfalso; apply (Hs (v + 1)); lia|].
    rewrite IH; [|lia|intros; apply Hp; lia|intros; apply Hs; lia]. cbn [new_vertices_of new_edges_of]. rewrite <- !app_assoc. cbn [app seq].
    replace (v + 1 + k) with (v + S k) by lia. replace (v + 1) with (S v) by lia. do 2 f_equal. apply marks_ext. intros i _. unfold add_range.
    destruct (Nat.eqb_spec i v), (Nat.leb_spec (S v) i), (Nat.ltb_spec i (S v + k)), (Nat.leb_spec v i), (Nat.ltb_spec i (v + S k)); cbn; try lia;
      rewrite ?orb_false_r, ?orb_true_r; done.
Qed.
(** The last vertices of the polygon, back to vertex 0. *)
Lemma walk_last k : forall fuel v p f nv ne, 0 < v -> v + k = n -> 0 < k -> (forall j, v <= j < n -> plain j) ->
  walk (k + fuel) inp first 0 v p (Walk (marks n f) nv ne) =
  Ok (NewPolygon (new_vertices_of p ++ seq v k) (new_edges_of p ++ seq v k), Walk (marks n (add_range f v k)) nv ne).
Proof.
  intros fuel v p f nv ne H0 Hv Hk Hp. destruct k as [|k]; [lia|]. replace (S k + fuel) with (k + S fuel) by lia.
  rewrite walk_run; [|lia|intros; apply Hp; lia|intros; lia]. cbn [walk visited]. rewrite marks_set by lia. cbn [mbind outcome_bind]. rewrite (Hp (v + k)) by lia.
  cbn [visit_vertices visit_edges visit_news visit_new_edges visit_next insert_all fold_left walk_news walk_new_edges visited new_vertices_of new_edges_of].
  replace (v + k + 1) with n by lia. rewrite Nat.mod_same by lia. cbn [Nat.eqb]. rewrite <- !app_assoc.
  replace (seq v k ++ [v + k]) with (seq v (S k)) by (rewrite <- Nat.add_1_r, seq_app; done). do 3 f_equal. apply marks_ext. intros i _. unfold add_range.
  destruct (Nat.eqb_spec i (v + k)), (Nat.leb_spec v i), (Nat.ltb_spec i (v + k)), (Nat.ltb_spec i (v + S k)); cbn; try lia;
    rewrite ?orb_false_r, ?orb_true_r; done.
Qed.
End walk.

(** ** Two polygons from two special positions *)
Lemma create_two inp a b ra rb : let n := number_vertices inp in a < b < n ->
  (forall first v, v < n -> v <> a -> v <> b -> plain inp first v) ->
  visit inp true a = ra -> visit_next ra = (b + 1) mod n -> visit inp false b = rb -> visit_next rb = a + 1 ->
  create n inp 0 [] (Walk (replicate n false) ∅ ∅) =
  Ok ([NewPolygon (seq 0 a ++ visit_vertices ra ++ seq (b + 1) (n - b - 1)) (seq 0 a ++ visit_edges ra ++ seq (b + 1) (n - b - 1));
       NewPolygon (seq (a + 1) (b - a - 1) ++ visit_vertices rb) (seq (a + 1) (b - a - 1) ++ visit_edges rb)],
      Walk (replicate n true) (insert_all (visit_news rb) (insert_all (visit_news ra) ∅))
        (insert_all (visit_new_edges rb) (insert_all (visit_new_edges ra) ∅))).
Proof.
  intros n Hab Hp Ea Na Eb Nb. subst n.
  assert (R : forall c, replicate (number_vertices inp) c = marks (number_vertices inp) (fun _ => c)).
  { intros c. apply list_eq. intros i. destruct (decide (i < number_vertices inp)).
    - rewrite marks_lookup by done. by rewrite lookup_replicate_2.
    - rewrite !lookup_ge_None_2; [done|rewrite marks_length; lia|rewrite replicate_length; lia]. }
  set (n := number_vertices inp) in *. assert (Hn : exists m, n = S (S m)) by (exists (n - 2); lia). destruct Hn as [m Hm].
  rewrite R. replace n with (S (S m)) at 1 by done. cbn [create length Nat.eqb app]. change (number_vertices inp) with n.
  (* the first polygon *)
  assert (W1 : walk n inp true 0 0 (NewPolygon [] []) (Walk (marks n (fun _ => false)) ∅ ∅) =
    Ok (NewPolygon (seq 0 a ++ visit_vertices ra ++ seq (b + 1) (n - b - 1)) (seq 0 a ++ visit_edges ra ++ seq (b + 1) (n - b - 1)),
        Walk (marks n (fun i => (i <=? a) || (b <? i))) (insert_all (visit_news ra) ∅) (insert_all (visit_new_edges ra) ∅))).
  { replace n with (a + S (n - a - 1)) at 1 by lia. rewrite (walk_run inp true); [|change (number_vertices inp) with n; lia|intros; apply Hp; lia|intros; lia].
    change (number_vertices inp) with n. cbn [Nat.add walk visited]. rewrite marks_set by lia. cbn [mbind outcome_bind]. rewrite Ea, Na.
    cbn [new_vertices_of new_edges_of app visited walk_news walk_new_edges]. destruct (decide (b + 1 = n)) as [Hb|Hb].
    - rewrite Hb, Nat.mod_same by lia. cbn [Nat.eqb]. replace (n - b - 1) with 0 by lia. cbn [seq]. rewrite !app_nil_r. do 3 f_equal. apply marks_ext.
      intros i Hi. unfold add_range. cbn [orb Nat.add]. destruct (Nat.leb_spec 0 i), (Nat.eqb_spec i a), (Nat.ltb_spec i a), (Nat.leb_spec i a), (Nat.ltb_spec b i); cbn; lia || done.
    - rewrite Nat.mod_small by lia. destruct (Nat.eqb_spec (b + 1) 0); [lia|].
      replace (n - a - 1) with ((n - b - 1) + (b - a)) by lia. rewrite (walk_last inp true); [|lia|change (number_vertices inp) with n; lia|lia|].
      2:{ intros j Hj. fold n in Hj. apply Hp; lia. }
      change (number_vertices inp) with n. cbn [new_vertices_of new_edges_of]. rewrite <- !app_assoc. do 3 f_equal. apply marks_ext.
      intros i Hi. unfold add_range. cbn [orb Nat.add]. destruct (Nat.leb_spec 0 i), (Nat.eqb_spec i a), (Nat.ltb_spec i a), (Nat.leb_spec i a), (Nat.ltb_spec b i), (Nat.leb_spec (b + 1) i), (Nat.ltb_spec i (b + 1 + (n - b - 1))); cbn; lia || done. }
  rewrite W1. cbn [mbind outcome_bind visited]. rewrite (first_false_some n _ (a + 1)); [|lia| |].
  2:{ intros i Hi. destruct (Nat.leb_spec i a); [done|lia]. }
  2:{ destruct (Nat.leb_spec (a + 1) a); [lia|]. destruct (Nat.ltb_spec b (a + 1)); [lia|done]. }
  change (number_vertices inp) with n.
  assert (W2 : walk n inp false (a + 1) (a + 1) (NewPolygon [] []) (Walk (marks n (fun i => (i <=? a) || (b <? i))) (insert_all (visit_news ra) ∅) (insert_all (visit_new_edges ra) ∅)) =
    Ok (NewPolygon (seq (a + 1) (b - a - 1) ++ visit_vertices rb) (seq (a + 1) (b - a - 1) ++ visit_edges rb),
        Walk (marks n (fun _ => true)) (insert_all (visit_news rb) (insert_all (visit_news ra) ∅)) (insert_all (visit_new_edges rb) (insert_all (visit_new_edges ra) ∅)))).
  { replace n with ((b - a - 1) + S (n - (b - a))) at 1 by lia. rewrite (walk_run inp false); [|change (number_vertices inp) with n; lia|intros; apply Hp; lia|intros; lia].
    change (number_vertices inp) with n. replace (a + 1 + (b - a - 1)) with b by lia. cbn [Nat.add walk visited]. rewrite marks_set by lia. cbn [mbind outcome_bind]. rewrite Eb, Nb.
    rewrite Nat.eqb_refl. cbn [new_vertices_of new_edges_of app visited walk_news walk_new_edges]. do 3 f_equal. apply marks_ext. intros i Hi. unfold add_range.
    destruct (Nat.eqb_spec i b), (Nat.leb_spec i a), (Nat.ltb_spec b i), (Nat.leb_spec (a + 1) i), (Nat.ltb_spec i (a + 1 + (b - a - 1))); cbn; lia || done. }
  rewrite W2. cbn [mbind outcome_bind visited]. rewrite first_false_none by done. by rewrite R.
Qed.

(** ** Values of the maps *)
Lemma insert_all_other {A} (l : list (nat * A)) : forall m k, k ∉ l.*1 -> insert_all l m !! k = m !! k.
Proof.
  induction l as [|[j x] l IH]; intros m k H; [done|]. cbn in *. rewrite not_elem_of_cons in H. destruct H as [H1 H2].
  unfold insert_all in *. cbn. rewrite IH by done. rewrite lookup_insert_ne; done.
Qed.
Lemma insert_all_same {A} (l : list (nat * A)) m i k x : NoDup l.*1 -> l !! i = Some (k, x) -> insert_all l m !! k = Some x.
Proof.
  revert m i. induction l as [|[j y] l IH]; intros m i Hd H; [done|]. cbn in Hd. apply NoDup_cons in Hd as [Hj Hd]. destruct i as [|i].
  - cbn in H. injection H as -> ->. change (insert_all l (<[k := x]> m) !! k = Some x). rewrite insert_all_other by done. by rewrite lookup_insert.
  - cbn in H. change (insert_all l (<[j := y]> m) !! k = Some x). by apply (IH _ i).
Qed.
Lemma map_values_range {A} n K (l l0 : list (nat * A)) : length l <= K -> l.*1 = seq n (length l) -> l0.*1 = l.*1 ->
  map_values (n + K) (insert_all l (insert_all l0 ∅)) = l.*2.
Proof.
  intros HK Hl Hl0. unfold map_values. set (m := insert_all l (insert_all l0 ∅)).
  assert (N : forall k, k ∉ seq n (length l) -> m !! k = None).
  { intros k Hk. unfold m. rewrite !insert_all_other by (rewrite ?Hl0, ?Hl; done). done. }
  assert (Z : forall s c, (forall k, s <= k < s + c -> m !! k = None) -> omap (fun k => m !! k) (seq s c) = []).
  { intros s c. revert s. induction c as [|c IH]; intros s H; [done|]. cbn. rewrite H by lia. apply IH. intros. apply H. lia. }
  replace (n + K) with (n + (length l + (K - length l))) by lia. rewrite !seq_app, !omap_app. cbn [Nat.add].
  rewrite (Z 0 n), (Z (n + length l)). 2,3: intros k Hk; apply N; rewrite elem_of_seq; lia.
  rewrite app_nil_r. cbn [app].
  assert (D : NoDup l.*1) by (rewrite Hl; apply NoDup_seq).
  assert (G : forall i k x, l !! i = Some (k, x) -> m !! k = Some x) by (intros i k x H; by apply (insert_all_same l _ i)).
  rewrite <- Hl. clearbody m. clear - G. induction l as [|[k x] l IH]; [done|]. cbn. rewrite (G 0 k x) by done. f_equal. apply IH. intros i k' x' H. by apply (G (S i)).
Qed.

(** ** The two polygons *)
Lemma path_cons2 x y l : path (x :: y :: l) = (x, y) :: path (y :: l).
Proof. done. Qed.
Lemma cycle_first n a b ex B : a < b < n ->
  cycle (seq 0 (a + 1) ++ ex ++ B :: seq (b + 1) (n - b - 1)) =
  (st n <$> seq 0 a) ++ path (a :: ex ++ [B]) ++ (B, (b + 1) mod n) :: (st n <$> seq (b + 1) (n - b - 1)).
Proof.
  intros H. replace (seq 0 (a + 1)) with (seq 0 a ++ [a]) by (rewrite seq_app; done).
  assert (C : forall l, cycle ((seq 0 a ++ [a]) ++ l) = path (((seq 0 a ++ [a]) ++ l) ++ [0])).
  { intros l. unfold cycle. destruct a; done. }
  rewrite C. rewrite <- !app_assoc. cbn [app]. rewrite (path_app (seq 0 a) a). f_equal.
  { replace (seq 0 a ++ [a]) with (seq 0 (a + 1)) by (rewrite seq_app; done). apply path_seq. lia. }
  rewrite app_comm_cons, (path_app (a :: ex) B). cbn [app]. f_equal.
  destruct (decide (n - b - 1 = 0)) as [E|E].
  - rewrite E. cbn. replace (b + 1) with n by lia. by rewrite Nat.mod_same by lia.
  - rewrite Nat.mod_small by lia. rewrite <- (path_seq_wrap n) by lia. destruct (n - b - 1) as [|k]; [lia|]. cbn [seq app]. apply path_cons2.
Qed.
Lemma cycle_second n a b ex A : a < b < n ->
  cycle (seq (a + 1) (b - a) ++ ex ++ [A]) = (st n <$> seq (a + 1) (b - a - 1)) ++ path (b :: ex ++ [A]) ++ [(A, a + 1)].
Proof.
  intros H. assert (E : b - a = (b - a - 1) + 1) by lia.
  assert (C : forall l, cycle (seq (a + 1) (b - a) ++ l) = path ((seq (a + 1) (b - a) ++ l) ++ [a + 1])).
  { intros l. unfold cycle. destruct (b - a) as [|k]; [lia|done]. }
  rewrite C. assert (S : seq (a + 1) (b - a) = seq (a + 1) (b - a - 1) ++ [b]).
  { rewrite E at 1. rewrite seq_app. cbn. do 2 f_equal. lia. }
  rewrite S. rewrite <- !app_assoc. cbn [app]. rewrite (path_app (seq (a + 1) (b - a - 1)) b). rewrite <- S. replace (b - a) with ((b - a - 1) + 1) at 1 by lia. rewrite (path_seq n) by lia. f_equal.
  rewrite app_comm_cons, (path_app (b :: ex) A). done.
Qed.

Lemma edge_ends_old n news e : e < n -> edge_ends n news e = Some (st n e).
Proof. intros H. unfold edge_ends. destruct (Nat.ltb_spec e n); [done|lia]. Qed.
Lemma edge_ends_new n news i : edge_ends n news (n + i) = (fun x => (edge_origin x, edge_end x)) <$> news !! i.
Proof. unfold edge_ends. destruct (Nat.ltb_spec (n + i) n); [lia|]. do 2 f_equal. lia. Qed.
Lemma edge_ends_new0 n news : edge_ends n news n = (fun x => (edge_origin x, edge_end x)) <$> news !! 0.
Proof. rewrite <- (edge_ends_new n news 0). by rewrite Nat.add_0_r. Qed.
Definition chain_link (inp : split_input) (news : list new_edge) (e : nat) (x : nat * nat) : Prop :=
  edge_ends (number_vertices inp) news e = Some x \/
  (x = (end_point inp, origin_point inp) /\ edge_ends (number_vertices inp) news e = Some (origin_point inp, end_point inp)).
Lemma chain_seq inp news i k : i + k <= number_vertices inp -> Forall2 (chain_link inp news) (seq i k) (st (number_vertices inp) <$> seq i k).
Proof.
  revert i. induction k as [|k IH]; intros i H; [constructor|]. cbn [seq fmap list_fmap]. constructor; [|apply IH; lia]. left. apply edge_ends_old. lia.
Qed.
Lemma boundary_split inp a b : let n := number_vertices inp in a < b < n -> (forall v, v <> a -> v <> b -> points_inside inp v = []) ->
  boundary inp = (seq 0 (a + 1) ++ points_inside inp a) ++ (seq (a + 1) (b - a) ++ points_inside inp b) ++ seq (b + 1) (n - b - 1).
Proof.
  intros n H Hp. unfold boundary. fold n. 
  assert (S : seq 0 n = seq 0 a ++ [a] ++ seq (a + 1) (b - a - 1) ++ [b] ++ seq (b + 1) (n - b - 1)).
  { replace n with (a + (1 + ((b - a - 1) + (1 + (n - b - 1))))) at 1 by lia. rewrite !seq_app. cbn [Nat.add seq app].
    replace (a + 1 + (b - a - 1)) with b by lia. replace (S b) with (b + 1) by lia. done. }
  assert (Q : forall i k, (forall v, i <= v < i + k -> points_inside inp v = []) -> flat_map (fun v => v :: points_inside inp v) (seq i k) = seq i k).
  { intros i k. revert i. induction k as [|k IH]; intros i Hi; [done|]. cbn. rewrite Hi by lia. cbn. f_equal. apply IH. intros. apply Hi. lia. }
  rewrite S, !flat_map_app. cbn [flat_map]. rewrite !app_nil_r. rewrite (Q 0 a), (Q (a + 1) (b - a - 1)), (Q (b + 1) (n - b - 1)).
  2,3,4: intros v Hv; apply Hp; lia.
  replace (seq 0 (a + 1)) with (seq 0 a ++ [a]) by (rewrite seq_app; done).
  replace (seq (a + 1) (b - a)) with (seq (a + 1) (b - a - 1) ++ [b]).
  2:{ replace (b - a) with ((b - a - 1) + 1) at 2 by lia. rewrite (seq_app (b - a - 1) 1). cbn. do 2 f_equal. lia. }
  rewrite <- !app_assoc. done.
Qed.

Lemma two_good inp a b A B ra rb exA exB : let n := number_vertices inp in let news := (visit_new_edges rb).*2 in
  a < b < n -> (forall v, v <> a -> v <> b -> points_inside inp v = []) -> points_inside inp a = exA -> points_inside inp b = exB ->
  (forall first v, v < n -> v <> a -> v <> b -> plain inp first v) ->
  visit inp true a = ra -> visit_next ra = (b + 1) mod n -> visit inp false b = rb -> visit_next rb = a + 1 ->
  visit_vertices ra = a :: exA ++ [B] -> visit_vertices rb = b :: exB ++ [A] -> last (a :: exA) = Some A -> last (b :: exB) = Some B ->
  (A = origin_point inp /\ B = end_point inp \/ A = end_point inp /\ B = origin_point inp) ->
  length (visit_new_edges rb) <= 5 -> (visit_new_edges rb).*1 = seq n (length (visit_new_edges rb)) -> (visit_new_edges ra).*1 = (visit_new_edges rb).*1 ->
  length (visit_news rb) <= 2 -> (visit_news rb).*1 = seq n (length (visit_news rb)) -> (visit_news ra).*1 = (visit_news rb).*1 ->
  (visit_news rb).*2 = vertex_types inp ->
  Forall2 (chain_link inp news) (visit_edges ra) (path (a :: exA ++ [B]) ++ [(B, (b + 1) mod n)]) ->
  Forall2 (chain_link inp news) (visit_edges rb) (path (b :: exB ++ [A]) ++ [(A, a + 1)]) ->
  NoDup (exA ++ exB) -> Forall (fun x => n <= x) (exA ++ exB) -> 3 <= a + length exA + n - b + 1 -> 3 <= b - a + length exB + 1 ->
  Forall (fun x => match edge_type x with
    | EdgeNew => (edge_origin x, edge_end x) = (origin_point inp, end_point inp) /\
        ((edge_neighbours x = [1; 0] /\ (edge_origin x, edge_end x) = (A, B)) \/ (edge_neighbours x = [0; 1] /\ (edge_origin x, edge_end x) = (B, A)))
    | EdgeUpdate => (edge_origin x, edge_end x) ∈ edge_parts inp (old_edge x) /\
        ((edge_neighbours x = [0] /\ (edge_origin x, edge_end x) ∈ path (a :: exA ++ [B]) ++ [(B, (b + 1) mod n)]) \/
         (edge_neighbours x = [1] /\ (edge_origin x, edge_end x) ∈ path (b :: exB ++ [A]) ++ [(A, a + 1)]))
    | EdgeUnknown => False
    end) news ->
  exists r, ('(ps, w) ← create n inp 0 [] (Walk (replicate n false) ∅ ∅);
     Ok (SplitResult PolygonCreation (map_values (n + 2) (walk_news w)) (map_values (n + 5) (walk_new_edges w)) ps)) = Ok r /\ two_halves inp r.
Proof.
  intros n news Hab Hpi HA HB Hpl Ea Na Eb Nb Va Vb LA LB HAB K1 K2 K3 K4 K5 K6 Hvt CA CB ND HF T0 T1 REC.
  assert (CT := create_two inp a b ra rb Hab Hpl Ea Na Eb Nb). fold n in CT. rewrite CT. clear CT. cbn [mbind outcome_bind walk_news walk_new_edges].
  rewrite (map_values_range _ 2 (visit_news rb)), (map_values_range _ 5 (visit_new_edges rb)) by done.
  eexists. split; [done|]. rewrite Hvt. fold n. fold news. rewrite Va, Vb.
  assert (S0 : seq 0 a ++ (a :: exA ++ [B]) ++ seq (b + 1) (n - b - 1) = seq 0 (a + 1) ++ exA ++ B :: seq (b + 1) (n - b - 1)).
  { rewrite (seq_app a 1). cbn [seq app Nat.add]. rewrite <- !app_assoc. done. }
  assert (S1 : seq (a + 1) (b - a - 1) ++ b :: exB ++ [A] = seq (a + 1) (b - a) ++ exB ++ [A]).
  { replace (b - a) with ((b - a - 1) + 1) at 2 by lia. rewrite (seq_app (b - a - 1) 1). cbn [seq app]. rewrite <- app_assoc. cbn [app]. do 2 f_equal. lia. }
  rewrite S0, S1. exists (NewPolygon (seq 0 (a + 1) ++ exA ++ B :: seq (b + 1) (n - b - 1)) (seq 0 a ++ visit_edges ra ++ seq (b + 1) (n - b - 1))),
    (NewPolygon (seq (a + 1) (b - a) ++ exB ++ [A]) (seq (a + 1) (b - a - 1) ++ visit_edges rb)).
  cbn [result_type new_vertices new_polygons new_edges new_vertices_of new_edges_of].
  assert (C0 := cycle_first n a b exA B Hab). assert (C1 := cycle_second n a b exB A Hab).
  assert (Q0 : cycle (seq 0 (a + 1) ++ exA ++ B :: seq (b + 1) (n - b - 1)) =
     (st n <$> seq 0 a) ++ (path (a :: exA ++ [B]) ++ [(B, (b + 1) mod n)]) ++ (st n <$> seq (b + 1) (n - b - 1))).
  { rewrite C0. by rewrite <- !app_assoc. }
  assert (LA' : exists l, a :: exA = l ++ [A]) by (by apply last_Some).
  assert (LB' : exists l, b :: exB = l ++ [B]) by (by apply last_Some).
  destruct LA' as [lA EA], LB' as [lB EB].
  assert (SA : seq 0 (a + 1) ++ exA = (seq 0 a ++ lA) ++ [A]) by (rewrite (seq_app a 1), <- !app_assoc; cbn [seq app Nat.add]; by rewrite EA).
  assert (SB : seq (a + 1) (b - a) ++ exB = (seq (a + 1) (b - a - 1) ++ lB) ++ [B]).
  { replace (b - a) with ((b - a - 1) + 1) at 1 by lia. rewrite (seq_app (b - a - 1) 1), <- !app_assoc. cbn [seq app].
    replace (a + 1 + (b - a - 1)) with b by lia. by rewrite EB. }
  assert (PA : (A, B) ∈ path (a :: exA ++ [B])). { rewrite app_comm_cons, EA, path_snoc. apply elem_of_app. right. by apply elem_of_list_singleton. }
  assert (PB : (B, A) ∈ path (b :: exB ++ [A])). { rewrite app_comm_cons, EB, path_snoc. apply elem_of_app. right. by apply elem_of_list_singleton. }
  rewrite Forall_forall in HF.
  assert (MA : A = a \/ A ∈ exA). { assert (X : A ∈ a :: exA) by (rewrite EA, elem_of_app; right; by apply elem_of_list_singleton). by apply elem_of_cons in X. }
  assert (MB : B = b \/ B ∈ exB). { assert (X : B ∈ b :: exB) by (rewrite EB, elem_of_app; right; by apply elem_of_list_singleton). by apply elem_of_cons in X. }
  apply NoDup_app in ND as (DA & DAB & DB).
  assert (GA : A ∈ exA -> n <= A) by (intros; apply HF; rewrite elem_of_app; by left).
  assert (GB : B ∈ exB -> n <= B) by (intros; apply HF; rewrite elem_of_app; by right).
  assert (PERM : cycle (seq 0 (a + 1) ++ exA ++ B :: seq (b + 1) (n - b - 1)) ++ cycle (seq (a + 1) (b - a) ++ exB ++ [A]) ≡ₚ
     cycle (boundary inp) ++ [(A, B); (B, A)]).
  { rewrite (boundary_split inp a b) by done. fold n. rewrite HA, HB.
    rewrite !(app_assoc (seq 0 (a + 1))), (app_assoc (seq (a + 1) (b - a))).
    apply (cycle_split 0 (seq 0 a ++ lA) A (a + 1) (seq (a + 1) (b - a - 1) ++ lB) B _ _ _ SA SB).
    - rewrite Nat.add_1_r. done.
    - destruct (b - a) eqn:?; [lia|done]. }
  split_and!; try done.
  - destruct HAB as [[<- <-]|[<- <-]]; [done|]. rewrite PERM. apply Permutation_app; [done|]. apply Permutation_swap.
  - repeat constructor; cbn [new_vertices_of new_edges_of].
    + unfold chained. cbn [new_vertices_of new_edges_of]. rewrite Q0. apply Forall2_app; [|apply Forall2_app; [exact CA|]]; apply chain_seq; fold n; lia.
    + rewrite !NoDup_app. split_and!; [apply NoDup_seq| |exact DA| |].
      * intros x Hx. rewrite elem_of_seq in Hx. rewrite not_elem_of_app, not_elem_of_cons, elem_of_seq.
        split; [intros I; assert (n <= x) by (apply HF; rewrite elem_of_app; by left); lia|]. split; [|lia]. destruct MB as [->|MB]; [lia|]. specialize (GB MB). lia.
      * intros x Hx. rewrite not_elem_of_cons, elem_of_seq. assert (n <= x) by (apply HF; rewrite elem_of_app; by left). split; [|lia].
        destruct MB as [->|MB]; [lia|]. intros ->. by apply (DAB B).
      * apply NoDup_cons. split; [|apply NoDup_seq]. rewrite elem_of_seq. destruct MB as [->|MB]; [lia|]. specialize (GB MB). lia.
    + rewrite !app_length, !seq_length. cbn. rewrite seq_length. lia.
    + unfold chained. cbn [new_vertices_of new_edges_of]. rewrite C1. apply Forall2_app; [|exact CB]. apply chain_seq. fold n. lia.
    + rewrite !NoDup_app. split_and!; [apply NoDup_seq| |exact DB| |apply NoDup_singleton].
      * intros x Hx. rewrite elem_of_seq in Hx. rewrite not_elem_of_app, elem_of_list_singleton.
        split; [intros I; assert (n <= x) by (apply HF; rewrite elem_of_app; by right); lia|]. destruct MA as [->|MA]; [lia|]. specialize (GA MA). lia.
      * intros x Hx. rewrite elem_of_list_singleton. assert (n <= x) by (apply HF; rewrite elem_of_app; by right).
        destruct MA as [->|MA]; [lia|]. intros ->. by apply (DAB A).
    + rewrite !app_length, seq_length. cbn. lia.
  - rewrite Forall_forall in REC |- *. intros x Hx. specialize (REC x Hx). unfold recorded. destruct (edge_type x); [done| |].
    + destruct REC as [E1 E2]. split; [done|].
      assert (I1 : (A, B) ∈ cycle (seq 0 (a + 1) ++ exA ++ B :: seq (b + 1) (n - b - 1))) by (rewrite C0, !elem_of_app; auto).
      assert (I2 : (B, A) ∈ cycle (seq (a + 1) (b - a) ++ exB ++ [A])) by (rewrite C1, !elem_of_app; auto).
      destruct E2 as [[E2 E3]|[E2 E3]]; injection E3 as E3 E4; rewrite E3, E4.
      * exists 0, 1. do 2 eexists. split_and!; done.
      * exists 1, 0. do 2 eexists. split_and!; done.
    + destruct REC as [E1 E2]. split; [done|]. destruct E2 as [[E2 E3]|[E2 E3]].
      * exists 0. eexists. split_and!; [done..|]. cbn [new_vertices_of]. rewrite Q0, !elem_of_app. rewrite elem_of_app in E3. tauto.
      * exists 1. eexists. split_and!; [done..|]. cbn [new_vertices_of]. rewrite C1, !elem_of_app. rewrite elem_of_app in E3. tauto.
Qed.

Ltac fields := cbn [number_vertices aligned_edges origin_type origin_index end_type_of end_index origin_point end_point end_eqb andb
  visit_vertices visit_edges visit_news visit_new_edges visit_next edge_type old_edge edge_origin edge_end edge_neighbours app path last length fmap list_fmap fst snd] in *.
Ltac member := repeat first [apply elem_of_list_here | apply elem_of_list_further].
Ltac inside := unfold points_inside; fields; repeat case_decide; try done; exfalso; naive_solver lia.
Ltac link := unfold chain_link; fields; rewrite ?edge_ends_new, ?edge_ends_new0; cbn [lookup list_lookup fmap option_fmap option_map edge_origin edge_end];
  first [left; reflexivity | right; split; reflexivity | left; rewrite edge_ends_old by lia; unfold st; first [reflexivity | do 2 f_equal; apply Nat.mod_small; lia]].
Ltac two_case a b A B exA exB :=
  match goal with |- context [create _ ?i _ _ _] =>
  let PA := fresh in assert (PA : points_inside i a = exA) by inside;
  let PB := fresh in assert (PB : points_inside i b = exB) by inside;
  let M := fresh in assert (M : (a + 1) mod number_vertices i = a + 1) by (fields; apply Nat.mod_small; lia);
  let N1 := fresh in assert (N1 : (a =? b) = false) by (apply Nat.eqb_neq; lia);
  let N2 := fresh in assert (N2 : (b =? a) = false) by (apply Nat.eqb_neq; lia);
  fields;
  eapply (two_good i a b A B _ _ exA exB); fields;
  [ lia
  | intros; inside
  | exact PA | exact PB
  | intros f v Hv Hva Hvb; unfold plain, visit; fields; apply not_eq_sym, Nat.eqb_neq in Hva; apply not_eq_sym, Nat.eqb_neq in Hvb; rewrite ?Hva, ?Hvb; fields; reflexivity
  | unfold visit; fields; rewrite ?Nat.eqb_refl, ?N1, ?N2; fields; reflexivity
  | fields; reflexivity
  | unfold visit; fields; rewrite ?Nat.eqb_refl, ?N1, ?N2; fields; rewrite ?M; reflexivity
  | fields; reflexivity
  | fields; reflexivity | fields; reflexivity | reflexivity | reflexivity
  | first [left; split; reflexivity | right; split; reflexivity]
  | fields; lia
  | fields; cbn [seq]; rewrite ?Nat.add_succ_r, ?Nat.add_0_r; reflexivity
  | fields; reflexivity
  | fields; lia
  | fields; cbn [seq]; rewrite ?Nat.add_succ_r, ?Nat.add_0_r; reflexivity
  | fields; reflexivity
  | unfold vertex_types; fields; repeat case_decide; first [reflexivity | congruence]
  | repeat (apply Forall2_cons; split; [link|]); apply Forall2_nil_2
  | repeat (apply Forall2_cons; split; [link|]); apply Forall2_nil_2
  | rewrite ?NoDup_cons, ?elem_of_cons, ?elem_of_nil; repeat split; try lia; apply NoDup_nil_2
  | repeat constructor; lia
  | fields; lia
  | fields; lia
  | repeat (apply Forall_cons; split; [fields; split; [first [reflexivity | unfold edge_parts; rewrite ?PA, ?PB; fields; rewrite ?M; member]|
       first [left; split; [reflexivity|first [reflexivity|member]] | right; split; [reflexivity|first [reflexivity|member]]]]|]); apply Forall_nil_2
  ] end.

Lemma split_creation inp : well_formed inp -> (forall a, a ∈ aligned_edges inp -> ~ (a.1 <= origin_index inp /\ end_index inp <= a.2)) -> ~ on_boundary inp ->
  exists r, SplitPolygonWithSegment inp = Ok r /\ two_halves inp r.
Proof.
  intros (Hn & Ho & He & To & Te & Hoe) Hal Hb. assert (Hc : contiguous inp = false).
  { unfold contiguous. apply not_true_is_false. intros E. apply existsb_exists in E as (x & I & E). apply andb_true_iff in E as [E1 E2].
    apply Nat.leb_le in E1, E2. apply elem_of_list_In in I. by apply (Hal x I). }
  destruct inp as [n al ot o et e]. fields. unfold on_boundary, on_edge in Hb. fields.
  destruct ot; [done| |]; destruct et; try done; unfold SplitPolygonWithSegment; fields; rewrite Hc.
  - assert (N : o <> e) by (intros E; by apply Hoe).
    destruct (Nat.eqb_spec ((o + 1) mod n) e) as [E|E1]; [exfalso; apply Hb; exists o; auto|].
    destruct (Nat.eqb_spec ((e + 1) mod n) o) as [E|E2]; [exfalso; apply Hb; exists e; auto|]. cbn [orb].
    assert (D : forall x y, x < n -> y < n -> (x + 1) mod n <> y -> x + 1 <> y /\ (x + 1 = n -> y <> 0)).
    { intros x y Hx Hy Hne. split; [intros <-; apply Hne; by apply Nat.mod_small|]. intros Hx1 ->. apply Hne. rewrite Hx1. apply Nat.mod_same. lia. }
    pose proof (D o e Ho He E1). pose proof (D e o He Ho E2).
    destruct (decide (o < e)).
    + two_case o e o e (@nil nat) (@nil nat).
    + two_case e o e o (@nil nat) (@nil nat).
  - destruct (Nat.eqb_spec o e) as [E|E1]; [exfalso; apply Hb; exists e; auto|].
    assert (E2 : e + 1 <> o /\ ~ (e + 1 = n /\ o = 0)).
    { split.
      - intros E. apply Hb. exists e. rewrite Nat.mod_small by lia. auto.
      - intros [E ->]. apply Hb. exists e. rewrite E, Nat.mod_same by lia. auto. }
    destruct (Nat.eqb_spec (previous n o) e) as [E|_]; [exfalso; unfold previous in E; destruct (Nat.eqb_spec o 0); lia|]. cbn [orb].
    destruct (decide (o < e)).
    + two_case o e o n (@nil nat) [n].
    + two_case e o n o [n] (@nil nat).
  - destruct (Nat.eqb_spec o e) as [E|E1]; [exfalso; apply Hb; exists o; auto|].
    assert (E2 : o + 1 <> e /\ ~ (o + 1 = n /\ e = 0)).
    { split.
      - intros E. apply Hb. exists o. rewrite Nat.mod_small by lia. auto.
      - intros [E ->]. apply Hb. exists o. rewrite E, Nat.mod_same by lia. auto. }
    destruct (Nat.eqb_spec (previous n e) o) as [E|_]; [exfalso; unfold previous in E; destruct (Nat.eqb_spec e 0); lia|]. cbn [orb].
    destruct (decide (o < e)).
    + two_case o e n e [n] (@nil nat).
    + two_case e o e n (@nil nat) [n].
  - destruct (Nat.eqb_spec o e) as [E|E1]; [exfalso; apply Hb; exists o; auto|]. cbn [orb].
    destruct (decide (o < e)).
    + two_case o e n (n + 1) [n] [n + 1].
    + two_case e o (n + 1) n [n + 1] [n].
Qed.

(** ** Update of the polygon *)
Lemma update_run inp both types : let n := number_vertices inp in 0 < n ->
  (forall v, v < n -> match points_inside inp v with [] => True | [x] => n <= x | [x; y] => n <= x /\ n <= y /\ both = Some v | _ => False end) ->
  forall k v edges news m, v + k = n -> exists es ns m',
    update_edges n both types (flat_map (fun v => v :: points_inside inp v) (seq v k)) 0 (n + length news) edges news m = Ok (edges ++ es, news ++ ns, m') /\
    Forall2 (fun e s => edge_ends n (news ++ ns) e = Some s) es (path (flat_map (fun v => v :: points_inside inp v) (seq v k) ++ [0])) /\
    Forall (fun x => edge_type x = EdgeUpdate /\ edge_neighbours x = [0] /\ (edge_origin x, edge_end x) ∈ edge_parts inp (old_edge x) /\
       (edge_origin x, edge_end x) ∈ path (flat_map (fun v => v :: points_inside inp v) (seq v k) ++ [0])) ns /\
    (forall x, m' !! x = if decide (x ∈ flat_map (points_inside inp) (seq v k)) then Some (types x) else m !! x).
Proof.
  intros n Hn Hp. induction k as [|k IH]; intros v edges news m Hv.
  { exists [], [], m. cbn [seq flat_map update_edges app]. rewrite !app_nil_r. split; [done|]. split; [constructor|]. split; [constructor|]. intros x. destruct (decide _) as [I|]; [by apply elem_of_nil in I|done]. }
  specialize (Hp v ltac:(lia)). set (v' := (v + 1) mod n).
  assert (Hv' : v' < n) by (apply Nat.mod_upper_bound; lia).
  assert (Hprev : previous n v' = v).
  { unfold previous, v'. destruct (decide (v + 1 = n)) as [E|E].
    - rewrite E, Nat.mod_same by lia. cbn. lia.
    - rewrite Nat.mod_small by lia. destruct (Nat.eqb_spec (v + 1) 0); lia. }
  set (rest := flat_map (fun v => v :: points_inside inp v) (seq (S v) k)) in *.
  assert (Hh : match rest with [] => 0 | x :: _ => x end = v').
  { unfold rest, v'. destruct k as [|k]; cbn.
    - replace (v + 1) with n by lia. by rewrite Nat.mod_same by lia.
    - rewrite Nat.mod_small by lia. lia. }
  assert (Hpath : forall x, path (x :: rest ++ [0]) = (x, v') :: path (rest ++ [0])).
  { intros x. rewrite <- Hh. destruct rest; done. }
  cbn [seq flat_map]. fold rest.
  assert (Lv : (v <? n) = true) by (apply Nat.ltb_lt; lia). assert (Lv' : (v' <? n) = true) by (apply Nat.ltb_lt; lia).
  assert (G : forall x, n <= x -> (x <? n) = false) by (intros; by apply Nat.ltb_ge).
  assert (EP : edge_parts inp v = path (v :: points_inside inp v ++ [v'])) by done.
  destruct (points_inside inp v) as [|x [|y [|]]] eqn:PI; [| | |done]; cbn [app].
  - destruct (IH (S v) (edges ++ [v]) news m ltac:(lia)) as (es & ns & m' & E & F2 & FR & HM). fold rest in E, F2, FR.
    exists (v :: es), ns, m'. cbn [update_edges]. rewrite Hh, Lv, Lv'. cbn [andb]. rewrite E. rewrite <- app_assoc. cbn [app].
    rewrite Hpath. split; [done|]. split; [|split].
    + constructor; [|done]. unfold edge_ends. rewrite Lv. done.
    + eapply Forall_impl; [exact FR|]. cbn. intros z (? & ? & ? & ?). split_and!; try done. by apply elem_of_list_further.
    + intros z. rewrite HM. done.
  - destruct (IH (S v) ((edges ++ [n + length news]) ++ [n + length news + 1]) ((news ++ [NewEdge EdgeUpdate v v x [0]]) ++ [NewEdge EdgeUpdate v x v' [0]]) (<[x := types x]> (<[x := types x]> m)) ltac:(lia))
      as (es & ns & m' & E & F2 & FR & HM). fold rest in E, F2, FR.
    rewrite !app_length in E. cbn [length] in E. rewrite !Nat.add_assoc in E. do 3 (repeat rewrite <- app_assoc in E; cbn [app] in E). rewrite <- !app_assoc in F2. cbn [app] in F2.
    exists (n + length news :: n + length news + 1 :: es), (NewEdge EdgeUpdate v v x [0] :: NewEdge EdgeUpdate v x v' [0] :: ns), m'.
    cbn [update_edges]. rewrite Hh, Lv, Lv', (G x) by done. cbn [andb]. rewrite Hprev. do 3 (repeat rewrite <- app_assoc; cbn [app]). split; [exact E|].
    rewrite path_cons2, Hpath. split; [|split].
    + constructor; [|constructor; [|exact F2]].
      * rewrite edge_ends_new, lookup_app_r, Nat.sub_diag by lia. done.
      * rewrite <- Nat.add_assoc, edge_ends_new, lookup_app_r by lia. replace (length news + 1 - length news) with 1 by lia. done.
    + constructor; [|constructor].
      * cbn [edge_type edge_neighbours edge_origin edge_end old_edge]. rewrite EP. cbn [app path]. split_and!; try done; member.
      * cbn [edge_type edge_neighbours edge_origin edge_end old_edge]. rewrite EP. cbn [app path]. split_and!; try done; member.
      * eapply Forall_impl; [exact FR|]. cbn. intros z (? & ? & ? & ?). split_and!; try done. by do 2 apply elem_of_list_further.
    + intros z. rewrite HM, insert_insert. repeat case_decide; try done.
      * rewrite elem_of_cons in *. naive_solver.
      * rewrite elem_of_cons in *. destruct (decide (z = x)) as [->|]; [by rewrite lookup_insert|naive_solver].
      * rewrite elem_of_cons in *. rewrite lookup_insert_ne; [done|naive_solver].
  - destruct Hp as (Hx & Hy & Hb).
    destruct (IH (S v) (((edges ++ [n + length news]) ++ [n + length news + 1]) ++ [n + length news + 1 + 1])
       (((news ++ [NewEdge EdgeUpdate v v x [0]]) ++ [NewEdge EdgeUpdate v x y [0]]) ++ [NewEdge EdgeUpdate v y v' [0]])
       (<[y := types y]> (<[y := types y]> (<[x := types x]> (<[x := types x]> m)))) ltac:(lia))
      as (es & ns & m' & E & F2 & FR & HM). fold rest in E, F2, FR.
    rewrite !app_length in E. cbn [length] in E. rewrite !Nat.add_assoc in E. do 3 (repeat rewrite <- app_assoc in E; cbn [app] in E). rewrite <- !app_assoc in F2. cbn [app] in F2.
    exists (n + length news :: n + length news + 1 :: n + length news + 1 + 1 :: es),
      (NewEdge EdgeUpdate v v x [0] :: NewEdge EdgeUpdate v x y [0] :: NewEdge EdgeUpdate v y v' [0] :: ns), m'.
    cbn [update_edges]. rewrite Hh, Lv, Lv', (G x), (G y) by done. cbn [andb]. rewrite Hb in E |- *. cbn [andb]. rewrite Hprev. do 3 (repeat rewrite <- app_assoc; cbn [app]). split; [exact E|].
    rewrite !path_cons2, Hpath. split; [|split].
    + constructor; [|constructor; [|constructor; [|exact F2]]].
      * rewrite edge_ends_new, lookup_app_r, Nat.sub_diag by lia. done.
      * rewrite <- Nat.add_assoc, edge_ends_new, lookup_app_r by lia. replace (length news + 1 - length news) with 1 by lia. done.
      * rewrite <- !Nat.add_assoc, edge_ends_new, lookup_app_r by lia. replace (length news + (1 + 1) - length news) with 2 by lia. done.
    + constructor; [|constructor; [|constructor]].
      * cbn [edge_type edge_neighbours edge_origin edge_end old_edge]. rewrite EP. cbn [app path]. split_and!; try done; member.
      * cbn [edge_type edge_neighbours edge_origin edge_end old_edge]. rewrite EP. cbn [app path]. split_and!; try done; member.
      * cbn [edge_type edge_neighbours edge_origin edge_end old_edge]. rewrite EP. cbn [app path]. split_and!; try done; member.
      * eapply Forall_impl; [exact FR|]. cbn. intros z (? & ? & ? & ?). split_and!; try done. by do 3 apply elem_of_list_further.
    + intros z. rewrite HM, !insert_insert. repeat case_decide; try done.
      * rewrite !elem_of_cons in *. naive_solver.
      * rewrite !elem_of_cons in *. destruct (decide (z = y)) as [->|]; [by rewrite lookup_insert|]. rewrite lookup_insert_ne by done.
        destruct (decide (z = x)) as [->|]; [by rewrite lookup_insert|naive_solver].
      * rewrite !elem_of_cons in *. rewrite !lookup_insert_ne; [done|naive_solver..].
Qed.

Definition one_typed (inp : split_input) (r : split_result) (types : nat -> new_vertex) : Prop :=
  one_polygon inp r /\ new_vertices r = types <$> seq (number_vertices inp) (length (vertex_types inp)).

Lemma update_good inp points both types : let n := number_vertices inp in 0 < n -> (forall v, points v = points_inside inp v) ->
  (forall v, v < n -> match points_inside inp v with [] => True | [x] => n <= x | [x; y] => n <= x /\ n <= y /\ both = Some v | _ => False end) ->
  (forall x, x ∈ flat_map (points_inside inp) (seq 0 n) <-> n <= x < n + length (vertex_types inp)) ->
  exists r, update_polygon n points both types = Ok r /\ one_typed inp r types.
Proof.
  intros n Hn Hpts Hp Hx. unfold update_polygon, update_vertices.
  assert (E : flat_map (fun v => v :: points v) (seq 0 n) = boundary inp) by (apply flat_map_ext; intros v; by rewrite Hpts).
  rewrite E. assert (Hh : default 0 (head (boundary inp)) = 0) by (unfold boundary; fold n; destruct n; [lia|done]).
  rewrite Hh. destruct (update_run inp both types Hn Hp n 0 [] [] ∅ ltac:(done)) as (es & ns & m' & U & F2 & FR & HM).
  fold n in U. cbn [length app] in U. rewrite Nat.add_0_r in U. change (flat_map (fun v => v :: points_inside inp v) (seq 0 n)) with (boundary inp) in U. rewrite U. cbn [mbind outcome_bind]. clear U.
  eexists. split; [done|]. fold n in F2, FR. change (flat_map (fun v => v :: points_inside inp v) (seq 0 n)) with (boundary inp) in F2, FR.
  assert (C : cycle (boundary inp) = path (boundary inp ++ [0])) by (unfold boundary; fold n; destruct n; [lia|done]).
  split; [exists (NewPolygon (boundary inp) es); split_and!; try done|]; cbn [new_vertices new_edges new_vertices_of new_edges_of].
  - unfold chained. cbn [new_vertices_of new_edges_of]. rewrite C. eapply Forall2_impl; [exact F2|]. intros ? ? ?. by left.
  - eapply Forall_impl; [exact FR|]. cbn. intros x (E1 & E2 & E3 & E4). split; [done|]. unfold recorded. rewrite E1. split; [done|].
    exists 0, (NewPolygon (boundary inp) es). split_and!; try done. cbn [new_vertices_of]. by rewrite C.
  - assert (HL : length (vertex_types inp) <= 2) by (unfold vertex_types; repeat case_decide; cbn; lia).
    set (L := length (vertex_types inp)) in *. unfold map_values. replace (n + 2) with (n + (L + (2 - L))) by lia. rewrite !seq_app, !omap_app. cbn [Nat.add].
    assert (Z : forall s c, (forall x, s <= x < s + c -> m' !! x = None) -> omap (fun k => m' !! k) (seq s c) = []).
    { intros s c. revert s. induction c as [|c IH]; intros s H; [done|]. cbn. rewrite H by lia. apply IH. intros. apply H. lia. }
    rewrite (Z 0 n), (Z (n + L)). 2,3: intros x Hxx; rewrite HM; destruct (decide _) as [I|]; [apply Hx in I; lia|done].
    rewrite app_nil_r. cbn [app].
    assert (Y : forall s c, (forall x, s <= x < s + c -> m' !! x = Some (types x)) -> omap (fun k => m' !! k) (seq s c) = types <$> seq s c).
    { intros s c. revert s. induction c as [|c IH]; intros s H; [done|]. cbn. rewrite H by lia. f_equal. apply IH. intros. apply H. lia. }
    apply Y. intros x Hxx. rewrite HM. destruct (decide _) as [|I]; [done|]. exfalso. apply I, Hx. lia.
Qed.

Lemma points_seq inp x : origin_index inp < number_vertices inp -> end_index inp < number_vertices inp ->
  x ∈ flat_map (points_inside inp) (seq 0 (number_vertices inp)) <->
  (origin_type inp = EndEdge /\ x = origin_point inp) \/ (end_type_of inp = EndEdge /\ x = end_point inp).
Proof.
  intros Ho He. rewrite elem_of_list_In, in_flat_map. unfold points_inside. split.
  - intros (v & Hv & I). apply elem_of_list_In in I. rewrite elem_of_app in I.
    destruct I as [I|I]; case_decide as D; try (by apply elem_of_nil in I); apply elem_of_list_singleton in I; [left|right]; naive_solver.
  - intros [[T ->]|[T ->]]; [exists (origin_index inp)|exists (end_index inp)]; (split; [apply in_seq; lia|]); apply elem_of_list_In, elem_of_app.
    + left. rewrite decide_True by done. by apply elem_of_list_singleton.
    + right. rewrite decide_True by done. by apply elem_of_list_singleton.
Qed.
Lemma split_update inp : well_formed inp -> (origin_type inp = EndEdge \/ end_type_of inp = EndEdge) ->
  (on_boundary inp \/ exists a, a ∈ aligned_edges inp /\ a.1 <= origin_index inp /\ end_index inp <= a.2) ->
  exists r, SplitPolygonWithSegment inp = Ok r /\
    one_typed inp r (match origin_type inp, end_type_of inp with
                       | EndEdge, EndEdge => fun x => if x =? 4 then SegmentOrigin else SegmentEnd
                       | EndEdge, _ => fun _ => SegmentOrigin
                       | _, _ => fun _ => SegmentEnd end).
Proof.
  intros (Hn & Ho & He & To & Te & Hoe) HT Hb.
  assert (PS := fun x => points_seq inp x Ho He).
  assert (Hc : (on_boundary inp) \/ contiguous inp = true).
  { destruct Hb as [Hb|(a & I & H1 & H2)]; [by left|right]. unfold contiguous. apply existsb_exists. exists a. split; [by apply elem_of_list_In|].
    apply andb_true_iff. split; by apply Nat.leb_le. }
  clear Hb. assert (NB : forall x y, x < number_vertices inp -> y < number_vertices inp -> x = (y + 1) mod number_vertices inp -> previous (number_vertices inp) x = y).
  { intros x y Hx Hy ->. unfold previous. destruct (decide (y + 1 = number_vertices inp)) as [E|E].
    - rewrite E, Nat.mod_same by lia. cbn. lia.
    - rewrite Nat.mod_small by lia. destruct (Nat.eqb_spec (y + 1) 0); lia. }
  destruct inp as [n al ot o et e]. fields. unfold on_boundary, on_edge in Hc. fields.
  destruct ot; [done| |]; destruct et; try done; [by destruct HT| | |]; unfold SplitPolygonWithSegment; fields.
  - replace ((o =? e) || (previous n o =? e) || contiguous _) with true.
    2:{ symmetry. destruct Hc as [(e0 & He0 & Ho0 & ->)| ->]; [|apply orb_true_r]. destruct Ho0 as [->|Ho0]; [by rewrite Nat.eqb_refl|].
        rewrite (NB o e0), Nat.eqb_refl by done. by rewrite orb_true_r. }
    apply (update_good (SplitInput n al EndVertex o EndEdge e)); fields; [lia| | |].
    + intros v. destruct (Nat.eqb_spec v e); inside.
    + intros v Hv. unfold points_inside. fields. repeat case_decide; fields; first [done|lia|naive_solver].
    + intros x. rewrite PS. unfold vertex_types. fields. repeat case_decide; try done. fields. split; [intros [[? ?]|[? ?]]; [done|lia]|].
      intros; right; split; [done|lia].
  - replace ((o =? e) || (previous n e =? o) || contiguous _) with true.
    2:{ symmetry. destruct Hc as [(e0 & He0 & -> & Ho0)| ->]; [|apply orb_true_r]. destruct Ho0 as [->|Ho0]; [by rewrite Nat.eqb_refl|].
        rewrite (NB e e0), Nat.eqb_refl by done. by rewrite orb_true_r. }
    apply (update_good (SplitInput n al EndEdge o EndVertex e)); fields; [lia| | |].
    + intros v. destruct (Nat.eqb_spec v o); inside.
    + intros v Hv. unfold points_inside. fields. repeat case_decide; fields; first [done|lia|naive_solver].
    + intros x. rewrite PS. unfold vertex_types. fields. repeat case_decide; try done. fields. split; [intros [[? ?]|[? ?]]; [lia|done]|]. intros; left; split; [done|lia].
  - replace ((o =? e) || contiguous _) with true.
    2:{ symmetry. destruct Hc as [(e0 & He0 & -> & ->)| ->]; [|apply orb_true_r]. by rewrite Nat.eqb_refl. }
    apply (update_good (SplitInput n al EndEdge o EndEdge e)); fields; [lia| | |].
    + intros v. destruct (Nat.eqb_spec v o), (Nat.eqb_spec v e); inside.
    + intros v Hv. unfold points_inside. fields. repeat case_decide; fields; try done; try lia. split_and!; try lia. f_equal. tauto.
    + intros x. rewrite PS. unfold vertex_types. fields. repeat case_decide; try done. fields. split; [intros [[? ?]|[? ?]]; lia|]. intros Hx.
      destruct (decide (x = n)); [left; split; [done|lia]|right; split; [done|lia]].
Qed.
Lemma split_nothing inp : well_formed inp -> origin_type inp = EndVertex -> end_type_of inp = EndVertex -> on_boundary inp ->
  SplitPolygonWithSegment inp = Ok (SplitResult NoAction [] [] []).
Proof.
  intros (Hn & Ho & He & To & Te & Hoe) T1 T2 Hb. destruct inp as [n al ot o et e]. fields. subst. unfold on_boundary, on_edge in Hb. fields.
  unfold SplitPolygonWithSegment. fields. destruct Hb as (e0 & H0 & [->|H1] & [->|H2]); try subst.
  - exfalso. by apply Hoe.
  - by rewrite Nat.eqb_refl.
  - by rewrite Nat.eqb_refl, orb_true_r.
  - exfalso. by apply Hoe.
Qed.

Lemma split_update_types inp : well_formed inp -> (origin_type inp = EndEdge \/ end_type_of inp = EndEdge) ->
  (on_boundary inp \/ exists a, a ∈ aligned_edges inp /\ a.1 <= origin_index inp /\ end_index inp <= a.2) ->
  exists r, SplitPolygonWithSegment inp = Ok r /\ one_polygon inp r /\ length (new_vertices r) = length (vertex_types inp) /\
    (origin_type inp = EndVertex \/ end_type_of inp = EndVertex \/ number_vertices inp = 4 -> new_vertices r = vertex_types inp).
Proof.
  intros W T B. destruct (split_update inp W T B) as (r & E & P & V). exists r. split_and!; try done.
  - by rewrite V, fmap_length, seq_length.
  - destruct W as (_ & _ & _ & To & Te & _). intros H. rewrite V. unfold vertex_types. destruct (origin_type inp), (end_type_of inp); try done.
    destruct H as [H|[H|H]]; try done. by rewrite H.
Qed.
Lemma split_wrong_types inp : well_formed inp -> origin_type inp = EndEdge -> end_type_of inp = EndEdge -> origin_index inp = end_index inp ->
  number_vertices inp <> 4 -> exists r, SplitPolygonWithSegment inp = Ok r /\ new_vertices r <> vertex_types inp.
Proof.
  intros W T1 T2 E H4. destruct (split_update inp W) as (r & Er & P & V); [by left| |].
  - left. exists (origin_index inp). unfold on_edge. rewrite T1, T2, <- E. destruct W as (_ & ? & _). done.
  - exists r. split; [done|]. rewrite V. unfold vertex_types. rewrite T1, T2. rewrite !decide_True by done. cbn [app length seq fmap list_fmap]. apply Nat.eqb_neq in H4. rewrite H4. done.
Qed.

Lemma aligned_ignored : let inp := SplitInput 6 [(1, 3)] EndVertex 5 EndVertex 2 in
  well_formed inp /\ ~ on_boundary inp /\ SplitPolygonWithSegment inp = Ok (SplitResult NoAction [] [] []).
Proof.
  cbn zeta. split; [|split; [|vm_compute; reflexivity]].
  - repeat split; cbn; try lia; naive_solver.
  - intros (e & He & [H1|H1] & [H2|H2]); cbn -[Nat.modulo] in *; do 6 (destruct e as [|e]; [cbn in *; lia|]); lia.
Qed.
