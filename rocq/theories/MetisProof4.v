(** The dual graph of a mesh. *)
From stdpp Require Import relations.
From Verif Require Import Base BaseProof CsrModel CsrSpec CsrProof MeshModel MeshSpec MeshRep MeshHist MeshProof8 MeshProof9
  GraphModel GraphSpec GraphProof3 GraphProof5 MetisModel MetisSpec MetisProof MetisProof2 MetisProof3.

(** ** The nested loops over the neighbours of a facet *)

Fixpoint pairs {A} (l : list A) : list (A * A) :=
  match l with [] => [] | x :: l' => map (fun y => (x, y)) l' ++ pairs l' end.

Definition present (n : nat) (l : list N) : list N := filter (fun v => (v <? N.of_nat n)%N = true) l.

Lemma present_cons n v l : present n (v :: l) = if (v <? N.of_nat n)%N then v :: present n l else present n l.
Proof. unfold present. rewrite filter_cons. by destruct (v <? N.of_nat n)%N. Qed.

Lemma ofold_ext {A B} (f g : B -> A -> outcome B) l b : (forall b a, f b a = g b a) -> ofold f l b = ofold g l b.
Proof.
  intros H. revert b. induction l as [|a l IH]; intros b; cbn; [done|]. rewrite H. destruct (g b a); cbn; [apply IH|done..].
Qed.

Lemma ofold_map {A B C} (f : B -> A -> outcome B) (h : C -> A) l b : ofold f (map h l) b = ofold (fun b c => f b (h c)) l b.
Proof. revert b. induction l as [|a l IH]; intros b; cbn; [done|]. destruct (f b (h a)); cbn; [apply IH|done..]. Qed.

(** A loop over slot numbers that skips the absent neighbours, as a loop over the present ones. *)
Lemma slots_loop {B} (n : nat) (f : nat -> outcome bool) (g : nat -> outcome N) (F : nat -> N -> B -> outcome B)
      (G : list N -> N -> B -> outcome B) (row : list N) : forall s b,
  (forall k v, row !! k = Some v -> f (s + k) = Ok (v <? N.of_nat n)%N) ->
  (forall k v, row !! k = Some v -> g (s + k) = Ok v) ->
  (forall k v b, row !! k = Some v -> F (s + k) v b = G (drop (S k) row) v b) ->
  ofold (fun b k => p ← f k; if p : bool then v ← g k; F k v b else Ok b) (seq s (length row)) b =
  (fix loop (row : list N) (b : B) : outcome B :=
     match row with
     | [] => Ok b
     | v :: row' => if (v <? N.of_nat n)%N then b' ← G row' v b; loop row' b' else loop row' b
     end) row b.
Proof.
  induction row as [|v row IH]; intros s b Hf Hg HF; cbn [length seq ofold]; [done|].
  pose proof (Hf 0 v eq_refl) as E1. pose proof (Hg 0 v eq_refl) as E2. pose proof (HF 0 v b eq_refl) as E3.
  rewrite Nat.add_0_r in E1, E2, E3. rewrite E1. cbn [mbind outcome_bind].
  assert (Hsh : forall k, S s + k = s + S k) by (intros; lia).
  assert (IH' : forall b, ofold (fun b k => p ← f k; if p : bool then v ← g k; F k v b else Ok b) (seq (S s) (length row)) b =
    (fix loop (row : list N) (b : B) : outcome B :=
     match row with
     | [] => Ok b
     | v :: row' => if (v <? N.of_nat n)%N then b' ← G row' v b; loop row' b' else loop row' b
     end) row b).
  { intros b'. apply IH; intros k w; [intros Hk; rewrite Hsh; by apply Hf|intros Hk; rewrite Hsh; by apply Hg|].
    intros b'' Hk. rewrite Hsh. by apply (HF (S k)). }
  destruct (v <? N.of_nat n)%N; cbn [mbind outcome_bind]; [|apply IH'].
  rewrite E2. cbn [mbind outcome_bind]. rewrite E3. change (drop 1 (v :: row)) with row.
  destruct (G row v b); cbn [mbind outcome_bind]; [apply IH'|done..].
Qed.

Lemma flat_loop {B} n (G : N -> B -> outcome B) row b :
  (fix loop (row : list N) (b : B) : outcome B :=
     match row with
     | [] => Ok b
     | v :: row' => if (v <? N.of_nat n)%N then b' ← G v b; loop row' b' else loop row' b
     end) row b = ofold (fun b v => G v b) (present n row) b.
Proof.
  revert b. induction row as [|v row IH]; intros b; [done|].
  rewrite present_cons. destruct (v <? N.of_nat n)%N; [|apply IH].
  cbn [ofold]. destruct (G v b); cbn [mbind outcome_bind]; [apply IH|done..].
Qed.

Lemma pairs_loop {B} n (G : N -> N -> B -> outcome B) row b :
  (fix loop (row : list N) (b : B) : outcome B :=
     match row with
     | [] => Ok b
     | v :: row' => if (v <? N.of_nat n)%N then b' ← ofold (fun b w => G v w b) (present n row') b; loop row' b' else loop row' b
     end) row b = ofold (fun b p => G p.1 p.2 b) (pairs (present n row)) b.
Proof.
  revert b. induction row as [|v row IH]; intros b; [done|].
  rewrite present_cons. destruct (v <? N.of_nat n)%N; [|apply IH].
  cbn [pairs]. rewrite ofold_app, ofold_map. cbn [fst snd].
  destruct (ofold (fun b w => G v w b) (present n row) b); cbn [mbind outcome_bind]; [apply IH|done..].
Qed.

Section dual.
Context (m : mesh) (a : amesh) (H : represents m a).

(** The neighbours of facet [f]. *)
Definition nb (r : rel) (x : acell) : list N := present (anum (tgt r) a) (ac_rel x r).

Lemma nb_neighbours r f x : am_cells a (src r) !! f = Some x -> RelNeighbours r f m = Ok (nb r x).
Proof. intros Hx. rewrite (g_neighbours m a H). unfold look. by rewrite Hx. Qed.

Definition is_constrained (r : rel) (constrained : list bool) (f : nat) : bool :=
  if length constrained =? num (src r) m then default false (constrained !! f) else false.

Lemma dual_facet_pairs r constrained st f x :
  am_cells a (src r) !! f = Some x ->
  dual_facet r m constrained st f =
  ofold (fun st p => connect (is_constrained r constrained f) f (N.to_nat p.1) (N.to_nat p.2) st) (pairs (nb r x)) st.
Proof.
  intros Hx. unfold dual_facet. rewrite (g_count m a H). unfold look. rewrite Hx. cbn [mbind outcome_bind].
  rewrite Nat2N.id. unfold row_of. set (row := ac_rel x r). set (n := anum (tgt r) a).
  assert (Hhas : forall k v, row !! k = Some v -> RelHas r f k m = Ok (v <? N.of_nat n)%N).
  { intros k v Hk. rewrite (g_has m a H), Hx. fold row. by rewrite Hk. }
  assert (Hget : forall k v, row !! k = Some v -> RelGet r f k m = Ok v).
  { intros k v Hk. rewrite (g_get m a H), Hx. fold row. by rewrite Hk. }
  assert (Hcon : (if length constrained =? num (src r) m then vget constrained f else Ok false)
                 = Ok (is_constrained r constrained f)).
  { unfold is_constrained. destruct (Nat.eqb_spec (length constrained) (num (src r) m)) as [E|]; [|done].
    destruct (lookup_lt_is_Some_2 constrained f) as [b Hb].
    { rewrite E, (g_num m a H). unfold anum. by eapply lookup_lt_Some. }
    rewrite (vget_Ok _ _ _ Hb), Hb. done. }
  set (con := is_constrained r constrained f) in *.
  change (nb r x) with (present n row).
  rewrite <- (pairs_loop n (fun c1 c2 st => connect con f (N.to_nat c1) (N.to_nat c2) st) row st).
  apply (slots_loop n (fun k => RelHas r f k m) (fun k => RelGet r f k m)
           (fun k c1 st => ofold (fun st n2 => b2 ← RelHas r f n2 m;
              if b2 : bool then c2 ← RelGet r f n2 m;
                con ← (if length constrained =? num (src r) m then vget constrained f else Ok false);
                connect con f (N.to_nat c1) (N.to_nat c2) st else Ok st) (seq (k + 1) (length row - (k + 1))) st)
           (fun rest c1 st => ofold (fun st c2 => connect con f (N.to_nat c1) (N.to_nat c2) st) (present n rest) st)).
  - intros k v Hk. by apply Hhas.
  - intros k v Hk. by apply Hget.
  - intros k v b Hk. cbn [Nat.add]. replace (k + 1) with (S k) by lia. rewrite <- (drop_length row (S k)).
    rewrite <- (flat_loop n (fun c2 st => connect con f (N.to_nat v) (N.to_nat c2) st)).
    rewrite <- (slots_loop n (fun k => RelHas r f k m) (fun k => RelGet r f k m)
                 (fun _ c2 st => connect con f (N.to_nat v) (N.to_nat c2) st)
                 (fun _ c2 st => connect con f (N.to_nat v) (N.to_nat c2) st) (drop (S k) row) (S k) b).
    + apply ofold_ext. intros b' n2. destruct (RelHas r f n2 m) as [[]| | | |]; cbn [mbind outcome_bind]; try done.
      destruct (RelGet r f n2 m); cbn [mbind outcome_bind]; try done. rewrite Hcon. done.
    + intros j w Hj. rewrite lookup_drop in Hj. by apply Hhas.
    + intros j w Hj. rewrite lookup_drop in Hj. by apply Hget.
    + done.
Qed.

Definition facet_events (con : bool) (f : nat) (ps : list (N * N)) : list (nat * connection) :=
  flat_map (fun p => [(N.to_nat p.1, Conn con (N.to_nat p.2) f); (N.to_nat p.2, Conn con (N.to_nat p.1) f)]) ps.

(** [st'] is [st] with the events appended. *)
Definition recorded (st st' : dual) (evs : list (nat * connection)) : Prop :=
  pushed (d_conns st) (d_conns st') evs /\
  forall v w, (v, w) ∈ d_constraints st' <-> (v, w) ∈ d_constraints st \/ exists f, (v, Conn true w f) ∈ evs.

Lemma recorded_nil st : recorded st st [].
Proof. split; [apply pushed_nil|]. intros v w. split; [by left|]. intros [?|[f Hf]]; [done|by apply elem_of_nil in Hf]. Qed.

Lemma recorded_trans s1 s2 s3 e1 e2 : recorded s1 s2 e1 -> recorded s2 s3 e2 -> recorded s1 s3 (e1 ++ e2).
Proof.
  intros [P1 C1] [P2 C2]. split; [by eapply pushed_trans|]. intros v w. rewrite C2, C1. setoid_rewrite elem_of_app. naive_solver.
Qed.

Lemma connect_ok con f c1 c2 st :
  c1 < length (d_conns st) -> c2 < length (d_conns st) ->
  exists st', connect con f c1 c2 st = Ok st' /\ recorded st st' [(c1, Conn con c2 f); (c2, Conn con c1 f)].
Proof.
  intros H1 H2. unfold connect. destruct (vpush_pushed (d_conns st) c1 (Conn con c2 f) H1) as (l1 & -> & P1). cbn [mbind outcome_bind].
  destruct (vpush_pushed l1 c2 (Conn con c1 f)) as (l2 & -> & P2); [by rewrite (proj1 P1)|]. cbn [mbind outcome_bind].
  eexists. split; [done|]. split; cbn [d_conns d_constraints].
  - apply (pushed_trans _ _ _ _ _ P1 P2).
  - intros v w. destruct con.
    + rewrite elem_of_union, elem_of_union, !elem_of_singleton. split.
      * intros [[E|E]|E]; [injection E as -> ->; right; exists f; left|injection E as -> ->; right; exists f; right; left|by left].
      * intros [?|[f' Hf]]; [by right|]. left. apply elem_of_cons in Hf as [Hf|Hf]; [left; congruence|].
        apply elem_of_list_singleton in Hf. right. congruence.
    + split; [by left|]. intros [?|[f' Hf]]; [done|]. apply elem_of_cons in Hf as [Hf|Hf]; [congruence|].
      apply elem_of_list_singleton in Hf. congruence.
Qed.

Lemma connects_ok con f : forall ps st,
  (forall p, p ∈ ps -> N.to_nat p.1 < length (d_conns st) /\ N.to_nat p.2 < length (d_conns st)) ->
  exists st', ofold (fun st p => connect con f (N.to_nat p.1) (N.to_nat p.2) st) ps st = Ok st' /\
    recorded st st' (facet_events con f ps).
Proof.
  induction ps as [|[c1 c2] ps IH]; intros st Hp; cbn [ofold].
  - exists st. split; [done|apply recorded_nil].
  - destruct (Hp (c1, c2)) as [H1 H2]; [left|]. cbn [fst snd] in *.
    destruct (connect_ok con f (N.to_nat c1) (N.to_nat c2) st H1 H2) as (s1 & -> & R1). cbn [mbind outcome_bind].
    destruct (IH s1) as (s2 & -> & R2).
    { intros p Hin. rewrite (proj1 (proj1 R1)). apply Hp. by right. }
    exists s2. split; [done|]. apply (recorded_trans _ _ _ _ _ R1 R2).
Qed.

Lemma pairs_in {A} (l : list A) x y : (x, y) ∈ pairs l -> x ∈ l /\ y ∈ l.
Proof.
  induction l as [|z l IH]; cbn; [by intros ?%elem_of_nil|]. rewrite elem_of_app. intros [Hin|Hin].
  - apply elem_of_list_In, in_map_iff in Hin as (w & E & Hw%elem_of_list_In). injection E as -> ->. split; [left|by right].
  - destruct (IH Hin). split; by right.
Qed.

Lemma nb_lt r x v : v ∈ nb r x -> N.to_nat v < num (tgt r) m.
Proof.
  unfold nb, present. rewrite elem_of_list_filter. intros [Hv _]. apply N.ltb_lt in Hv. rewrite (g_num m a H). lia.
Qed.

Definition dual_events (r : rel) (constrained : list bool) (fs : list nat) : list (nat * connection) :=
  flat_map (fun f => match am_cells a (src r) !! f with
                     | Some x => facet_events (is_constrained r constrained f) f (pairs (nb r x)) | None => [] end) fs.

Lemma dual_loop r constrained : forall fs st,
  (forall f, f ∈ fs -> f < num (src r) m) -> length (d_conns st) = num (tgt r) m ->
  exists st', ofold (dual_facet r m constrained) fs st = Ok st' /\ recorded st st' (dual_events r constrained fs).
Proof.
  induction fs as [|f fs IH]; intros st Hf Hl; cbn [ofold].
  - exists st. split; [done|apply recorded_nil].
  - destruct (lookup_lt_is_Some_2 (am_cells a (src r)) f) as [x Hx].
    { specialize (Hf f ltac:(left)). rewrite (g_num m a H) in Hf. done. }
    rewrite (dual_facet_pairs r constrained st f x Hx).
    destruct (connects_ok (is_constrained r constrained f) f (pairs (nb r x)) st) as (s1 & -> & R1).
    { intros [c1 c2] [H1 H2]%pairs_in. cbn [fst snd]. apply nb_lt in H1, H2. lia. }
    cbn [mbind outcome_bind]. destruct (IH s1) as (s2 & -> & R2).
    { intros f' Hf'. apply Hf. by right. } { by rewrite (proj1 (proj1 R1)). }
    exists s2. split; [done|]. unfold dual_events. cbn [flat_map]. rewrite Hx. by eapply recorded_trans.
Qed.

(** ** Counting *)

Definition key (c : connection) : nat * nat := (c_cell c, c_facet c).
Notation cnt v evs := (count_occ (decide_rel (=)) (map key (events_of v evs))).

Lemma count_occ_singleton_if {A} `{EqDecision A} (P : Prop) `{Decision P} (x y : A) :
  count_occ (decide_rel (=)) (if decide P then [x] else []) y = if decide (P /\ x = y) then 1 else 0.
Proof.
  destruct (decide P) as [HP|HP]; [|by rewrite decide_False by tauto]. cbn [count_occ].
  destruct (decide_rel (=) x y) as [->|Hne]; [by rewrite decide_True|by rewrite decide_False by tauto].
Qed.

Lemma facet_events_count con f ps v w f' :
  cnt v (facet_events con f ps) (w, f') =
  if decide (f = f') then
    length (filter (fun p => p = (N.of_nat v, N.of_nat w)) ps) + length (filter (fun p => p = (N.of_nat w, N.of_nat v)) ps)
  else 0.
Proof.
  induction ps as [|[c1 c2] ps IH]; [by destruct (decide (f = f'))|].
  change (facet_events con f ((c1, c2) :: ps)) with
    ([(N.to_nat c1, Conn con (N.to_nat c2) f); (N.to_nat c2, Conn con (N.to_nat c1) f)] ++ facet_events con f ps).
  rewrite events_of_app, map_app, count_occ_app, IH, !events_of_cons.
  change (events_of v (@nil (nat * connection))) with (@nil connection). rewrite app_nil_r, map_app, count_occ_app.
  assert (E : forall (P : Prop) `{Decision P} c, map key (if decide P then [c] else []) = if decide P then [key c] else []).
  { intros P ? c. by destruct (decide P). }
  rewrite !E, !count_occ_singleton_if. unfold key. cbn [c_cell c_facet]. rewrite !filter_cons.
  assert (E1 : forall x y, (x, y) = (N.of_nat v, N.of_nat w) <-> N.to_nat x = v /\ N.to_nat y = w).
  { intros x y. split; [intros E'; injection E' as -> ->; by rewrite !Nat2N.id|]. intros [<- <-]. by rewrite !N2Nat.id. }
  destruct (decide (f = f')) as [<-|Hne].
  2:{ rewrite !decide_False; [done|intros [_ E']; congruence..]. }
  assert (D1 : (if decide (N.to_nat c1 = v /\ (N.to_nat c2, f) = (w, f)) then 1 else 0) =
               if decide ((c1, c2) = (N.of_nat v, N.of_nat w)) then 1 else 0).
  { destruct (decide ((c1, c2) = (N.of_nat v, N.of_nat w))) as [E'|E'].
    - apply E1 in E' as [<- <-]. by rewrite decide_True.
    - apply decide_False. intros [A B]. apply E', E1. split; [done|congruence]. }
  assert (D2 : (if decide (N.to_nat c2 = v /\ (N.to_nat c1, f) = (w, f)) then 1 else 0) =
               if decide ((c1, c2) = (N.of_nat w, N.of_nat v)) then 1 else 0).
  { destruct (decide ((c1, c2) = (N.of_nat w, N.of_nat v))) as [E'|E'].
    - injection E' as -> ->. rewrite !Nat2N.id. by rewrite decide_True.
    - apply decide_False. intros [A B]. apply E'. injection B as B. rewrite <- A, <- B. by rewrite !N2Nat.id. }
  rewrite D1, D2.
  destruct (decide ((c1, c2) = (N.of_nat v, N.of_nat w))), (decide ((c1, c2) = (N.of_nat w, N.of_nat v))); cbn [length]; lia.
Qed.

Lemma map_pair_count (z : N) (l : list N) (x y : N) :
  length (filter (fun p => p = (x, y)) (map (fun y => (z, y)) l)) = if decide (z = x) then count_occ N.eq_dec l y else 0.
Proof.
  induction l as [|u l IH]; [by destruct (decide (z = x))|]. cbn [map count_occ]. rewrite filter_cons.
  destruct (decide ((z, u) = (x, y))) as [E|E].
  - injection E as -> ->. rewrite decide_True in * by done. cbn [length]. rewrite IH. by destruct (N.eq_dec y y).
  - rewrite IH. destruct (decide (z = x)) as [->|]; [|done]. destruct (N.eq_dec u y) as [->|]; [done|lia].
Qed.

Lemma pairs_shared (l : list N) v w :
  length (filter (fun p => p = (N.of_nat v, N.of_nat w)) (pairs l)) +
  length (filter (fun p => p = (N.of_nat w, N.of_nat v)) (pairs l)) = shared l v w.
Proof.
  unfold shared. induction l as [|z l IH]; [done|]. cbn [pairs count_occ].
  rewrite !filter_app, !app_length, !map_pair_count.
  set (cv := count_occ N.eq_dec l (N.of_nat v)) in *. set (cw := count_occ N.eq_dec l (N.of_nat w)) in *.
  destruct (decide (v = w)) as [->|Hne].
  - change cv with cw in *. destruct (N.eq_dec z (N.of_nat w)) as [->|Hz].
    + rewrite decide_True by done. destruct cw as [|c]; [lia|]. replace (S c - 1) with c in IH by lia.
      replace (S (S c) - 1) with (S c) by lia. cbn in *. lia.
    + rewrite decide_False by done. lia.
  - destruct (N.eq_dec z (N.of_nat v)) as [->|Hzv].
    + destruct (N.eq_dec (N.of_nat v) (N.of_nat w)) as [E|_]; [lia|].
      rewrite decide_True by done. rewrite decide_False by lia. rewrite Nat.sub_0_r in *. cbn. lia.
    + rewrite (decide_False (P := z = N.of_nat v)) by done. destruct (N.eq_dec z (N.of_nat w)) as [->|Hzw].
      * rewrite decide_True by done. rewrite Nat.sub_0_r in *. rewrite Nat.mul_succ_r. lia.
      * rewrite decide_False by done. lia.
Qed.

Lemma dual_events_count r constrained fs v w f l :
  NoDup fs -> RelNeighbours r f m = Ok l -> f ∈ fs ->
  cnt v (dual_events r constrained fs) (w, f) = shared l v w.
Proof.
  intros Hnd Hl Hf.
  assert (Hx : exists x, am_cells a (src r) !! f = Some x /\ l = nb r x).
  { rewrite (g_neighbours m a H) in Hl. unfold look in Hl. destruct (am_cells a (src r) !! f) as [x|] eqn:Hx; [|done].
    exists x. split; [done|]. injection Hl as <-. done. }
  destruct Hx as (x & Hx & ->). induction fs as [|f0 fs IH]; [by apply elem_of_nil in Hf|].
  apply NoDup_cons in Hnd as [Hn0 Hnd]. unfold dual_events. cbn [flat_map]. rewrite events_of_app, map_app, count_occ_app.
  fold (dual_events r constrained fs).
  assert (Hnone : forall fs, f ∉ fs -> cnt v (dual_events r constrained fs) (w, f) = 0).
  { clear IH Hf Hn0 Hnd. induction fs0 as [|f1 fs1 IH]; intros Hn; [done|]. unfold dual_events. cbn [flat_map].
    rewrite events_of_app, map_app, count_occ_app. fold (dual_events r constrained fs1). rewrite IH by (intros ?; apply Hn; by right).
    destruct (am_cells a (src r) !! f1); [|done]. rewrite facet_events_count. rewrite decide_False; [done|].
    intros ->. apply Hn. left. }
  destruct (decide (f0 = f)) as [->|Hne].
  - rewrite Hx, facet_events_count, decide_True by done. rewrite pairs_shared, Hnone by done. lia.
  - apply elem_of_cons in Hf as [->|Hf]; [done|]. rewrite IH by done.
    destruct (am_cells a (src r) !! f0); [|done]. rewrite facet_events_count. by rewrite decide_False.
Qed.

(** The number of a facet fixes whether its connections are constrained. *)
Lemma dual_events_in r constrained fs v c :
  (v, c) ∈ dual_events r constrained fs ->
  v < num (tgt r) m /\ c_cell c < num (tgt r) m /\ c_constrained c = is_constrained r constrained (c_facet c) /\ c_facet c ∈ fs.
Proof.
  unfold dual_events. intros Hin. apply elem_of_list_In, in_flat_map in Hin as (f & Hf%elem_of_list_In & Hin).
  destruct (am_cells a (src r) !! f) as [x|]; [|done]. unfold facet_events in Hin.
  apply in_flat_map in Hin as ([c1 c2] & Hp%elem_of_list_In & Hin). apply pairs_in in Hp as [H1 H2]. apply nb_lt in H1, H2.
  cbn in Hin. destruct Hin as [E|[E|[]]]; injection E as <- <-; cbn; done.
Qed.

End dual.

Lemma shared_sym l a b : shared l a b = shared l b a.
Proof.
  unfold shared. destruct (decide (a = b)) as [->|Hne]; [by rewrite decide_True|]. rewrite decide_False by congruence. lia.
Qed.

(** Whether facet [f] is marked as constrained; the marks count only when there is one per facet. *)
Definition facet_constrained (r : rel) (m : mesh) (constrained : list bool) (f : nat) : bool :=
  if length constrained =? num (src r) m then default false (constrained !! f) else false.

Lemma imap_lengths {A B} (F : nat -> A -> B) (rows : list (list A)) v :
  length (concat (take v (imap (fun v => map (F v)) rows))) = length (concat (take v rows)).
Proof.
  revert F v. induction rows as [|row rows IH]; intros F v; [by destruct v|]. destruct v as [|v]; [done|].
  cbn [imap take concat]. rewrite !app_length, map_length. f_equal. apply (IH (fun k => F (S k)) v).
Qed.

Lemma dual_ok r m vw constrained nw :
  reachable m ->
  exists net facets, MeshToDualGraph r m vw constrained nw = Ok (net, facets) /\
    adj_ok (num (tgt r) m) (nadj net) /\ nodes_weight net = vw /\
    length facets = length (Cols (nadj net)) /\ length (edges_constrained net) = length (Cols (nadj net)) /\
    length (edges_weight net) = length (Cols (nadj net)) /\
    (forall a b f l, a < num (tgt r) m -> RelNeighbours r f m = Ok l ->
       count_occ (decide_rel (=)) (zip (slice (nadj net) a (Cols (nadj net))) (slice (nadj net) a facets)) (b, f) = shared l a b) /\
    (forall pos f, facets !! pos = Some f ->
       f < num (src r) m /\ edges_constrained net !! pos = Some (facet_constrained r m constrained f)) /\
    (forall pos a b, entry (nadj net) pos a b ->
       let w := match nw with Some W => W a b | None => 1%N end in
       (length constrained <> num (src r) m -> edges_weight net !! pos = Some w) /\
       (length constrained = num (src r) m ->
          ((exists f l, constrained !! f = Some true /\ RelNeighbours r f m = Ok l /\ 0 < shared l a b) ->
             edges_weight net !! pos = Some 1%N) /\
          ((forall f l, constrained !! f = Some true -> RelNeighbours r f m = Ok l -> shared l a b = 0) ->
             edges_weight net !! pos = Some ((w + N.of_nat (length (Cols (nadj net)))) `mod` 4294967296)%N))).
Proof.
  intros Hr. destruct (reachable_rep m Hr) as [a H]. unfold MeshToDualGraph.
  destruct (dual_loop m a H r constrained (seq 0 (num (src r) m)) (Dual (replicate (num (tgt r) m) []) ∅)) as (st & E & R).
  { intros f Hf. apply elem_of_seq in Hf. lia. } { cbn. apply replicate_length. }
  rewrite E. cbn [mbind outcome_bind]. destruct R as [P C]. cbn [d_conns d_constraints] in P, C. apply pushed_rows in P as [Hl Hrows].
  set (evs := dual_events m a r constrained (seq 0 (num (src r) m))) in *. set (conns := d_conns st) in *.
  eexists _, _. split; [done|]. cbn [nadj nodes_weight edges_constrained edges_weight Cols].
  assert (Hin : forall v row c, conns !! v = Some row -> c ∈ row -> (v, c) ∈ evs).
  { intros v row c Hv Hc. pose proof (lookup_lt_Some _ _ _ Hv) as Hlt. rewrite Hrows in Hv by lia. injection Hv as <-. by apply events_in. }
  assert (Hcnt : forall u b f l, RelNeighbours r f m = Ok l ->
     count_occ (decide_rel (=)) (map key (events_of u evs)) (b, f) = shared l u b).
  { intros u b f l Hf. apply (dual_events_count m a H); [apply NoDup_seq|done|]. apply elem_of_seq.
    unfold RelNeighbours in Hf. destruct (Nat.ltb_spec f (num (src r) m)); [lia|done]. }
  split_and!.
  - rewrite <- Hl. apply rows_adj_ok. intros row c [v Hv]%elem_of_list_lookup Hc. rewrite Hl.
    pose proof (dual_events_in m a H r constrained _ v c (Hin v row c Hv Hc)). tauto.
  - done.
  - by rewrite !map_length.
  - by rewrite !map_length.
  - rewrite map_length. clear. generalize (conn_weight nw (length constrained =? num (src r) m) (d_constraints st) (length (concat conns))).
    intros F. pose proof (imap_lengths F conns (length conns)) as Hi. rewrite <- (imap_length (fun v => map (F v)) conns) in Hi at 1.
    by rewrite !firstn_all in Hi.
  - intros u b f l Hu Hf. rewrite (slice_rows conns c_cell _ u _ (Hrows u Hu)), (slice_rows conns c_facet _ u _ (Hrows u Hu)).
    rewrite zip_map2. by apply Hcnt.
  - intros pos f Hpos. change (map c_facet (concat conns)) with (c_facet <$> concat conns) in Hpos.
    apply list_lookup_fmap_inv in Hpos as (c & -> & Hc).
    assert (Hce : exists v, (v, c) ∈ evs).
    { apply elem_of_list_lookup_2, elem_concat in Hc as (row & [v Hv]%elem_of_list_lookup & Hc). exists v. by eapply Hin. }
    destruct Hce as [v Hv]. pose proof (dual_events_in m a H r constrained _ v c Hv) as (_ & _ & Hcon & Hf). apply elem_of_seq in Hf.
    split; [lia|]. change (map c_constrained (concat conns)) with (c_constrained <$> concat conns). rewrite list_lookup_fmap, Hc. cbn.
    by rewrite Hcon.
  - intros pos u b Hent. apply entry_rows in Hent as (row & k & c & Hrow & Hk & Hcb & Hpos & Hc).
    set (F := conn_weight nw (length constrained =? num (src r) m) (d_constraints st) (length (concat conns))).
    assert (Hw : concat (imap (fun v => map (F v)) conns) !! pos = Some (F u c)).
    { assert (Hi : imap (fun v => map (F v)) conns !! u = Some (map (F u) row)) by (by rewrite list_lookup_imap, Hrow).
      rewrite Hpos, <- (imap_lengths F conns u), (concat_lookup _ _ _ k Hi).
      - change (map (F u) row) with (F u <$> row). by rewrite list_lookup_fmap, Hk.
      - rewrite map_length. by eapply lookup_lt_Some. }
    cbn zeta. rewrite Hw, map_length. unfold F, conn_weight. rewrite Hcb.
    split; [intros Hne; by rewrite (proj2 (Nat.eqb_neq _ _) Hne)|]. intros Heq. rewrite (proj2 (Nat.eqb_eq _ _) Heq).
    assert (Hset : (u, b) ∈ d_constraints st <-> exists f l, constrained !! f = Some true /\ RelNeighbours r f m = Ok l /\ 0 < shared l u b).
    { rewrite C. split.
      - intros [?|[f Hf]]; [set_solver|]. pose proof (dual_events_in m a H r constrained _ u _ Hf) as (_ & _ & Hcon & Hfs).
        cbn in Hcon, Hfs. apply elem_of_seq in Hfs. unfold is_constrained in Hcon. rewrite (proj2 (Nat.eqb_eq _ _) Heq) in Hcon.
        destruct (lookup_lt_is_Some_2 (am_cells a (src r)) f) as [x Hx]; [rewrite (g_num m a H) in Hfs; unfold anum in Hfs; lia|].
        exists f, (nb a r x). split_and!; [by destruct (constrained !! f) as [[]|]|by apply nb_neighbours|].
        rewrite <- (Hcnt u b f (nb a r x)) by (by apply nb_neighbours). apply count_occ_In. apply in_map_iff.
        exists (Conn true b f). split; [done|]. apply elem_of_list_In. by apply events_in.
      - intros (f & l & Hcf & Hl' & Hsh). right. rewrite <- (Hcnt u b f l Hl') in Hsh. apply count_occ_In, in_map_iff in Hsh as ([k' b' f'] & Ek & Hk').
        unfold key in Ek. cbn in Ek. injection Ek as -> ->. apply elem_of_list_In, events_in in Hk'. exists f.
        pose proof (dual_events_in m a H r constrained _ u _ Hk') as (_ & _ & Hcon & _). cbn in Hcon. unfold is_constrained in Hcon.
        rewrite (proj2 (Nat.eqb_eq _ _) Heq), Hcf in Hcon. cbn in Hcon. by subst k'. }
    split.
    + intros Hex. by rewrite decide_True by by apply Hset.
    + intros Hno. rewrite decide_False; [done|]. intros (f & l & H1 & H2 & H3)%Hset. rewrite (Hno f l H1 H2) in H3. lia.
Qed.
