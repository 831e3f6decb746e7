(** * Polyhedra from the lists of the vertices of their faces: proofs. *)
From Coq Require Import ZArith ZifyBool ZifyNat ZifyN.
From Verif Require Import Base BaseProof FacetModel FacetSpec.
Local Open Scope nat_scope.

(** Keys numbered in the order of their first appearances. *)
Section Numbering.
Context {K : Type} `{EqDecision K}.
Fixpoint nub (l : list K) : list K := match l with [] => [] | x :: l => x :: filter (fun y => y <> x) (nub l) end.
Lemma nub_elem l x : x ∈ nub l <-> x ∈ l.
Proof.
  induction l as [|y l IH]; [done|]. cbn. rewrite !elem_of_cons, elem_of_list_filter, IH. destruct (decide (x = y)); tauto.
Qed.
Lemma nub_nodup l : NoDup (nub l).
Proof.
  induction l as [|y l IH]; cbn; constructor.
  - rewrite elem_of_list_filter. tauto.
  - by apply NoDup_filter.
Qed.
Lemma nub_snoc l k : nub (l ++ [k]) = if bool_decide (k ∈ l) then nub l else nub l ++ [k].
Proof.
  induction l as [|y l IH]; [done|]. cbn [app nub]. rewrite IH.
  destruct (decide (k = y)) as [-> |NE].
  - rewrite (bool_decide_eq_true_2 (y ∈ y :: l)) by left. case_bool_decide; [done|].
    rewrite filter_app, filter_cons_False by tauto. by rewrite filter_nil, app_nil_r.
  - destruct (bool_decide_reflect (k ∈ l)) as [I|I].
    + rewrite bool_decide_eq_true_2 by (by right). done.
    + rewrite bool_decide_eq_false_2 by (intros [?|?]%elem_of_cons; done).
      rewrite filter_app, filter_cons_True by done. by rewrite filter_nil.
Qed.
Definition numbering (ids : list K) : list (K * nat) := zip ids (seq 0 (length ids)).
Lemma numbering_length ids : length (numbering ids) = length ids.
Proof. unfold numbering. rewrite zip_with_length, seq_length. lia. Qed.
Lemma numbering_fst ids : (numbering ids).*1 = ids.
Proof. apply fst_zip. rewrite seq_length. lia. Qed.
Lemma numbering_snd ids : (numbering ids).*2 = seq 0 (length ids).
Proof. apply snd_zip. rewrite seq_length. lia. Qed.
Lemma numbering_lookup ids i x : numbering ids !! i = Some x <-> ids !! i = Some x.1 /\ x.2 = i.
Proof.
  unfold numbering. destruct x as [k j]. rewrite lookup_zip_with_Some. cbn. split.
  - intros (a & b & E & A & B). injection E as -> ->. apply lookup_seq in B. split; [done|lia].
  - intros [A ->]. exists k, i. split; [done|]. split; [done|]. apply lookup_seq. split; [done|]. by apply lookup_lt_Some in A.
Qed.
Lemma numbering_elem ids k i : (k, i) ∈ numbering ids <-> ids !! i = Some k.
Proof.
  rewrite elem_of_list_lookup. split.
  - intros [j E]. apply numbering_lookup in E as [A B]. cbn in A, B. by subst.
  - intros A. exists i. apply numbering_lookup. done.
Qed.
Lemma number_step l k : number (numbering (nub l)) k = numbering (nub (l ++ [k])).
Proof.
  unfold number. rewrite numbering_fst, nub_snoc.
  destruct (bool_decide_reflect (k ∈ l)) as [I|I]; destruct (bool_decide_reflect (k ∈ nub l)) as [J|J]; rewrite nub_elem in J; try done.
  unfold numbering. rewrite app_length. cbn. rewrite seq_app, zip_with_app by (by rewrite seq_length). cbn.
  rewrite zip_with_length, seq_length. by rewrite Nat.min_id.
Qed.
Lemma number_fold l l0 : foldl number (numbering (nub l0)) l = numbering (nub (l0 ++ l)).
Proof.
  revert l0. induction l as [|k l IH]; intros l0; cbn; [by rewrite app_nil_r|]. rewrite number_step, IH. by rewrite <-app_assoc.
Qed.
Lemma number_of_ok ids k i : NoDup ids -> ids !! i = Some k -> number_of (numbering ids) k = Ok i.
Proof.
  intros ND I. unfold number_of. destruct (list_find (fun x : K * nat => x.1 = k) (numbering ids)) as [[j x]|] eqn:F.
  - apply list_find_Some in F as (A & B & _). apply numbering_lookup in A as [A C]. rewrite B in A.
    pose proof (NoDup_lookup _ _ _ _ ND A I). congruence.
  - apply list_find_None in F. rewrite Forall_forall in F. exfalso. apply (F (k, i)); [|done]. by apply numbering_elem.
Qed.
End Numbering.

Lemma firsts_nub l : firsts l = nub l.
Proof. induction l as [|x l IH]; [done|]. cbn. by rewrite IH. Qed.

(** A list filled at given places. *)
Lemma fill {K V} (f : list V -> K * nat -> outcome (list V)) (val : K -> V) (L : list (K * nat)) :
  NoDup L.*2 -> forall init, (forall l k i, (k, i) ∈ L -> length l = length init -> f l (k, i) = Ok (<[i := val k]> l)) ->
  (forall i, i ∈ L.*2 -> i < length init) ->
  exists r, ofold f L init = Ok r /\ length r = length init /\ (forall k i, (k, i) ∈ L -> r !! i = Some (val k)) /\
    (forall i, i ∉ L.*2 -> r !! i = init !! i).
Proof.
  induction L as [|[k i] L IH]; intros ND init F B.
  - exists init. split; [done|]. split; [done|]. split; [|done]. intros k i I. by apply elem_of_nil in I.
  - cbn [fmap list_fmap] in ND. apply NoDup_cons in ND as [NI ND]. cbn [ofold]. rewrite (F init k i) by (done || left). cbn [mbind outcome_bind].
    destruct (IH ND (<[i := val k]> init)) as (r & E & LE & R1 & R2).
    { intros l k' i' I LL. rewrite insert_length in LL. apply F; [by right|done]. }
    { intros j J. rewrite insert_length. apply B. by right. }
    rewrite insert_length in LE. exists r. split; [done|]. split; [done|]. split.
    + intros k' i' [EQ|I]%elem_of_cons; [|by apply R1]. injection EQ as -> ->. rewrite R2 by done.
      apply list_lookup_insert. apply B. left.
    + intros j J. cbn in J. rewrite R2 by (intros J'; apply J; by right). apply list_lookup_insert_ne. intros ->. apply J. left.
Qed.
Lemma fill_numbering {K V} `{EqDecision K} (f : list V -> K * nat -> outcome (list V)) (val : K -> V) (d : V) (ids : list K) (L : list (K * nat)) :
  L ≡ₚ numbering ids ->
  (forall l k i, ids !! i = Some k -> length l = length ids -> f l (k, i) = Ok (<[i := val k]> l)) ->
  ofold f L (replicate (length ids) d) = Ok (val <$> ids).
Proof.
  intros P F. assert (L.*2 ≡ₚ seq 0 (length ids)) as PS by (rewrite P; by rewrite numbering_snd).
  destruct (fill f val L) with (init := replicate (length ids) d) as (r & E & LE & R & _).
  - rewrite PS. apply NoDup_seq.
  - intros l k i I LL. rewrite replicate_length in LL. apply F; [|done]. rewrite P in I. by apply numbering_elem.
  - intros i I. rewrite PS in I. apply elem_of_seq in I. rewrite replicate_length. lia.
  - rewrite E. f_equal. rewrite replicate_length in LE. apply list_eq. intros i. rewrite list_lookup_fmap.
    destruct (ids !! i) as [k|] eqn:I; cbn.
    + apply R. rewrite P. by apply numbering_elem.
    + apply lookup_ge_None in I. apply lookup_ge_None. lia.
Qed.

Lemma vertices_numbered facets : FacetsToVertices facets = numbering (firsts (concat facets)).
Proof.
  rewrite firsts_nub. unfold FacetsToVertices. change [] with (numbering (nub (@nil nat))) at 1.
  assert (forall l0, foldl (fun m facet => foldl number m facet) (numbering (nub l0)) facets = numbering (nub (l0 ++ concat facets))) as G; [|apply (G [])].
  induction facets as [|f fs IH]; intros l0; cbn; [by rewrite app_nil_r|]. rewrite number_fold, IH. by rewrite <-app_assoc.
Qed.

(** The sides of a facet. *)
Definition side_key (facet : list nat) (k : nat) : nat * nat :=
  let a := nth k facet 0 in let b := nth ((k + 1) mod length facet) facet 0 in (a `min` b, a `max` b).
Definition sides (facet : list nat) : list (nat * nat) := side_key facet <$> seq 0 (length facet).
Lemma nth_ok (l : list nat) k : k < length l -> l !! k = Some (nth k l 0).
Proof. intros L. destruct (lookup_lt_is_Some_2 l k L) as [x X]. rewrite X. f_equal. symmetry. by apply nth_lookup_Some. Qed.
Lemma facet_side_ok facet k : k < length facet -> facet_side facet k = Ok (side_key facet k).
Proof.
  intros L. unfold facet_side, vget, side_key. rewrite (nth_ok facet k) by done. cbn [mbind outcome_bind].
  rewrite (nth_ok facet ((k + 1) mod length facet)) by (apply Nat.mod_upper_bound; lia). done.
Qed.
Lemma edges_numbered facets : FacetsToEdges facets = Ok (numbering (nub (concat (sides <$> facets)))).
Proof.
  unfold FacetsToEdges. change [] with (numbering (nub (@nil (nat * nat)))) at 1.
  assert (forall facet l0 n j, j + n <= length facet ->
    ofold (fun m k => s ← facet_side facet k; Ok (number m s)) (seq j n) (numbering (nub l0)) = Ok (numbering (nub (l0 ++ (side_key facet <$> seq j n))))) as G1.
  { intros facet l0 n. revert l0. induction n as [|n IH]; intros l0 j L; cbn; [by rewrite app_nil_r|].
    rewrite facet_side_ok by lia. cbn [mbind outcome_bind]. rewrite number_step, IH by lia. by rewrite <-app_assoc. }
  assert (forall l0, ofold (fun m facet => ofold (fun m k => s ← facet_side facet k; Ok (number m s)) (seq 0 (length facet)) m) facets (numbering (nub l0)) =
    Ok (numbering (nub (l0 ++ concat (sides <$> facets))))) as G; [|apply (G [])].
  induction facets as [|f fs IH]; intros l0; cbn; [by rewrite app_nil_r|]. rewrite G1 by lia. cbn [mbind outcome_bind]. rewrite IH.
  by rewrite <-app_assoc.
Qed.

Section Build.
Context {P : Type} (ov : list (nat * nat) -> list (nat * nat)) (oe : list ((nat * nat) * nat) -> list ((nat * nat) * nat)).
Context (OV : forall l, ov l ≡ₚ l) (OE : forall l, oe l ≡ₚ l) (points : list P) (facets : list (list nat)).
Context (IN : Forall (Forall (fun a => a < length points)) facets).

Let ids := firsts (concat facets).
Let es := nub (concat (sides <$> facets)).
Let idx (a : nat) : nat := match number_of (numbering ids) a with Ok i => i | _ => 0 end.
Let eidx (s : nat * nat) : nat := match number_of (numbering es) s with Ok i => i | _ => 0 end.
Let eval (s : nat * nat) : nat * nat := (idx s.1, idx s.2).
Let column (facet : list nat) (k : nat) : nat * nat := (idx (nth k facet 0), eidx (side_key facet k)).

Lemma ids_nodup : NoDup ids.
Proof. unfold ids. rewrite firsts_nub. apply nub_nodup. Qed.
Lemma in_facets facet a : facet ∈ facets -> a ∈ facet -> a ∈ concat facets.
Proof. intros F A. rewrite elem_of_list_In, in_concat. exists facet. by rewrite <-!elem_of_list_In. Qed.
Lemma idx_ok a : a ∈ concat facets -> number_of (numbering ids) a = Ok (idx a) /\ ids !! idx a = Some a.
Proof.
  intros A. assert (a ∈ ids) as I by (unfold ids; rewrite firsts_nub; by apply nub_elem). apply elem_of_list_lookup in I as [i I].
  pose proof (number_of_ok ids a i ids_nodup I) as N. unfold idx. rewrite N. done.
Qed.
Lemma side_in facet k : facet ∈ facets -> k < length facet -> side_key facet k ∈ concat (sides <$> facets).
Proof.
  intros F K. rewrite elem_of_list_In, in_concat. exists (sides facet). rewrite <-!elem_of_list_In. split.
  - apply elem_of_list_fmap. eauto.
  - apply elem_of_list_fmap. exists k. split; [done|]. apply elem_of_seq. lia.
Qed.
Lemma in_side s : s ∈ concat (sides <$> facets) -> exists facet k, facet ∈ facets /\ k < length facet /\ s = side_key facet k.
Proof.
  rewrite elem_of_list_In, in_concat. intros (l & L & S). rewrite <-elem_of_list_In in L. rewrite <-elem_of_list_In in S. apply elem_of_list_fmap in L as (facet & -> & F).
  apply elem_of_list_fmap in S as (k & -> & K). apply elem_of_seq in K. exists facet, k. split; [done|]. split; [lia|done].
Qed.
Lemma eidx_ok s : s ∈ concat (sides <$> facets) -> number_of (numbering es) s = Ok (eidx s) /\ es !! eidx s = Some s.
Proof.
  intros A. assert (s ∈ es) as I by (by apply nub_elem). apply elem_of_list_lookup in I as [i I].
  pose proof (number_of_ok es s i (nub_nodup _) I) as N. unfold eidx. rewrite N. done.
Qed.
Lemma nth_in facet k : k < length facet -> nth k facet 0 ∈ facet.
Proof. intros K. eapply elem_of_list_lookup_2. by apply nth_ok. Qed.
Lemma side_parts s : s ∈ concat (sides <$> facets) -> s.1 ∈ concat facets /\ s.2 ∈ concat facets /\ s.1 <= s.2.
Proof.
  intros (facet & k & F & K & ->)%in_side. unfold side_key. cbn [fst snd].
  pose proof (in_facets facet _ F (nth_in facet k K)) as A.
  pose proof (in_facets facet _ F (nth_in facet ((k + 1) mod length facet) ltac:(apply Nat.mod_upper_bound; lia))) as B.
  revert A B. generalize (nth k facet 0), (nth ((k + 1) mod length facet) facet 0). intros a b A B.
  destruct (Nat.le_ge_cases a b) as [L|L].
  - rewrite Nat.min_l, Nat.max_r by done. done.
  - rewrite Nat.min_r, Nat.max_l by done. done.
Qed.

Let faces : list (list (nat * nat)) := (fun facet => column facet <$> seq 0 (length facet)) <$> facets.

Lemma build_ok : exists ps, Forall2 (fun a x => points !! a = Some x) ids ps /\
  FacetsToPolyhedron ov oe points facets = Ok (Polyhedron ps (eval <$> es) faces).
Proof.
  assert (exists ps, omapM (vget points) ids = Ok ps) as [ps PS].
  { assert (Forall (fun a => a < length points) ids) as B.
    { apply Forall_forall. intros a A. unfold ids in A. rewrite firsts_nub, nub_elem in A. rewrite elem_of_list_In, in_concat in A.
      destruct A as (f & F & A). rewrite <-elem_of_list_In in F. rewrite <-elem_of_list_In in A. rewrite Forall_forall in IN. specialize (IN f F). rewrite Forall_forall in IN. by apply IN. }
    induction B as [|a l A B IH]; [by exists []|]. destruct IH as [ps PS]. destruct (lookup_lt_is_Some_2 points a A) as [x X].
    exists (x :: ps). cbn [omapM]. assert (vget points a = Ok x) as -> by (unfold vget; by rewrite X). cbn [mbind outcome_bind]. rewrite PS. done. }
  exists ps. split.
  { apply omapM_ok in PS. eapply Forall2_impl; [exact PS|]. intros a x A. cbn in A. unfold vget in A. destruct (points !! a); [by injection A as ->|done]. }
  unfold FacetsToPolyhedron. cbv zeta. rewrite vertices_numbered. fold ids. rewrite numbering_length.
  rewrite (fill_numbering write_id (fun k => k) 0 ids).
  2: apply OV.
  2: { intros l k i I L. unfold write_id. cbn [fst snd]. rewrite decide_True; [done|]. rewrite L. by eapply lookup_lt_Some. }
  cbn [mbind outcome_bind]. rewrite list_fmap_id, PS. cbn [mbind outcome_bind]. rewrite edges_numbered. fold es. cbn [mbind outcome_bind].
  assert (omapM (fun facet => omapM (facet_column (numbering ids) (numbering es) facet) (seq 0 (length facet))) facets = Ok faces) as ->.
  { apply omapM_ok. unfold faces. apply Forall2_fmap_r. apply Forall_Forall2_diag. apply Forall_forall. intros facet F.
    apply omapM_ok. apply Forall2_fmap_r. apply Forall_Forall2_diag. apply Forall_forall. intros k K. apply elem_of_seq in K.
    unfold facet_column, vget. rewrite (nth_ok facet k) by lia. cbn [mbind outcome_bind].
    rewrite (proj1 (idx_ok _ (in_facets facet _ F (nth_in facet k ltac:(lia))))). cbn [mbind outcome_bind].
    rewrite facet_side_ok by lia. cbn [mbind outcome_bind].
    rewrite (proj1 (eidx_ok _ (side_in facet k F ltac:(lia)))). done. }
  cbn [mbind outcome_bind]. rewrite numbering_length.
  rewrite (fill_numbering (write_edge (numbering ids)) eval (0, 0) es); [done|apply OE|].
  intros l s i I L. assert (s ∈ concat (sides <$> facets)) as S by (apply nub_elem; by eapply elem_of_list_lookup_2).
  destruct (side_parts s S) as (A & B & _). unfold write_edge. cbn [fst snd].
  rewrite (proj1 (idx_ok _ A)). cbn [mbind outcome_bind]. rewrite (proj1 (idx_ok _ B)). cbn [mbind outcome_bind].
  unfold vset. rewrite decide_True; [done|]. rewrite L. by eapply lookup_lt_Some.
Qed.

Lemma edge_inv e v w : edge_joins (eval <$> es) e v w -> exists s, es !! e = Some s /\ s.1 <= s.2 /\
  ((ids !! v = Some s.1 /\ ids !! w = Some s.2) \/ (ids !! w = Some s.1 /\ ids !! v = Some s.2)).
Proof.
  unfold edge_joins. rewrite list_lookup_fmap. destruct (es !! e) as [s|] eqn:S; cbn; [|intros [?|?]; done].
  assert (s ∈ concat (sides <$> facets)) as I by (apply nub_elem; by eapply elem_of_list_lookup_2).
  destruct (side_parts s I) as (A & B & C). apply idx_ok in A as [_ A]. apply idx_ok in B as [_ B].
  intros J. exists s. split; [done|]. split; [done|]. unfold eval in J. destruct J as [J|J]; apply (inj Some) in J; injection J as <- <-; tauto.
Qed.
Lemma build_spec : exists p, FacetsToPolyhedron ov oe points facets = Ok p /\ polyhedron_of points facets p.
Proof.
  destruct build_ok as (ps & F & E). exists (Polyhedron ps (eval <$> es) faces). split; [exact E|]. split; cbn [ph_vertices ph_edges ph_faces].
  - exact F.
  - unfold faces. apply Forall2_fmap_l. apply Forall_Forall2_diag. apply Forall_forall. intros facet FA.
    apply Forall2_same_length_lookup. split; [by rewrite fmap_length, seq_length|]. intros i x a X A.
    rewrite list_lookup_fmap in X. destruct (seq 0 (length facet) !! i) as [k|] eqn:K; [|done]. apply lookup_seq in K as [-> K]. cbn in X. injection X as <-.
    cbn [fst column]. apply nth_lookup_Some with (d := 0) in A as NA. rewrite NA. apply idx_ok. apply (in_facets facet); [done|]. by eapply elem_of_list_lookup_2.
  - unfold faces. apply Forall_fmap. apply Forall_forall. intros facet FA k v e w e' X Y. cbn in X, Y.
    rewrite fmap_length, seq_length in Y.
    rewrite list_lookup_fmap in X, Y. destruct (seq 0 (length facet) !! k) as [k'|] eqn:K; [|done]. apply lookup_seq in K as [-> K].
    destruct (seq 0 (length facet) !! ((k + 1) mod length facet)) as [j|] eqn:J; [|done]. apply lookup_seq in J as [-> J].
    cbn [fmap option_fmap option_map] in X, Y. cbn [Nat.add] in X, Y. apply (inj Some) in X, Y. unfold column in X, Y. injection X as <- <-. injection Y as <- <-.
    unfold edge_joins. rewrite list_lookup_fmap. rewrite (proj2 (eidx_ok _ (side_in facet k FA K))). cbn [fmap option_fmap option_map]. unfold eval, side_key. cbn [fst snd].
    set (a := nth k facet 0). set (b := nth ((k + 1) mod length facet) facet 0).
    destruct (Nat.le_ge_cases a b) as [L|L].
    + left. rewrite Nat.min_l, Nat.max_r by done. done.
    + right. rewrite Nat.min_r, Nat.max_l by done. done.
  - intros e L. rewrite fmap_length in L. destruct (lookup_lt_is_Some_2 es e L) as [s S].
    assert (s ∈ concat (sides <$> facets)) as I by (apply nub_elem; by eapply elem_of_list_lookup_2).
    destruct (in_side s I) as (facet & k & FA & K & Q). exists (column facet <$> seq 0 (length facet)), k, (idx (nth k facet 0)). split.
    + unfold faces. apply elem_of_list_fmap. eauto.
    + rewrite list_lookup_fmap. rewrite (proj2 (lookup_seq 0 (length facet) k k)) by done. cbn [fmap option_fmap option_map]. unfold column. rewrite <-Q.
      do 2 f_equal. destruct (eidx_ok s I) as [_ S']. exact (NoDup_lookup _ _ _ _ (nub_nodup _) S' S).
  - intros e e' v w J J'. apply edge_inv in J as (s & S & L & J). apply edge_inv in J' as (s' & S' & L' & J').
    assert (s = s') as <-; [|exact (NoDup_lookup _ _ _ _ (nub_nodup _) S S')].
    destruct s as [a b], s' as [a' b']. cbn [fst snd] in *.
    destruct J as [[J1 J2]|[J1 J2]], J' as [[J1' J2']|[J1' J2']].
    + congruence.
    + assert (a = b') by congruence. assert (b = a') by congruence. f_equal; lia.
    + assert (a = b') by congruence. assert (b = a') by congruence. f_equal; lia.
    + congruence.
Qed.
End Build.

(** From a polyhedron back to the vertices of its faces. *)
Lemma back {P} (points : list P) facets p : polyhedron_of points facets p -> Forall2 (Forall2 (fun v a => firsts (concat facets) !! v = Some a)) (PolyhedronToFacets p) facets.
Proof.
  intros H. unfold PolyhedronToFacets. change (map (map fst) (ph_faces p)) with ((fun l : list (nat * nat) => l.*1) <$> ph_faces p). apply Forall2_fmap_l.
  eapply Forall2_impl; [exact (po_faces _ _ _ H)|]. intros face facet F. cbn. by apply Forall2_fmap_l.
Qed.
Lemma back_same {P} (points : list P) facets p : firsts (concat facets) = seq 0 (length points) -> polyhedron_of points facets p ->
  PolyhedronToFacets p = facets /\ ph_vertices p = points.
Proof.
  intros S H. pose proof (back points facets p H) as B. rewrite S in B. split.
  - revert B. generalize (PolyhedronToFacets p). clear. intros l B. induction B as [|row facet l fs R B IH]; [done|]. f_equal; [|done].
    clear - R. induction R as [|v a l fs E R IH]; [done|]. apply lookup_seq in E as [-> _]. by rewrite <-IH.
  - pose proof (po_vertices _ _ _ H) as V. rewrite S in V. symmetry. apply list_eq. intros i.
    destruct (decide (i < length points)) as [L|L].
    + destruct (Forall2_lookup_l _ _ _ i i V) as (x & X & E); [by apply lookup_seq|]. by rewrite X, E.
    + apply Forall2_length in V. rewrite seq_length in V. rewrite !lookup_ge_None_2 by lia. done.
Qed.

(** Turning a face round. *)
Lemma vset_in {A} (l : list A) i a : i < length l -> vset l i a = Ok (<[i := a]> l).
Proof. intros L. unfold vset. by rewrite decide_True. Qed.
Lemma orientation_ok n : 0 < n -> exists l, ChangePolygonOrientation n = Ok l /\ length l = n /\
  forall i, i < n -> l !! i = Some (if i =? 0 then 0 else n - i).
Proof.
  intros N. unfold ChangePolygonOrientation. rewrite vset_in by (by rewrite replicate_length). cbn [mbind outcome_bind].
  assert (forall c j l, j + c = n -> 0 < j -> length l = n -> (forall i, i < j -> l !! i = Some (if i =? 0 then 0 else n - i)) ->
    exists r, ofold (fun l i => vset l i (n - i)) (seq j c) l = Ok r /\ length r = n /\ forall i, i < n -> r !! i = Some (if i =? 0 then 0 else n - i)) as G.
  { induction c as [|c IH]; intros j l E J L H.
    - exists l. split; [done|]. split; [done|]. intros i I. apply H. lia.
    - cbn [seq ofold]. rewrite vset_in by lia. cbn [mbind outcome_bind]. apply IH; [lia|lia|by rewrite insert_length|].
      intros i I. destruct (decide (i = j)) as [-> |NE].
      + rewrite list_lookup_insert by lia. destruct (Nat.eqb_spec j 0); [lia|done].
      + rewrite list_lookup_insert_ne by done. apply H. lia. }
  apply (G (n - 1) 1); [lia|lia|by rewrite insert_length, replicate_length|].
  intros i I. assert (i = 0) as -> by lia. rewrite list_lookup_insert by (by rewrite replicate_length). done.
Qed.
Lemma turn_ok {P} (p : polyhedron P) f face : ph_faces p !! f = Some face -> face <> [] ->
  exists new, ChangePolyhedronFaceOrientation p f = Ok new /\ length new = length face /\
    (forall i, i < length face -> exists a b, face !! (if i =? 0 then 0 else length face - i) = Some a /\
      face !! (length face - i - 1) = Some b /\ new !! i = Some (a.1, b.2)).
Proof.
  intros F NE. assert (0 < length face) as L by (destruct face; [done|cbn; lia]).
  destruct (orientation_ok (length face) L) as (l & O & LL & OL).
  unfold ChangePolyhedronFaceOrientation. assert (vat (ph_faces p) f = Ok face) as -> by (unfold vat; by rewrite F). cbn [mbind outcome_bind]. cbv zeta.
  rewrite O. cbn [mbind outcome_bind].
  set (val := fun i => (fst (nth (if i =? 0 then 0 else length face - i) face (0, 0)), snd (nth (length face - i - 1) face (0, 0)))).
  assert (forall k, k < length face -> face !! k = Some (nth k face (0, 0))) as NT.
  { intros k K. destruct (lookup_lt_is_Some_2 face k K) as [x X]. rewrite X. f_equal. symmetry. by apply nth_lookup_Some. }
  exists (val <$> seq 0 (length face)). split; [|split].
  - apply omapM_ok. apply Forall2_fmap_r. apply Forall_Forall2_diag. apply Forall_forall. intros i I. apply elem_of_seq in I.
    unfold vat. rewrite OL by lia. cbn [mbind outcome_bind]. unfold vget.
    assert ((if (if i =? 0 then 0 else length face - i) =? 0 then length face - 1 else (if i =? 0 then 0 else length face - i) - 1) = length face - i - 1) as ->.
    { destruct (Nat.eqb_spec i 0); [cbn; lia|]. destruct (Nat.eqb_spec (length face - i) 0); lia. }
    rewrite (NT (if i =? 0 then 0 else length face - i)) by (destruct (Nat.eqb_spec i 0); lia). cbn [mbind outcome_bind].
    rewrite (NT (length face - i - 1)) by lia. done.
  - by rewrite fmap_length, seq_length.
  - intros i I. exists (nth (if i =? 0 then 0 else length face - i) face (0, 0)), (nth (length face - i - 1) face (0, 0)).
    split; [apply NT; destruct (Nat.eqb_spec i 0); lia|]. split; [apply NT; lia|].
    rewrite list_lookup_fmap. rewrite (proj2 (lookup_seq 0 (length face) i i)) by done. done.
Qed.
Lemma turn_vertices {P} (p : polyhedron P) f face : ph_faces p !! f = Some face -> face <> [] ->
  exists new, ChangePolyhedronFaceOrientation p f = Ok new /\ new.*1 = turned face.*1 /\
    (forall edges, closed_face edges face -> closed_face edges new) /\
    forall (q : polyhedron P) h, ph_faces q !! h = Some new -> ChangePolyhedronFaceOrientation q h = Ok face.
Proof.
  intros F NE. destruct (turn_ok p f face F NE) as (new & E & L & H). exists new. split; [done|].
  assert (0 < length face) as LP by (destruct face; [done|cbn; lia]). split; [|split].
  - apply list_eq. intros i. rewrite list_lookup_fmap. destruct (decide (i < length face)) as [I|I].
    + destruct (H i I) as (a & b & A & _ & ->). cbn [fmap option_fmap option_map]. destruct face as [|x face]; [done|]. rewrite fmap_cons. cbn [turned].
      destruct i as [|i]; [cbn in A |- *; by injection A as ->|]. cbn [Nat.eqb] in A. cbn [length] in A, I. change ((x.1 :: reverse face.*1) !! S i) with (reverse face.*1 !! i).
      rewrite reverse_lookup by (rewrite fmap_length; lia). rewrite fmap_length, list_lookup_fmap.
      replace (S (length face) - S i) with (S (length face - S i)) in A by lia.
      change ((x :: face) !! S (length face - S i)) with (face !! (length face - S i)) in A. by rewrite A.
    + rewrite (lookup_ge_None_2 new) by lia. destruct face as [|x face]; [done|]. rewrite fmap_cons. cbn [turned]. symmetry. apply lookup_ge_None_2.
      cbn [length] in I |- *. rewrite reverse_length. rewrite fmap_length. lia.
  - intros edges C k v e w e' K K'. rewrite L in K'. pose proof (lookup_lt_Some _ _ _ K) as KL. rewrite L in KL.
    destruct (H k KL) as (a & b & A & B & N). rewrite N in K. apply (inj Some) in K. injection K as <- <-.
    pose proof (lookup_lt_Some _ _ _ K') as KL'. rewrite L in KL'. destruct (H _ KL') as (a' & b' & A' & B' & N').
    rewrite N' in K'. apply (inj Some) in K'. injection K' as <- <-.
    assert ((k + 1) mod length face = if k + 1 =? length face then 0 else k + 1) as M.
    { destruct (Nat.eqb_spec (k + 1) (length face)) as [-> |]; [apply Nat.mod_same; lia|apply Nat.mod_small; lia]. }
    assert ((length face - k - 1 + 1) mod length face = if k =? 0 then 0 else length face - k) as M2.
    { destruct (Nat.eqb_spec k 0) as [-> |]; [replace (length face - 0 - 1 + 1) with (length face) by lia; apply Nat.mod_same; lia|].
      replace (length face - k - 1 + 1) with (length face - k) by lia. apply Nat.mod_small. lia. }
    assert ((if (k + 1) mod length face =? 0 then 0 else length face - (k + 1) mod length face) = length face - k - 1) as M3.
    { rewrite M. destruct (Nat.eqb_spec (k + 1) (length face)); [cbn; lia|]. destruct (Nat.eqb_spec (k + 1) 0); lia. }
    rewrite M3 in A'. assert (a' = b) as -> by congruence. rewrite <-M2 in A. destruct a as [a1 a2], b as [b1 b2].
    pose proof (C _ _ _ _ _ B A) as J. unfold edge_joins in *. cbn [fst snd]. tauto.
  - intros q h Q. assert (new <> []) as NN by (intros ->; cbn in L; lia). destruct (turn_ok q h new Q NN) as (new2 & E2 & L2 & H2). rewrite E2. f_equal.
    apply list_eq. intros i. destruct (decide (i < length face)) as [I|I]; [|rewrite !lookup_ge_None_2 by lia; done].
    rewrite L in H2, L2. destruct (H2 i I) as (a & b & A & B & ->).
    assert ((if i =? 0 then 0 else length face - i) < length face) as I1 by (destruct (Nat.eqb_spec i 0); lia).
    destruct (H _ I1) as (c & d & C1 & _ & C3). destruct (H (length face - i - 1) ltac:(lia)) as (c' & d' & _ & D2 & D3).
    rewrite A in C3. apply (inj Some) in C3. subst a. rewrite B in D3. apply (inj Some) in D3. subst b. cbn [fst snd].
    replace (length face - (length face - i - 1) - 1) with i in D2 by lia.
    assert ((if (if i =? 0 then 0 else length face - i) =? 0 then 0 else length face - (if i =? 0 then 0 else length face - i)) = i) as M.
    { destruct (Nat.eqb_spec i 0) as [-> |]; [done|]. destruct (Nat.eqb_spec (length face - i) 0); lia. }
    rewrite M in C1. rewrite D2 in C1. apply (inj Some) in C1. subst d'. rewrite D2. by destruct c.
Qed.

(** All faces. *)
Lemma turn_faces {P} (p : polyhedron P) keep : length keep = length (ph_faces p) -> Forall (fun face => face <> []) (ph_faces p) ->
  exists faces, ChangePolyhedronFacesOrientation p keep = Ok faces /\ length faces = length (ph_faces p) /\
    forall f b face, keep !! f = Some b -> ph_faces p !! f = Some face ->
      exists new, faces !! f = Some new /\ if (b : bool) then new = face else ChangePolyhedronFaceOrientation p f = Ok new.
Proof.
  intros K NE. unfold ChangePolyhedronFacesOrientation.
  assert (forall c j faces, j + c = length (ph_faces p) -> length faces = length (ph_faces p) ->
    (forall f b face, f < j -> keep !! f = Some b -> ph_faces p !! f = Some face ->
      exists new, faces !! f = Some new /\ if (b : bool) then new = face else ChangePolyhedronFaceOrientation p f = Ok new) ->
    (forall f, j <= f -> faces !! f = ph_faces p !! f) ->
    exists r, ofold (fun faces f => b ← vat keep f; if (b : bool) then Ok faces else face ← ChangePolyhedronFaceOrientation p f; vset faces f face) (seq j c) faces = Ok r /\
      length r = length (ph_faces p) /\
      forall f b face, keep !! f = Some b -> ph_faces p !! f = Some face ->
        exists new, r !! f = Some new /\ if (b : bool) then new = face else ChangePolyhedronFaceOrientation p f = Ok new) as G.
  { induction c as [|c IH]; intros j faces E L H U.
    - exists faces. split; [done|]. split; [done|]. intros f b face B F. apply H; [|done|done]. apply lookup_lt_Some in F. lia.
    - cbn [seq ofold]. destruct (lookup_lt_is_Some_2 keep j ltac:(lia)) as [b B]. destruct (lookup_lt_is_Some_2 (ph_faces p) j ltac:(lia)) as [face F].
      assert (vat keep j = Ok b) as -> by (unfold vat; by rewrite B). cbn [mbind outcome_bind]. destruct b.
      + cbn [mbind outcome_bind]. apply IH; [lia|done| |intros f FL; apply U; lia]. intros f b' face' FL B' F'. destruct (decide (f = j)) as [-> |NJ].
        * assert (b' = true) as -> by congruence. exists face'. split; [|done]. rewrite U by lia. done.
        * apply H; [lia|done|done].
      + assert (face <> []) as N by (rewrite Forall_forall in NE; apply NE; by eapply elem_of_list_lookup_2).
        destruct (turn_ok p j face F N) as (new & T & _). rewrite T. cbn [mbind outcome_bind]. rewrite vset_in by lia. cbn [mbind outcome_bind].
        apply IH; [lia|by rewrite insert_length| |intros f FL; rewrite list_lookup_insert_ne by lia; apply U; lia].
        intros f b' face' FL B' F'. destruct (decide (f = j)) as [-> |NJ].
        * assert (b' = false) as -> by congruence. exists new. rewrite list_lookup_insert by lia. done.
        * rewrite list_lookup_insert_ne by done. apply H; [lia|done|done]. }
  apply (G (length (ph_faces p)) 0); [lia|done|intros; lia|done].
Qed.
