(** * Tetrahedra, parallelepipeds and extruded polygons: proofs. *)
From Coq Require Import ZArith ZifyBool ZifyNat ZifyN.
From Verif Require Import Base BaseProof FacetModel FacetSpec MergeSpec PrismModel PrismSpec.
Local Open Scope nat_scope.

(** ** Polyhedra with given numbers. *)
Definition small_edge_of_face (faces : list (list (nat * nat))) (e f : nat) : bool :=
  match faces !! f with Some face => existsb (fun x => x.2 =? e) face | None => false end.
Lemma small_edge faces e f : edge_of_face faces e f <-> small_edge_of_face faces e f = true.
Proof.
  unfold edge_of_face, small_edge_of_face. split.
  - intros (face & v & -> & X). apply existsb_exists. exists (v, e). split; [by apply elem_of_list_In|apply Nat.eqb_refl].
  - destruct (faces !! f) as [face|] eqn:E; [|done]. rewrite existsb_exists. intros ([v e'] & X & Q). apply Nat.eqb_eq in Q. cbn in Q. subst e'.
    exists face, v. split; [done|by apply elem_of_list_In].
Qed.
Definition small_closed_face (edges : list (nat * nat)) (face : list (nat * nat)) : bool :=
  forallb (fun k => match face !! k, face !! ((k + 1) mod length face) with
    | Some x, Some y => bool_decide (edges !! x.2 = Some (x.1, y.1) \/ edges !! x.2 = Some (y.1, x.1)) | _, _ => true end) (seq 0 (length face)).
Lemma small_closed edges face : small_closed_face edges face = true -> closed_face edges face.
Proof.
  unfold small_closed_face. rewrite forallb_forall. intros H k v e w e' K W. specialize (H k). rewrite K, W in H.
  assert (In k (seq 0 (length face))) as I by (apply in_seq; apply lookup_lt_Some in K; lia). specialize (H I). by apply bool_decide_eq_true in H.
Qed.
Definition small_once (edges : list (nat * nat)) : bool :=
  forallb (fun e => forallb (fun e' => match edges !! e, edges !! e' with
    | Some x, Some y => bool_decide (e = e' \/ (x <> y /\ x <> (y.2, y.1))) | _, _ => true end) (seq 0 (length edges))) (seq 0 (length edges)).
Lemma small_once_ok edges : small_once edges = true -> forall e e' v w, edge_joins edges e v w -> edge_joins edges e' v w -> e = e'.
Proof.
  unfold small_once. rewrite forallb_forall. intros H e e' v w J J'.
  assert (exists x, edges !! e = Some x /\ (x = (v, w) \/ x = (w, v))) as (x & X & QX) by (destruct J; eauto).
  assert (exists x, edges !! e' = Some x /\ (x = (v, w) \/ x = (w, v))) as (y & Y & QY) by (destruct J'; eauto).
  specialize (H e). rewrite forallb_forall in H. assert (In e (seq 0 (length edges))) as I by (apply in_seq; apply lookup_lt_Some in X; lia).
  assert (In e' (seq 0 (length edges))) as I' by (apply in_seq; apply lookup_lt_Some in Y; lia). specialize (H I e' I'). rewrite X, Y in H. apply bool_decide_eq_true in H.
  destruct H as [H|[H1 H2]]; [done|]. destruct QX as [-> | ->], QY as [-> | ->]; done.
Qed.
Definition small_two (ne : nat) (faces : list (list (nat * nat))) : bool :=
  forallb (fun e => length (filter (fun f => small_edge_of_face faces e f = true) (seq 0 (length faces))) =? 2) (seq 0 ne).
Lemma small_two_ok ne faces : small_two ne faces = true -> forall e, e < ne -> exists f g, f <> g /\ forall h, edge_of_face faces e h <-> h = f \/ h = g.
Proof.
  unfold small_two. rewrite forallb_forall. intros H e E. specialize (H e ltac:(apply in_seq; lia)). apply Nat.eqb_eq in H.
  set (l := filter (fun f => small_edge_of_face faces e f = true) (seq 0 (length faces))) in *.
  assert (NoDup l) as N by apply NoDup_filter, NoDup_seq.
  assert (forall h, edge_of_face faces e h <-> h ∈ l) as Q.
  { intros h. unfold l. rewrite elem_of_list_filter, small_edge, elem_of_seq. split; [|by intros []]. intros S. split; [done|]. unfold small_edge_of_face in S.
    destruct (faces !! h) eqn:F; [|done]. apply lookup_lt_Some in F. lia. }
  destruct l as [|f [|g [|]]]; try done. exists f, g. split; [apply NoDup_cons in N as [N _]; intros ->; apply N; by left|].
  intros h. rewrite Q, !elem_of_cons, elem_of_nil. tauto.
Qed.
Definition small_proper (nv : nat) (edges : list (nat * nat)) (faces : list (list (nat * nat))) : bool :=
  forallb (fun e => (e.1 <? nv) && (e.2 <? nv) && negb (e.1 =? e.2)) edges &&
  forallb (fun face => (3 <=? length face) && bool_decide (NoDup face.*1) && small_closed_face edges face &&
    forallb (fun x => (x.1 <? nv) && (x.2 <? length edges)) face) faces.
Lemma small_polyhedron {P} (p : polyhedron P) : small_proper (length (ph_vertices p)) (ph_edges p) (ph_faces p) = true ->
  small_once (ph_edges p) = true -> small_two (length (ph_edges p)) (ph_faces p) = true -> closed_polyhedron p.
Proof.
  intros H H4 H5. apply andb_true_iff in H as [HE HF]. rewrite forallb_forall in HE. rewrite forallb_forall in HF.
  assert (forall e, e ∈ ph_edges p -> e.1 < length (ph_vertices p) /\ e.2 < length (ph_vertices p) /\ e.1 <> e.2) as HE'.
  { intros e X. apply elem_of_list_In in X. specialize (HE e X). lia. }
  assert (forall face, face ∈ ph_faces p -> 3 <= length face /\ NoDup face.*1 /\ closed_face (ph_edges p) face /\
    Forall (fun x => x.1 < length (ph_vertices p) /\ x.2 < length (ph_edges p)) face) as HF'.
  { intros face X. apply elem_of_list_In in X. specialize (HF face X). apply andb_true_iff in HF as [HF F4]. apply andb_true_iff in HF as [HF F3].
    apply andb_true_iff in HF as [F1 F2]. apply bool_decide_eq_true in F2. split; [lia|]. split; [done|]. split; [by apply small_closed|].
    apply Forall_forall. intros x Y. rewrite forallb_forall in F4. apply elem_of_list_In in Y. specialize (F4 x Y). lia. }
  split; [split| | |by apply small_once_ok|by apply small_two_ok]; apply Forall_forall.
  - intros e X. specialize (HE' e X). tauto.
  - intros face X. apply (HF' face X).
  - intros face X. specialize (HF' face X). tauto.
  - intros e X. apply (HE' e X).
Qed.
Ltac small := apply small_polyhedron; vm_compute; reflexivity.
Lemma tetrahedron_closed {P} (v1 v2 v3 v4 : P) : closed_polyhedron (CreateTetrahedronWithVertices v1 v2 v3 v4).
Proof. small. Qed.
Lemma tetrahedron_origin_closed {P} (add : P -> P -> P) o l h w : closed_polyhedron (CreateTetrahedronWithOrigin add o l h w).
Proof. small. Qed.
Lemma parallelepiped_closed {P} (add : P -> P -> P) o l h w : closed_polyhedron (CreateParallelepipedWithOrigin add o l h w).
Proof. small. Qed.

(** ** Extruded polygons. *)
Section Extrusion.
Context (n : nat) (N : 3 <= n).
Definition nx (v : nat) : nat := if decide (v + 1 = n) then 0 else v + 1.
Lemma nx_mod v : v < n -> (v + 1) mod n = nx v.
Proof. intros V. unfold nx. destruct (decide (v + 1 = n)) as [->|]; [apply Nat.mod_same; lia|apply Nat.mod_small; lia]. Qed.
Definition edges : list (nat * nat) :=
  ((fun v => (v, (v + 1) mod n)) <$> seq 0 n) ++ ((fun v => (n + v, n + (v + 1) mod n)) <$> seq 0 n) ++ ((fun v => (v, n + v)) <$> seq 0 n).
Definition faces : list (list (nat * nat)) :=
  ((fun v => (v, v)) <$> seq 0 n) :: ((fun v => (n + v, n + v)) <$> seq 0 n) :: (side_face n <$> seq 0 n).
Lemma seq_at {A} (f : nat -> A) v x : (f <$> seq 0 n) !! v = Some x <-> v < n /\ x = f v.
Proof.
  rewrite list_lookup_fmap_Some. split.
  - intros (u & U & ->). apply lookup_seq in U as [-> U]. done.
  - intros [V ->]. exists v. split; [|done]. apply lookup_seq. split; [done|lia].
Qed.
Lemma edges_at e x : edges !! e = Some x <->
  exists v, v < n /\ ((e = v /\ x = (v, nx v)) \/ (e = n + v /\ x = (n + v, n + nx v)) \/ (e = 2 * n + v /\ x = (v, n + v))).
Proof.
  unfold edges. split.
  - intros H. apply lookup_app_Some in H as [H|[B H]]; [|apply lookup_app_Some in H as [H|[B' H]]]; rewrite ?fmap_length, ?seq_length in *.
    + apply seq_at in H as [V ->]. exists e. rewrite nx_mod by done. eauto.
    + apply seq_at in H as [V ->]. exists (e - n). rewrite nx_mod by done. split; [done|]. right. left. split; [lia|done].
    + apply seq_at in H as [V ->]. exists (e - n - n). split; [done|]. right. right. split; [lia|done].
  - intros (v & V & [[-> ->]|[[-> ->]|[-> ->]]]).
    + rewrite lookup_app_l by (rewrite fmap_length, seq_length; lia). apply seq_at. by rewrite nx_mod.
    + rewrite lookup_app_r by (rewrite fmap_length, seq_length; lia). rewrite fmap_length, seq_length. replace (n + v - n) with v by lia.
      rewrite lookup_app_l by (rewrite fmap_length, seq_length; lia). apply seq_at. by rewrite nx_mod.
    + rewrite lookup_app_r by (rewrite fmap_length, seq_length; lia). rewrite fmap_length, seq_length. 
      rewrite lookup_app_r by (rewrite fmap_length, seq_length; lia). rewrite fmap_length, seq_length. replace (2 * n + v - n - n) with v by lia. by apply seq_at.
Qed.
Lemma side_list v : v < n -> side_face n v = [(v, v); (nx v, 2 * n + nx v); (n + nx v, n + v); (n + v, 2 * n + v)].
Proof. intros V. unfold side_face. by rewrite nx_mod. Qed.
Lemma nx_lt v : v < n -> nx v < n.
Proof. intros V. unfold nx. destruct (decide _); lia. Qed.
Lemma faces_at f face : faces !! f = Some face <-> (f = 0 /\ face = (fun v => (v, v)) <$> seq 0 n) \/ (f = 1 /\ face = (fun v => (n + v, n + v)) <$> seq 0 n) \/
  exists v, v < n /\ f = 2 + v /\ face = side_face n v.
Proof.
  unfold faces. destruct f as [|[|f]].
  - cbn. split; [intros [= <-]; by left|]. intros [[_ ->]|[[? _]|(v & _ & ? & _)]]; done.
  - cbn. split; [intros [= <-]; right; by left|]. intros [[? _]|[[_ ->]|(v & _ & ? & _)]]; done.
  - change (_ !! S (S f)) with ((side_face n <$> seq 0 n) !! f). rewrite seq_at. split.
    + intros [V ->]. right. right. by exists f.
    + intros [[? _]|[[? _]|(v & V & ? & ->)]]; [done|done|]. assert (v = f) as -> by lia. done.
Qed.
Lemma edges_length : length edges = 3 * n.
Proof. unfold edges. rewrite !app_length, !fmap_length, !seq_length. lia. Qed.
Lemma joins e v w x : edges !! e = Some x -> x = (v, w) \/ x = (w, v) -> edge_joins edges e v w.
Proof. intros E [-> | ->]; [by left|by right]. Qed.
Lemma joins_low v : v < n -> edge_joins edges v v (nx v).
Proof. intros V. left. apply edges_at. exists v. split; [done|]. by left. Qed.
Lemma joins_high v : v < n -> edge_joins edges (n + v) (n + v) (n + nx v).
Proof. intros V. left. apply edges_at. exists v. split; [done|]. right. by left. Qed.
Lemma joins_up v : v < n -> edge_joins edges (2 * n + v) v (n + v).
Proof. intros V. left. apply edges_at. exists v. split; [done|]. right. by right. Qed.
Lemma joins_sym e v w : edge_joins edges e v w -> edge_joins edges e w v.
Proof. intros [H|H]; [by right|by left]. Qed.
Lemma ring_closed (g : nat -> nat) : (forall v, v < n -> edge_joins edges (g v) (g v) (g (nx v))) -> closed_face edges ((fun v => (g v, g v)) <$> seq 0 n).
Proof.
  intros H k v e w e' K W. rewrite fmap_length, seq_length in W. apply seq_at in K as [B K]. apply seq_at in W as [_ W]. simplify_eq. rewrite nx_mod by done. by apply H.
Qed.
Lemma side_closed v : v < n -> closed_face edges (side_face n v).
Proof.
  intros V. pose proof (nx_lt v V) as V'. rewrite (side_list v V). intros k a e b e' K W.
  destruct k as [|[|[|[|k]]]]; [| | | |done]; apply (inj Some) in K; apply (inj Some) in W; injection K as <- <-; injection W as <- <-.
  - by apply joins_low.
  - by apply joins_up.
  - by apply joins_sym, joins_high.
  - by apply joins_sym, joins_up.
Qed.
Lemma ring_nodup (g : nat -> nat) : (forall a b, g a = g b -> a = b) -> NoDup (((fun v => (g v, g v)) <$> seq 0 n).*1).
Proof. intros G. rewrite <-list_fmap_compose. apply NoDup_fmap_2; [|apply NoDup_seq]. intros a b E. by apply G. Qed.
Lemma extrusion_faces : Forall (fun face => 3 <= length face /\ NoDup face.*1 /\ closed_face edges face) faces.
Proof.
  apply Forall_lookup. intros f face F. apply faces_at in F as [[_ ->]|[[_ ->]|(v & V & _ & ->)]].
  - rewrite fmap_length, seq_length. split; [done|]. split; [by apply (ring_nodup (fun v => v))|]. apply (ring_closed (fun v => v)). exact joins_low.
  - rewrite fmap_length, seq_length. split; [done|]. split; [apply (ring_nodup (fun v => n + v)); lia|]. apply (ring_closed (fun v => n + v)). exact joins_high.
  - split; [cbn; lia|]. split; [|by apply side_closed]. rewrite (side_list v V). pose proof (nx_lt v V). assert (nx v <> v) by (unfold nx; destruct (decide _); lia).
    cbn. repeat (constructor; [rewrite ?elem_of_cons, elem_of_nil; lia|]). constructor.
Qed.
Lemma extrusion_once e e' v w : edge_joins edges e v w -> edge_joins edges e' v w -> e = e'.
Proof.
  intros J J'.
  assert (exists x, edges !! e = Some x /\ (x = (v, w) \/ x = (w, v))) as (x & X & QX) by (destruct J; eauto).
  assert (exists x, edges !! e' = Some x /\ (x = (v, w) \/ x = (w, v))) as (y & Y & QY) by (destruct J'; eauto).
  assert (y = x \/ y = (x.2, x.1)) as Q by (destruct QX as [-> | ->], QY as [-> | ->]; auto). clear J J' QX QY.
  apply edges_at in X as (a & A & X). apply edges_at in Y as (b & B & Y). pose proof (nx_lt a A). pose proof (nx_lt b B).
  destruct X as [[-> ->]|[[-> ->]|[-> ->]]], Y as [[-> ->]|[[-> ->]|[-> ->]]]; destruct Q as [Q|Q]; injection Q as Q1 Q2; cbn in *; unfold nx in *;
    repeat destruct (decide _); lia.
Qed.
Lemma extrusion_two e : e < length edges -> exists f g, f <> g /\ forall h, edge_of_face faces e h <-> h = f \/ h = g.
Proof.
  rewrite edges_length. intros E.
  assert (forall h, edge_of_face faces e h <-> (h = 0 /\ e < n) \/ (h = 1 /\ n <= e < 2 * n) \/
    exists v, v < n /\ h = 2 + v /\ (e = v \/ e = 2 * n + nx v \/ e = n + v \/ e = 2 * n + v)) as Q.
  { intros h. unfold edge_of_face. split.
    - intros (face & v & F & X). apply faces_at in F as [[-> ->]|[[-> ->]|(u & U & -> & ->)]].
      + apply elem_of_list_lookup in X as [k K]. apply seq_at in K as [K [= -> ->]]. left. done.
      + apply elem_of_list_lookup in X as [k K]. apply seq_at in K as [K [= -> ->]]. right. left. split; [done|lia].
      + right. right. exists u. split; [done|]. split; [done|]. rewrite (side_list u U) in X. rewrite !elem_of_cons, elem_of_nil in X.
        destruct X as [[= _ ->]|[[= _ ->]|[[= _ ->]|[[= _ ->]|[]]]]]; lia.
    - intros [[-> B]|[[-> B]|(u & U & -> & X)]].
      + exists ((fun v => (v, v)) <$> seq 0 n), e. split; [done|]. apply (elem_of_list_lookup_2 _ e). by apply seq_at.
      + exists ((fun v => (n + v, n + v)) <$> seq 0 n), e. split; [done|]. apply (elem_of_list_lookup_2 _ (e - n)). apply seq_at. split; [lia|]. f_equal; lia.
      + assert (exists v, (v, e) ∈ side_face n u) as [v V].
        { rewrite (side_list u U). destruct X as [-> |[-> |[-> | ->]]]; eexists; rewrite !elem_of_cons; [by left|by right; left|by right; right; left|by right; right; right; left]. }
        exists (side_face n u), v. split; [|done]. apply faces_at. right. right. by exists u. }
  destruct (decide (e < n)) as [E1|E1]; [|destruct (decide (e < 2 * n)) as [E2|E2]].
  - exists 0, (2 + e). split; [lia|]. intros h. rewrite Q. split.
    + intros [[-> _]|[[_ ?]|(v & V & -> & X)]]; [by left|lia|right; lia].
    + intros [-> | ->]; [by left|]. right. right. exists e. split; [done|]. split; [done|by left].
  - exists 1, (2 + (e - n)). split; [lia|]. intros h. rewrite Q. split.
    + intros [[_ ?]|[[-> _]|(v & V & -> & X)]]; [lia|by left|right; lia].
    + intros [-> | ->]; [right; left; lia|]. right. right. exists (e - n). split; [lia|]. split; [done|lia].
  - set (v := e - 2 * n). set (u := if decide (v = 0) then n - 1 else v - 1).
    assert (u < n) as U by (unfold u; destruct (decide _); lia). assert (forall t, t < n -> nx t = v <-> t = u) as NX.
    { intros t T. unfold nx, u. repeat destruct (decide _); lia. }
    assert (u <> v) as UV by (unfold u; destruct (decide _); lia).
    exists (2 + v), (2 + u). split; [lia|]. intros h. rewrite Q. split.
    + intros [[_ ?]|[[_ ?]|(t & T & -> & X)]]; [lia|lia|]. specialize (NX t T). lia.
    + intros [-> | ->]; right; right; [exists v|exists u]; (split; [lia|]; split; [done|]); [lia|]. pose proof (proj2 (NX u U) eq_refl). lia.
Qed.
Lemma extrusion_closed {P} (vs : list P) : length vs = 2 * n -> closed_polyhedron (Polyhedron vs edges faces).
Proof.
  intros L. split; cbn [ph_vertices ph_edges ph_faces].
  - split; cbn [ph_vertices ph_edges ph_faces].
    + apply Forall_lookup. intros e x E. apply edges_at in E as (v & V & E). pose proof (nx_lt v V). destruct E as [[_ ->]|[[_ ->]|[_ ->]]]; cbn; lia.
    + apply Forall_lookup. intros f face F. rewrite edges_length. apply faces_at in F as [[_ ->]|[[_ ->]|(v & V & _ & ->)]].
      * apply Forall_lookup. intros k x K. apply seq_at in K as [K ->]. cbn. lia.
      * apply Forall_lookup. intros k x K. apply seq_at in K as [K ->]. cbn. lia.
      * rewrite (side_list v V). pose proof (nx_lt v V). repeat (constructor; [cbn; lia|]). constructor.
  - exact extrusion_faces.
  - apply Forall_lookup. intros e x E. apply edges_at in E as (v & V & E). assert (nx v <> v) by (unfold nx; destruct (decide _); lia).
    destruct E as [[_ ->]|[[_ ->]|[_ ->]]]; cbn; lia.
  - exact extrusion_once.
  - exact extrusion_two.
Qed.
End Extrusion.
Lemma extrusion_ok {P} (add : P -> P -> P) polygon heights : 3 <= length polygon -> length polygon = length heights ->
  exists p, CreatePolyhedronWithExtrusion add polygon heights = Ok p /\ closed_polyhedron p /\
    length (ph_vertices p) = 2 * length polygon /\ length (ph_edges p) = 3 * length polygon /\ length (ph_faces p) = length polygon + 2 /\
    (forall v x h, polygon !! v = Some x -> heights !! v = Some h -> ph_vertices p !! v = Some x /\ ph_vertices p !! (length polygon + v) = Some (add x h)).
Proof.
  intros N L. assert (length (polygon ++ zip_with add polygon heights) = 2 * length polygon) as LV by (rewrite app_length, zip_with_length; lia).
  exists (Polyhedron (polygon ++ zip_with add polygon heights) (edges (length polygon)) (faces (length polygon))).
  split; [unfold CreatePolyhedronWithExtrusion; rewrite <-L, Nat.eqb_refl; done|]. split; [by apply extrusion_closed|]. split; [done|]. split; [by apply edges_length|].
  split; [cbn; rewrite fmap_length, seq_length; lia|]. intros v x h X H. cbn [ph_vertices]. split; [by apply lookup_app_l_Some|].
  rewrite lookup_app_r by lia. replace (length polygon + v - length polygon) with v by lia. apply lookup_zip_with_Some. eauto.
Qed.
