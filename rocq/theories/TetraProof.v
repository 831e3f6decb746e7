(** * Tetrahedra from the triangles of the faces of a polyhedron: proofs. *)
From Coq Require Import ZArith ZifyBool ZifyNat ZifyN.
From Coq Require Import QArith Qcanon.
From Verif Require Import Base BaseProof FacetModel FacetSpec PolyModel TetraModel TetraSpec.
Local Open Scope nat_scope.

Lemma vget_at {A} (l : list A) i x : l !! i = Some x -> vget l i = Ok x.
Proof. intros E. unfold vget. by rewrite E. Qed.
Lemma omapM_all {A B} (f : A -> outcome B) (R : A -> B -> Prop) l : (forall i x, l !! i = Some x -> exists y, f x = Ok y /\ R x y) ->
  exists ys, omapM f l = Ok ys /\ Forall2 R l ys.
Proof.
  induction l as [|x l IH]; intros H; [by exists []|]. destruct (H 0 x eq_refl) as (y & E & R1). destruct (IH (fun i => H (S i))) as (ys & E' & R2).
  exists (y :: ys). split; [|by constructor]. cbn [omapM]. rewrite E. cbn [mbind outcome_bind]. rewrite E'. done.
Qed.
Lemma chunk {T} n (e : T -> list nat) ts i t j x : (forall t, length (e t) = n) -> ts !! i = Some t -> e t !! j = Some x ->
  concat (e <$> ts) !! (n * i + j) = Some x.
Proof.
  intros L. revert i. induction ts as [|u ts IH]; intros i I J; [done|]. rewrite fmap_cons. cbn [concat]. destruct i as [|i].
  - apply (inj Some) in I. subst u. rewrite Nat.mul_0_r, Nat.add_0_l. by apply lookup_app_l_Some.
  - rewrite lookup_app_r by (rewrite L; lia). rewrite L. replace (n * S i + j - n) with (n * i + j) by lia. by apply IH.
Qed.
Lemma chunk_id n (qs : list (list nat)) i q j x : Forall (fun q => length q = n) qs -> qs !! i = Some q -> q !! j = Some x ->
  concat qs !! (n * i + j) = Some x.
Proof.
  intros L. revert i. induction L as [|u ts U L IH]; intros i I J; [done|]. cbn [concat]. destruct i as [|i].
  - apply (inj Some) in I. subst u. rewrite Nat.mul_0_r, Nat.add_0_l. by apply lookup_app_l_Some.
  - rewrite lookup_app_r by lia. rewrite U. replace (n * S i + j - n) with (n * i + j) by lia. by apply IH.
Qed.
Lemma chunk_count n (qs : list (list nat)) : Forall (fun q => length q = n) qs -> length (concat qs) = length qs * n.
Proof. induction 1 as [|q qs Q L IH]; [done|]. cbn. rewrite app_length, IH, Q. lia. Qed.
Lemma triple_count ts : length (concat (triple_list <$> ts)) = length ts * 3.
Proof. rewrite (chunk_count 3), fmap_length; [done|]. apply Forall_fmap, Forall_forall. intros [[a b] c] _. done. Qed.
Lemma triple_at ts i t j x : ts !! i = Some t -> triple_list t !! j = Some x -> vget (concat (triple_list <$> ts)) (3 * i + j) = Ok x.
Proof. intros I J. apply vget_at. eapply chunk; [|exact I|exact J]. by intros [[a b] c]. Qed.

(** ** The numbers. *)
Lemma loops body (R : triangle -> list nat -> Prop) faces triples : length faces = length triples ->
  (forall f face ts ft t, faces !! f = Some face -> triples !! f = Some ts -> ts !! ft = Some t ->
    exists q, body f (concat (triple_list <$> ts)) ft = Ok q /\ R (f, face, t) q /\ length q = 4) ->
  exists quads, all_tetrahedra body (flat_triangles triples) = Ok (concat quads) /\ Forall2 R (all_triangles faces triples) quads /\
    Forall (fun q => length q = 4) quads.
Proof.
  intros LE H. unfold all_tetrahedra.
  set (S' := fun (x : nat * list nat) (y : list nat) => exists face ts qs, faces !! x.1 = Some face /\ triples !! x.1 = Some ts /\ y = concat qs /\
    Forall2 R (pair (x.1, face) <$> ts) qs /\ Forall (fun q => length q = 4) qs).
  destruct (omapM_all (fun '(f, triangles) => l ← omapM (body f triangles) (seq 0 (length triangles / 3)); Ok (concat l)) S'
    (zip (seq 0 (length (flat_triangles triples))) (flat_triangles triples))) as (ys & E & F).
  { intros i [f tr] I. apply lookup_zip_with_Some in I as (f' & tr' & Q & I & J). simplify_eq. apply lookup_seq in I as [-> I].
    unfold flat_triangles in J. rewrite list_lookup_fmap_Some in J. destruct J as (ts & T & ->).
    destruct (lookup_lt_is_Some_2 faces (0 + i)) as [face FA]. { apply lookup_lt_Some in T. cbn. lia. }
    cbn in FA.
    destruct (omapM_all (body i (concat (triple_list <$> ts))) (fun ft q => exists t, ts !! ft = Some t /\ R (i, face, t) q /\ length q = 4) (seq 0 (length ts)))
      as (qs & EQ & FQ).
    { intros k ft K. apply lookup_seq in K as [-> K]. destruct (lookup_lt_is_Some_2 ts (0 + k) K) as [t T']. destruct (H _ _ _ _ _ FA T T') as (q & Q1 & Q2 & Q3).
      exists q. split; [done|]. eauto. }
    exists (concat qs). change (0 + i) with i. cbv beta iota. rewrite triple_count, Nat.div_mul by done. rewrite EQ. split; [done|]. exists face, ts, qs. split; [done|]. split; [done|]. split; [done|].
    pose proof (Forall2_length _ _ _ FQ) as LQ. rewrite seq_length in LQ. split.
    - apply Forall2_same_length_lookup_2; [by rewrite fmap_length|]. intros k x q X Y. rewrite list_lookup_fmap_Some in X. destruct X as (t & T' & ->).
      destruct (Forall2_lookup_r _ _ _ _ _ FQ Y) as (k' & K & t' & T2 & R2 & _). apply lookup_seq in K as [-> _]. cbn in T2. assert (t' = t) as -> by congruence. done.
    - apply Forall_lookup. intros k q Y. destruct (Forall2_lookup_r _ _ _ _ _ FQ Y) as (k' & K & t' & T2 & _ & R2). done. }
  rewrite E. cbn [mbind outcome_bind].
  assert (Forall2 (fun part y => exists qs, y = concat qs /\ Forall2 R part qs /\ Forall (fun q => length q = 4) qs)
    (zip_with (fun ff ts => pair ff <$> ts) (zip (seq 0 (length faces)) faces) triples) ys) as G.
  { pose proof (Forall2_length _ _ _ F) as LY. unfold flat_triangles in LY. rewrite zip_with_length, seq_length, fmap_length in LY.
    apply Forall2_same_length_lookup_2; [rewrite !zip_with_length, seq_length; lia|]. intros i part y I Y.
    destruct (Forall2_lookup_r _ _ _ _ _ F Y) as ([f tr] & J & face & ts & qs & A & B & C & D & K). cbn in *.
    apply lookup_zip_with_Some in J as (f' & tr' & Q & J & _). simplify_eq. apply lookup_seq in J as [-> _]. cbn in *.
    apply lookup_zip_with_Some in I as ([f face'] & ts' & -> & I & T). apply lookup_zip_with_Some in I as (f' & face2 & Q & I & I'). simplify_eq.
    apply lookup_seq in I as [-> _]. cbn. eauto. }
  assert (exists quads, concat ys = concat quads /\ Forall2 R (all_triangles faces triples) quads /\ Forall (fun q => length q = 4) quads) as (quads & C & Q & L).
  { unfold all_triangles. clear - G. induction G as [|part y parts ys (qs & -> & A & B) G (quads & C & Q & L)]; [exists []; cbn; split; [done|]; split; constructor|]. exists (qs ++ quads). cbn [concat].
    rewrite C, concat_app. split; [done|]. split; [by apply Forall2_app|by apply Forall_app]. }
  exists quads. rewrite C, (chunk_count 4), Nat.mod_mul by done. done.
Qed.
Lemma face_vertex_ok faces f face a x : faces !! f = Some face -> face.*1 !! a = Some x -> face_vertex faces f a = Ok x.
Proof.
  intros F X. rewrite list_lookup_fmap_Some in X. destruct X as (c & C & ->). unfold face_vertex. rewrite (vget_at _ _ _ F). cbn [mbind outcome_bind].
  rewrite (vget_at _ _ _ C). done.
Qed.
Section Tetra.
Context {P : Type} (vertices inside : list P) (inner : P) (faces : list (list (nat * nat))) (triples : list (list (nat * nat * nat))).
Context (LE : length faces = length triples) (FV : Forall (Forall (fun x : nat * nat => x.1 < length vertices)) faces).
Context (FT : Forall2 (fun face => Forall (fun '(a, b, c) => a < length face /\ b < length face /\ c < length face)) faces triples).

Lemma triangle_in f face ts ft a b c : faces !! f = Some face -> triples !! f = Some ts -> ts !! ft = Some (a, b, c) ->
  exists x y z, face.*1 !! a = Some x /\ face.*1 !! b = Some y /\ face.*1 !! c = Some z /\ x < length vertices /\ y < length vertices /\ z < length vertices.
Proof.
  intros F T I. pose proof (Forall2_lookup_lr _ _ _ _ _ _ FT F T) as H. rewrite Forall_lookup in H. destruct (H _ _ I) as (A & B & C).
  rewrite Forall_lookup in FV. pose proof (FV _ _ F) as V. rewrite Forall_lookup in V.
  destruct (lookup_lt_is_Some_2 face a A) as [x X]. destruct (lookup_lt_is_Some_2 face b B) as [y Y]. destruct (lookup_lt_is_Some_2 face c C) as [z Z].
  exists x.1, y.1, z.1. rewrite !list_lookup_fmap, X, Y, Z. eauto 10.
Qed.
Lemma ids_ok : exists quads, PolyhedronTetrahedronsByFaceTriangulations vertices faces (flat_triangles triples) = Ok (concat quads) /\
  Forall2 (fun t q => tetra_ids (length vertices) t q /\ exists x y z, q = [x; y; z; length vertices] /\ x < length vertices /\ y < length vertices /\ z < length vertices)
    (all_triangles faces triples) quads.
Proof.
  destruct (loops (tetrahedron_ids (length vertices) faces)
    (fun t q => tetra_ids (length vertices) t q /\ exists x y z, q = [x; y; z; length vertices] /\ x < length vertices /\ y < length vertices /\ z < length vertices)
    faces triples LE) as (quads & E & F & _); [|eauto].
  intros f face ts ft [[a b] c] F T I. destruct (triangle_in _ _ _ _ _ _ _ F T I) as (x & y & z & X & Y & Z & BX & BY & BZ).
  exists [x; y; z; length vertices]. split; [|split; [split; [by exists x, y, z|by exists x, y, z]|done]]. unfold tetrahedron_ids.
  pose proof (triple_at ts ft _ 0 a I eq_refl) as A. rewrite Nat.add_0_r in A. rewrite A. cbn [mbind outcome_bind]. rewrite (face_vertex_ok _ _ _ _ _ F X). cbn [mbind outcome_bind].
  rewrite (triple_at ts ft _ 1 b I eq_refl). cbn [mbind outcome_bind]. rewrite (face_vertex_ok _ _ _ _ _ F Y). cbn [mbind outcome_bind].
  rewrite (triple_at ts ft _ 2 c I eq_refl). cbn [mbind outcome_bind]. rewrite (face_vertex_ok _ _ _ _ _ F Z). done.
Qed.
Lemma triangle_in_two (FI : Forall2 (fun face => Forall (fun '(a, b, c) => b < length face /\ c < length face)) faces triples) f face ts ft (a b c : nat) :
  faces !! f = Some face -> triples !! f = Some ts -> ts !! ft = Some (a, b, c) ->
  exists y z, face.*1 !! b = Some y /\ face.*1 !! c = Some z /\ y < length vertices /\ z < length vertices.
Proof using FV.
  intros F T I. pose proof (Forall2_lookup_lr _ _ _ _ _ _ FI F T) as H. rewrite Forall_lookup in H. destruct (H _ _ I) as (B & C).
  rewrite Forall_lookup in FV. pose proof (FV _ _ F) as V. rewrite Forall_lookup in V.
  destruct (lookup_lt_is_Some_2 face b B) as [y Y]. destruct (lookup_lt_is_Some_2 face c C) as [z Z].
  exists y.1, z.1. rewrite !list_lookup_fmap, Y, Z. eauto 10.
Qed.
Lemma ids_inner_ok : Forall2 (fun face => Forall (fun '(a, b, c) => b < length face /\ c < length face)) faces triples -> exists quads, PolyhedronTetrahedronsByFaceTriangulations_inner vertices inside faces (flat_triangles triples) = Ok (concat quads) /\
  Forall2 (fun t q => tetra_ids_inner (length vertices) (length inside) t q /\
    exists f y z, q = [length vertices + f; y; z; length vertices + length inside] /\ f < length faces /\ y < length vertices /\ z < length vertices)
    (all_triangles faces triples) quads.
Proof.
  intros FI. destruct (loops (tetrahedron_ids_inner (length vertices) (length inside) faces)
    (fun t q => tetra_ids_inner (length vertices) (length inside) t q /\
    exists f y z, q = [length vertices + f; y; z; length vertices + length inside] /\ f < length faces /\ y < length vertices /\ z < length vertices)
    faces triples LE) as (quads & E & F & _); [|eauto].
  intros f face ts ft [[a b] c] F T I. destruct (triangle_in_two FI _ _ _ _ _ _ _ F T I) as (y & z & Y & Z & BY & BZ).
  exists [length vertices + f; y; z; length vertices + length inside]. split; [|split; [split; [by exists y, z|exists f, y, z; split; [done|]; split; [by eapply lookup_lt_Some|done]]|done]].
  unfold tetrahedron_ids_inner.
  rewrite (triple_at ts ft _ 1 b I eq_refl). cbn [mbind outcome_bind]. rewrite (face_vertex_ok _ _ _ _ _ F Y). cbn [mbind outcome_bind].
  rewrite (triple_at ts ft _ 2 c I eq_refl). cbn [mbind outcome_bind]. rewrite (face_vertex_ok _ _ _ _ _ F Z). done.
Qed.
(** ** The points. *)
Lemma extract body (R : list nat -> list P -> Prop) quads : Forall (fun q => length q = 4) quads ->
  (forall t q, quads !! t = Some q -> exists p, body (concat quads) t = Ok p /\ R q p) ->
  exists pts, omapM (body (concat quads)) (seq 0 (length (concat quads) / 4)) = Ok pts /\ Forall2 R quads pts.
Proof.
  intros L H. rewrite (chunk_count 4 _ L), Nat.div_mul by done.
  destruct (omapM_all (body (concat quads)) (fun t p => exists q, quads !! t = Some q /\ R q p) (seq 0 (length quads))) as (pts & E & F).
  { intros k t K. apply lookup_seq in K as [-> K]. destruct (lookup_lt_is_Some_2 quads (0 + k) K) as [q Q]. destruct (H _ _ Q) as (p & E & R1). eauto. }
  exists pts. split; [done|]. pose proof (Forall2_length _ _ _ F) as LQ. rewrite seq_length in LQ. apply Forall2_same_length_lookup_2; [done|]. intros k q p Q Y.
  destruct (Forall2_lookup_r _ _ _ _ _ F Y) as (k' & K & q' & Q' & R1). apply lookup_seq in K as [-> _]. cbn in Q'. by assert (q' = q) as -> by congruence.
Qed.
Lemma quad_at (quads : list (list nat)) t q j x : Forall (fun q => length q = 4) quads -> quads !! t = Some q -> q !! j = Some x -> vget (concat quads) (4 * t + j) = Ok x.
Proof. intros L Q X. apply vget_at. by eapply chunk_id. Qed.
Lemma points_ok quads : Forall (fun q => exists x y z, q = [x; y; z; length vertices] /\ x < length vertices /\ y < length vertices /\ z < length vertices) quads ->
  exists pts, ExtractTetrahedronPoints vertices inner (concat quads) = Ok pts /\ Forall2 (points_of (vertices ++ [inner])) quads pts.
Proof.
  intros H. assert (Forall (fun q : list nat => length q = 4) quads) as L by (eapply Forall_impl; [exact H|]; intros q (x & y & z & -> & _); done).
  apply (extract (tetrahedron_points vertices inner) _ quads L). intros t q Q. rewrite Forall_lookup in H. destruct (H _ _ Q) as (x & y & z & -> & BX & BY & BZ).
  destruct (lookup_lt_is_Some_2 vertices x BX) as [px X]. destruct (lookup_lt_is_Some_2 vertices y BY) as [py Y]. destruct (lookup_lt_is_Some_2 vertices z BZ) as [pz Z].
  exists [px; py; pz; inner]. split.
  - unfold tetrahedron_points. pose proof (quad_at quads t _ 0 x L Q eq_refl) as A. rewrite Nat.add_0_r in A. rewrite A. cbn [mbind outcome_bind].
    rewrite (vget_at _ _ _ X). cbn [mbind outcome_bind]. rewrite (quad_at quads t _ 1 y L Q eq_refl). cbn [mbind outcome_bind]. rewrite (vget_at _ _ _ Y). cbn [mbind outcome_bind].
    rewrite (quad_at quads t _ 2 z L Q eq_refl). cbn [mbind outcome_bind]. rewrite (vget_at _ _ _ Z). done.
  - unfold points_of. repeat constructor; try (by apply lookup_app_l_Some). rewrite lookup_app_r, Nat.sub_diag by lia. done.
Qed.
Lemma points_inner_ok quads : length faces <= length inside ->
  Forall (fun q => exists f y z, q = [length vertices + f; y; z; length vertices + length inside] /\ f < length faces /\ y < length vertices /\ z < length vertices) quads ->
  exists pts, ExtractTetrahedronPoints_inner vertices inner inside (concat quads) = Ok pts /\ Forall2 (points_of (vertices ++ inside ++ [inner])) quads pts.
Proof.
  intros LI H. assert (Forall (fun q : list nat => length q = 4) quads) as L by (eapply Forall_impl; [exact H|]; intros q (x & y & z & -> & _); done).
  apply (extract (tetrahedron_points_inner vertices inner inside) _ quads L). intros t q Q. rewrite Forall_lookup in H. destruct (H _ _ Q) as (x & y & z & -> & BX & BY & BZ).
  destruct (lookup_lt_is_Some_2 inside x ltac:(lia)) as [px X]. destruct (lookup_lt_is_Some_2 vertices y BY) as [py Y]. destruct (lookup_lt_is_Some_2 vertices z BZ) as [pz Z].
  exists [px; py; pz; inner]. split.
  - unfold tetrahedron_points_inner. pose proof (quad_at quads t _ 0 _ L Q eq_refl) as A. rewrite Nat.add_0_r in A. rewrite A. cbn [mbind outcome_bind].
    destruct (Nat.ltb_spec (length vertices + x) (length vertices)) as [|_]; [lia|]. replace (length vertices + x - length vertices) with x by lia.
    rewrite (vget_at _ _ _ X). cbn [mbind outcome_bind]. rewrite (quad_at quads t _ 1 y L Q eq_refl). cbn [mbind outcome_bind]. rewrite (vget_at _ _ _ Y). cbn [mbind outcome_bind].
    rewrite (quad_at quads t _ 2 z L Q eq_refl). cbn [mbind outcome_bind]. rewrite (vget_at _ _ _ Z). done.
  - unfold points_of. repeat constructor; try (by apply lookup_app_l_Some).
    + rewrite lookup_app_r by lia. replace (length vertices + x - length vertices) with x by lia. by apply lookup_app_l_Some.
    + rewrite lookup_app_r by lia. replace (length vertices + length inside - length vertices) with (length inside) by lia. rewrite lookup_app_r, Nat.sub_diag by lia. done.
Qed.
Lemma split_forall2 {A B} (R : A -> B -> Prop) (Q : B -> Prop) l k : Forall2 (fun a b => R a b /\ Q b) l k -> Forall2 R l k /\ Forall Q k.
Proof. induction 1 as [|a b l k [H1 H2] H [IH1 IH2]]; split; constructor; done. Qed.
Lemma tetra_ok : exists quads pts, PolyhedronTetrahedronsByFaceTriangulations vertices faces (flat_triangles triples) = Ok (concat quads) /\
  ExtractTetrahedronPoints vertices inner (concat quads) = Ok pts /\
  Forall2 (tetra_ids (length vertices)) (all_triangles faces triples) quads /\ Forall2 (points_of (vertices ++ [inner])) quads pts.
Proof.
  destruct ids_ok as (quads & E & F). apply split_forall2 in F as [F Q]. destruct (points_ok quads Q) as (pts & EP & FP). exists quads, pts. done.
Qed.
Lemma tetra_inner_ok : Forall2 (fun face => Forall (fun '(a, b, c) => b < length face /\ c < length face)) faces triples -> length faces <= length inside -> exists quads pts,
  PolyhedronTetrahedronsByFaceTriangulations_inner vertices inside faces (flat_triangles triples) = Ok (concat quads) /\
  ExtractTetrahedronPoints_inner vertices inner inside (concat quads) = Ok pts /\
  Forall2 (tetra_ids_inner (length vertices) (length inside)) (all_triangles faces triples) quads /\ Forall2 (points_of (vertices ++ inside ++ [inner])) quads pts.
Proof.
  intros FI LI. destruct (ids_inner_ok FI) as (quads & E & F). apply split_forall2 in F as [F Q]. destruct (points_inner_ok quads LI Q) as (pts & EP & FP). exists quads, pts. done.
Qed.
End Tetra.

(** ** The vertices for a coordinate system. *)
Definition other (x : nat * nat) : option nat := if x.1 =? 0 then Some x.2 else if x.2 =? 0 then Some x.1 else None.
Lemma other_some x v : other x = Some v <-> from_zero x v.
Proof.
  unfold other, from_zero. destruct x as [s t]. cbn. destruct (Nat.eqb_spec s 0) as [->|S]; [|destruct (Nat.eqb_spec t 0) as [->|T]]; split.
  - intros [= ->]. by left.
  - intros [[= ->]|[= <- ->]]; done.
  - intros [= ->]. by right.
  - intros [[= -> _]|[= ->]]; done.
  - done.
  - intros [[= -> _]|[= _ ->]]; done.
Qed.
Lemma other_none x : other x = None <-> x.1 <> 0 /\ x.2 <> 0.
Proof. unfold other. destruct (Nat.eqb_spec x.1 0), (Nat.eqb_spec x.2 0); split; try done; lia. Qed.
Lemma loop_take edges found : length found < 4 -> coordinate_loop edges found = found ++ take (4 - length found) (omap other edges).
Proof.
  revert found. induction edges as [|x edges IH]; intros found L; [cbn; by rewrite take_nil, app_nil_r|]. cbn [coordinate_loop]. cbv zeta.
  change (omap other (x :: edges)) with (match other x with Some y => y :: omap other edges | None => omap other edges end).
  unfold other at 1. destruct (x.1 =? 0); [|destruct (x.2 =? 0)]; cbn [orb].
  - rewrite app_length. cbn [length]. destruct (Nat.eqb_spec (length found + 1) 4) as [E|E].
    + replace (4 - length found) with 1 by lia. done.
    + rewrite IH by (rewrite app_length; cbn; lia). rewrite app_length. cbn [length]. rewrite <-app_assoc. f_equal.
      replace (4 - length found) with (S (4 - (length found + 1))) by lia. done.
  - rewrite app_length. cbn [length]. destruct (Nat.eqb_spec (length found + 1) 4) as [E|E].
    + replace (4 - length found) with 1 by lia. done.
    + rewrite IH by (rewrite app_length; cbn; lia). rewrite app_length. cbn [length]. rewrite <-app_assoc. f_equal.
      replace (4 - length found) with (S (4 - (length found + 1))) by lia. done.
  - destruct (Nat.eqb_spec (length found) 4); [lia|]. by apply IH.
Qed.
Lemma away_omap l : omap other l = [] <-> away l.
Proof.
  unfold away. induction l as [|x l IH]; [split; [constructor|done]|].
  change (omap other (x :: l)) with (match other x with Some y => y :: omap other l | None => omap other l end). rewrite Forall_cons, <-other_none, <-IH.
  destruct (other x); naive_solver.
Qed.
Lemma omap_first l v vs : omap other l = v :: vs <-> exists l1 x l2, l = l1 ++ x :: l2 /\ away l1 /\ from_zero x v /\ omap other l2 = vs.
Proof.
  split.
  - induction l as [|x l IH]; [done|]. change (omap other (x :: l)) with (match other x with Some y => y :: omap other l | None => omap other l end).
    destruct (other x) as [y|] eqn:E.
    + intros [= -> <-]. exists [], x, l. split; [done|]. split; [constructor|]. split; [by apply other_some|done].
    + intros H. destruct (IH H) as (l1 & y & l2 & -> & A & Z & O). exists (x :: l1), y, l2. split; [done|]. split; [constructor; [by apply other_none|done]|done].
  - intros (l1 & x & l2 & -> & A & Z & <-). rewrite omap_app. apply away_omap in A as ->. apply other_some in Z.
    change (omap other (x :: l2)) with (match other x with Some y => y :: omap other l2 | None => omap other l2 end). by rewrite Z.
Qed.
Lemma three_omap edges l : first_three edges l <-> exists a b c rest, omap other edges = a :: b :: c :: rest /\ l = [0; a; b; c].
Proof.
  split.
  - intros (l1 & x1 & l2 & x2 & l3 & x3 & l4 & a & b & c & E & A1 & A2 & A3 & Z1 & Z2 & Z3 & L). exists a, b, c, (omap other l4). split; [|done].
    apply omap_first. exists l1, x1, (l2 ++ x2 :: l3 ++ x3 :: l4). split; [done|]. split; [done|]. split; [done|].
    apply omap_first. exists l2, x2, (l3 ++ x3 :: l4). split; [done|]. split; [done|]. split; [done|].
    apply omap_first. by exists l3, x3, l4.
  - intros (a & b & c & rest & E & L). apply omap_first in E as (l1 & x1 & r1 & -> & A1 & Z1 & E). apply omap_first in E as (l2 & x2 & r2 & -> & A2 & Z2 & E).
    apply omap_first in E as (l3 & x3 & l4 & -> & A3 & Z3 & E). exists l1, x1, l2, x2, l3, x3, l4, a, b, c. done.
Qed.
Lemma at_zero_count edges : length (omap other edges) = length (filter (fun x : nat * nat => x.1 = 0 \/ x.2 = 0) edges).
Proof.
  induction edges as [|x l IH]; [done|]. change (omap other (x :: l)) with (match other x with Some y => y :: omap other l | None => omap other l end). rewrite filter_cons.
  destruct (decide (x.1 = 0 \/ x.2 = 0)) as [D|D]; destruct (other x) as [y|] eqn:E; cbn; try lia.
  - apply other_none in E. lia.
  - apply other_some in E. destruct E as [-> | ->]; cbn in D; lia.
Qed.
Lemma coordinate_ok edges : (forall l, PolyhedronCoordinateSystem edges = Ok l <-> first_three edges l) /\
  (PolyhedronCoordinateSystem edges = Abort <-> length (filter (fun x : nat * nat => x.1 = 0 \/ x.2 = 0) edges) < 3).
Proof.
  unfold PolyhedronCoordinateSystem. cbv zeta. rewrite loop_take by (cbn; lia). cbn [length Nat.sub]. rewrite <-at_zero_count.
  destruct (omap other edges) as [|a [|b [|c rest]]] eqn:E; cbn; rewrite ?take_0; cbn; split; try (intros l; rewrite three_omap, E; naive_solver); split; try done; lia.
Qed.
Lemma coordinate_distinct edges l : Forall (fun x : nat * nat => x.1 <> x.2) edges ->
  (forall e e' v w, edge_joins edges e v w -> edge_joins edges e' v w -> e = e') -> first_three edges l -> NoDup l.
Proof.
  intros LO ON (l1 & x1 & l2 & x2 & l3 & x3 & l4 & a & b & c & E & _ & _ & _ & Z1 & Z2 & Z3 & ->).
  set (e1 := length l1). set (e2 := length (l1 ++ x1 :: l2)). set (e3 := length (l1 ++ x1 :: l2 ++ x2 :: l3)).
  assert (edges !! e1 = Some x1) as I1 by (rewrite E; by apply list_lookup_middle).
  assert (edges !! e2 = Some x2) as I2.
  { rewrite E. replace (l1 ++ x1 :: l2 ++ x2 :: l3 ++ x3 :: l4) with ((l1 ++ x1 :: l2) ++ x2 :: l3 ++ x3 :: l4) by (by rewrite <-app_assoc). by apply list_lookup_middle. }
  assert (edges !! e3 = Some x3) as I3.
  { rewrite E. replace (l1 ++ x1 :: l2 ++ x2 :: l3 ++ x3 :: l4) with ((l1 ++ x1 :: l2 ++ x2 :: l3) ++ x3 :: l4) by (rewrite <-app_assoc; cbn; by rewrite <-app_assoc).
    by apply list_lookup_middle. }
  assert (e1 < e2 < e3) as O by (unfold e1, e2, e3; rewrite !app_length; cbn; rewrite !app_length; cbn; lia).
  assert (forall e x v, edges !! e = Some x -> from_zero x v -> edge_joins edges e 0 v /\ v <> 0) as J.
  { intros e x v I Z. split; [unfold edge_joins; rewrite I; destruct Z as [-> | ->]; eauto|]. rewrite Forall_lookup in LO. specialize (LO _ _ I).
    destruct Z as [-> | ->]; cbn in LO; lia. }
  destruct (J _ _ _ I1 Z1) as [J1 N1]. destruct (J _ _ _ I2 Z2) as [J2 N2]. destruct (J _ _ _ I3 Z3) as [J3 N3].
  assert (a <> b) by (intros ->; pose proof (ON _ _ _ _ J1 J2); lia). assert (a <> c) by (intros ->; pose proof (ON _ _ _ _ J1 J3); lia).
  assert (b <> c) by (intros ->; pose proof (ON _ _ _ _ J2 J3); lia).
  repeat (constructor; [rewrite ?elem_of_cons, elem_of_nil; lia|]). constructor.
Qed.

(** ** The triangles around points inside the faces. *)
Lemma cone_triangulation (face : list (nat * nat)) vs t : length vs = length face -> PolygonTriangulationByInternalPoint vs = Ok t ->
  t = concat (triple_list <$> cone_triples face).
Proof.
  intros L. unfold PolygonTriangulationByInternalPoint. rewrite L. intros E. unfold require in E. destruct (2 <? length face); [|done].
  cbn [mbind outcome_bind] in E. destruct (_ =? 0) in E; [|done]. cbn [mbind outcome_bind] in E.
  injection E as <-. unfold cone_triples. rewrite <-list_fmap_compose. done.
Qed.
Lemma cone_in (faces : list (list (nat * nat))) :
  Forall2 (fun face => Forall (fun '(a, b, c) => b < length face /\ c < length face)) faces (cone_triples <$> faces).
Proof.
  apply Forall2_fmap_r. apply Forall_Forall2_diag, Forall_forall. intros face _. apply Forall_forall. intros [[a b] c] X. unfold cone_triples in X.
  apply elem_of_list_fmap in X as (v & E & V). injection E as _ -> ->. apply elem_of_seq in V. split; [lia|]. apply Nat.mod_upper_bound. lia.
Qed.
Lemma cone_flat (faces : list (list (nat * nat))) ts :
  Forall2 (fun face t => exists vs, length vs = length face /\ PolygonTriangulationByInternalPoint vs = Ok t) faces ts -> ts = flat_triangles (cone_triples <$> faces).
Proof.
  induction 1 as [|face t faces ts (vs & L & E) H IH]; [done|]. unfold flat_triangles in *. rewrite !fmap_cons, <-IH. f_equal. by eapply cone_triangulation.
Qed.
