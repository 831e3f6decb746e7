(** * The tangents of the edges of the faces of a polyhedron: proofs. *)
From Coq Require Import ZArith ZifyBool ZifyNat ZifyN.
From Coq Require Import QArith Qcanon.
From Verif Require Import Base BaseProof FillModel MapModel FacetModel FacetSpec MergeSpec TetraProof RoundModel RoundSpec.
Local Open Scope nat_scope.

Lemma vec_eq (u v : vec3) : u.1.1 = v.1.1 -> u.1.2 = v.1.2 -> u.2 = v.2 -> u = v.
Proof. destruct u as [[? ?] ?], v as [[? ?] ?]. cbn. congruence. Qed.
Lemma sum_snoc l x : sum3 (l ++ [x]) = vadd x (sum3 l).
Proof.
  induction l as [|y l IH]; [done|]. change (sum3 ((y :: l) ++ [x])) with (vadd y (sum3 (l ++ [x]))). rewrite IH. change (sum3 (y :: l)) with (vadd y (sum3 l)).
  apply vec_eq; unfold vadd; cbn [fst snd]; ring.
Qed.
Lemma sum_differences l k : length l = length k -> vadd (sum3 (zip_with vsub l k)) (sum3 k) = sum3 l.
Proof.
  revert k. induction l as [|x l IH]; intros [|y k] L; [apply vec_eq; reflexivity|done|done|]. injection L as L. cbn [zip_with]. specialize (IH k L).
  change (sum3 (vsub x y :: zip_with vsub l k)) with (vadd (vsub x y) (sum3 (zip_with vsub l k))). change (sum3 (y :: k)) with (vadd y (sum3 k)).
  change (sum3 (x :: l)) with (vadd x (sum3 l)). rewrite <-IH. apply vec_eq; unfold vadd, vsub; cbn [fst snd]; ring.
Qed.
Lemma round_sum points tangents : leads_round points tangents -> sum3 tangents = (0%Qc, 0%Qc, 0%Qc).
Proof.
  intros [L H]. destruct points as [|p points]; [destruct tangents; done|].
  assert (tangents = zip_with vsub (points ++ [p]) (p :: points)) as ->.
  { apply (list_eq_same_length _ _ (length (p :: points))); [rewrite zip_with_length, app_length; cbn; lia|done|]. intros k x y K X Y.
    apply lookup_zip_with_Some in Y as (b & a & -> & B & A).
    assert ((p :: points) !! ((k + 1) mod length (p :: points)) = Some b) as B'.
    { apply lookup_app_Some in B as [B|[B1 B]].
      - rewrite Nat.mod_small by (apply lookup_lt_Some in B; cbn; lia). rewrite Nat.add_1_r. exact B.
      - apply list_lookup_singleton_Some in B as [B2 <-]. assert (k + 1 = length (p :: points)) as -> by (cbn; lia). rewrite Nat.mod_same by done. done. }
    specialize (H k a b A B'). congruence. }
  pose proof (sum_differences (points ++ [p]) (p :: points) ltac:(rewrite app_length; cbn; lia)) as S. rewrite sum_snoc in S.
  change (sum3 (p :: points)) with (vadd p (sum3 points)) in S. set (s := sum3 (zip_with _ _ _)) in *. set (t := vadd p (sum3 points)) in *. clearbody s t.
  assert (s = vsub (vadd s t) t) as -> by (apply vec_eq; unfold vadd, vsub; cbn [fst snd]; ring). rewrite S. apply vec_eq; unfold vsub; cbn [fst snd]; ring.
Qed.
Lemma omapM_all' {A B} (f : A -> outcome B) (R : A -> B -> Prop) l : (forall i x, l !! i = Some x -> exists y, f x = Ok y /\ R x y) ->
  exists ys, omapM f l = Ok ys /\ length ys = length l /\ forall i x y, l !! i = Some x -> ys !! i = Some y -> R x y.
Proof.
  intros H. destruct (omapM_all f R l H) as (ys & E & F). exists ys. split; [done|]. split; [symmetry; by eapply Forall2_length|]. intros i x y X Y.
  by eapply Forall2_lookup_lr.
Qed.
Lemma rows_ok (p : polyhedron vec3) : proper_polyhedron p -> Forall (closed_face (ph_edges p)) (ph_faces p) ->
  exists ts rows ds fts, PolyhedronEdgeTangents (ph_vertices p) (ph_edges p) = Ok ts /\ PolyhedronFaceVertices (ph_vertices p) (ph_faces p) = Ok rows /\
    PolyhedronFaceEdgeDirections (ph_edges p) (ph_faces p) = Ok ds /\ PolyhedronFaceEdgeTangents (ph_faces p) ds ts = Ok fts /\
    Forall2 leads_round rows fts /\
    Forall2 (Forall2 (fun (x : nat * nat) b => exists e, ph_edges p !! x.2 = Some e /\ (b = true <-> e.1 = x.1))) (ph_faces p) ds /\
    Forall2 (Forall2 (fun (x : nat * nat) a => ph_vertices p !! x.1 = Some a)) (ph_faces p) rows.
Proof.
  intros [PE PF] CF. rewrite Forall_lookup in PE. rewrite Forall_lookup in PF. rewrite Forall_lookup in CF.
  destruct (omapM_all' (fun e : nat * nat => a ← vget (ph_vertices p) e.1; b ← vget (ph_vertices p) e.2; Ok (vsub b a))
    (fun e t => exists a b, ph_vertices p !! e.1 = Some a /\ ph_vertices p !! e.2 = Some b /\ t = vsub b a) (ph_edges p)) as (ts & ET & LT & HT).
  { intros i e E. destruct (PE _ _ E) as [E1 E2]. destruct (lookup_lt_is_Some_2 _ _ E1) as [a A]. destruct (lookup_lt_is_Some_2 _ _ E2) as [b B].
    exists (vsub b a). rewrite (vget_at _ _ _ A). cbn [mbind outcome_bind]. rewrite (vget_at _ _ _ B). split; [done|]. eauto. }
  destruct (omapM_all (omapM (fun x : nat * nat => vget (ph_vertices p) x.1)) (Forall2 (fun (x : nat * nat) a => ph_vertices p !! x.1 = Some a)) (ph_faces p)) as (rows & ER & HR).
  { intros f face F. specialize (PF _ _ F). rewrite Forall_lookup in PF. apply omapM_all. intros k x K. destruct (PF _ _ K) as [X _].
    destruct (lookup_lt_is_Some_2 _ _ X) as [a A]. exists a. split; [by apply vget_at|done]. }
  destruct (omapM_all (omapM (fun x : nat * nat => e ← vget (ph_edges p) x.2; Ok (e.1 =? x.1)))
    (Forall2 (fun (x : nat * nat) b => exists e, ph_edges p !! x.2 = Some e /\ (b = true <-> e.1 = x.1))) (ph_faces p)) as (ds & ED & HD).
  { intros f face F. specialize (PF _ _ F). rewrite Forall_lookup in PF. apply omapM_all. intros k x K. destruct (PF _ _ K) as [_ X].
    destruct (lookup_lt_is_Some_2 _ _ X) as [e E]. exists (e.1 =? x.1). rewrite (vget_at _ _ _ E). split; [done|]. exists e. split; [done|]. apply Nat.eqb_eq. }
  destruct (omapM_all' (fun '(f, face) =>
    omapM (fun '(k, x) => d ← vget ds f; b ← vget d k; t ← vget ts x.2; Ok (vscale (if b : bool then 1%Qc else (- (1))%Qc) t)) (zip (seq 0 (length face)) face))
    (fun ff ft => forall row, rows !! ff.1 = Some row -> leads_round row ft) (zip (seq 0 (length (ph_faces p))) (ph_faces p))) as (fts & EF & LF & HF).
  { intros f' [f face] I. apply lookup_zip_with_Some in I as (f2 & face2 & Q & I & F). injection Q as -> ->. apply lookup_seq in I as [-> _]. change (0 + f') with f'.
    rename f' into f. destruct (Forall2_lookup_l _ _ _ _ _ HD F) as (d & D & FD). destruct (Forall2_lookup_l _ _ _ _ _ HR F) as (row & R & FR).
    pose proof (CF _ _ F) as C. pose proof (PF _ _ F) as B. rewrite Forall_lookup in B.
    pose proof (Forall2_length _ _ _ FR) as LR.
    destruct (omapM_all' (fun '(k, x) => d ← vget ds f; b ← vget d k; t ← vget ts x.2; Ok (vscale (if b : bool then 1%Qc else (- (1))%Qc) t))
      (fun kx t => forall a b, row !! kx.1 = Some a -> row !! ((kx.1 + 1) mod length row) = Some b -> t = vsub b a) (zip (seq 0 (length face2)) face2)) as (ft & E & L & H).
    { intros k' [k x] I. apply lookup_zip_with_Some in I as (k2 & x2 & Q & I & X). injection Q as -> ->. apply lookup_seq in I as [-> _]. change (0 + k') with k'.
      destruct (Forall2_lookup_l _ _ _ _ _ FD X) as (b & DB & e & E & BE). destruct (B _ _ X) as [_ XB]. rewrite <-LT in XB.
      destruct (lookup_lt_is_Some_2 _ _ XB) as [t T]. exists (vscale (if b then 1%Qc else (- (1))%Qc) t).
      rewrite (vget_at _ _ _ D). cbn [mbind outcome_bind]. rewrite (vget_at _ _ _ DB). cbn [mbind outcome_bind]. rewrite (vget_at _ _ _ T). split; [done|].
      cbn [fst]. intros u w U W. rewrite <-LR in W. destruct (HT _ _ _ E T) as (a & c & A & Z & ->).
      destruct (Forall2_lookup_r _ _ _ _ _ FR U) as (x' & X' & U'). assert (x' = x2) as -> by congruence.
      destruct (Forall2_lookup_r _ _ _ _ _ FR W) as (y & Y & W'). destruct x2 as [v g], y as [v' g']. cbn [fst snd] in *.
      destruct (C _ _ _ _ _ X Y) as [J|J]; rewrite J in E; apply (inj Some) in E; subst e; cbn [fst snd] in *.
      - rewrite (proj2 BE eq_refl). assert (a = u) as -> by congruence. assert (c = w) as -> by congruence. apply vec_eq; unfold vscale, vsub; cbn [fst snd]; ring.
      - assert (a = w) as -> by congruence. assert (c = u) as -> by congruence. destruct b.
        + rewrite (proj1 BE eq_refl) in *. assert (u = w) as -> by congruence. apply vec_eq; unfold vscale, vsub; cbn [fst snd]; ring.
        + apply vec_eq; unfold vscale, vsub; cbn [fst snd]; ring. }
    exists ft. split; [exact E|]. cbn [fst]. intros row' R'. assert (row' = row) as -> by congruence. rewrite zip_with_length, seq_length, Nat.min_id in L.
    split; [congruence|]. intros k a b A Z. destruct (Forall2_lookup_r _ _ _ _ _ FR A) as (x & X & _).
    destruct (lookup_lt_is_Some_2 ft k) as [t T]; [rewrite L; by eapply lookup_lt_Some|]. rewrite T. f_equal. eapply (H k (k, x)); [|done|exact A|exact Z].
    apply lookup_zip_with_Some. exists k, x. split; [done|]. split; [|done]. apply lookup_seq. split; [done|by eapply lookup_lt_Some]. }
  exists ts, rows, ds, fts. split; [done|]. split; [done|]. split; [done|]. split; [done|]. split; [|done].
  rewrite zip_with_length, seq_length, Nat.min_id in LF. pose proof (Forall2_length _ _ _ HR) as LR.
  apply Forall2_same_length_lookup_2; [congruence|]. intros f row ft R T. destruct (Forall2_lookup_r _ _ _ _ _ HR R) as (face & F & _).
  eapply (HF f (f, face)); [|exact T|exact R]. apply lookup_zip_with_Some. exists f, face. split; [done|]. split; [|done]. apply lookup_seq. split; [done|by eapply lookup_lt_Some].
Qed.
