(** Witnesses for FillProps.v. *)
From Coq Require Import QArith Qcanon Sorted.
From Verif Require Import Base BaseProof CsrModel MeshModel MeshSpec MeshHist UtilSpec UtilModel FillModel FillSpec FillProofB FillProofC FillProofF FillProofG.
From Coq Require Import ZifyBool ZifyNat ZifyN.
Local Open Scope nat_scope.

Lemma blank_empty : blank empty_mesh.
Proof. split; [constructor|]. by intros []. Qed.

(** A square and a triangle sharing the edge 1-2. *)
Definition w_points : list (N * N * N) := [(0, 0, 0); (1, 0, 0); (1, 1, 0); (0, 1, 0); (2, 0, 0)]%N.
Definition w_edges : list (N * N) := [(0, 1); (1, 2); (2, 3); (3, 0); (1, 4); (4, 2)]%N.
Definition w_polygons : list (list (N * N)) := [[(0, 0); (1, 1); (2, 2); (3, 3)]; [(1, 4); (4, 5); (2, 1)]]%N.

Lemma w_consistent : consistent w_points w_edges w_polygons [].
Proof. unfold consistent. split_and!; repeat (constructor; cbn; try lia). Qed.
Lemma w_inconsistent : ~ consistent w_points w_edges [[(0, 9)]]%N [].
Proof. intros (_ & _ & H & _). inversion H as [|? ? [_ H1] _]; subst. inversion H1 as [|? ? H2 _]; subst. cbn in H2. lia. Qed.

(** A tetrahedron. *)
Definition s_points : list (N * N * N) := [(0, 0, 0); (1, 0, 0); (0, 1, 0); (0, 0, 1)]%N.
Definition s_edges : list (N * N) := [(0, 1); (1, 2); (2, 0); (0, 3); (1, 3); (2, 3)]%N.
Definition s_polygons : list (list (N * N)) :=
  [[(0, 0); (1, 1); (2, 2)]; [(0, 0); (1, 4); (3, 3)]; [(1, 1); (2, 5); (3, 4)]; [(2, 2); (0, 3); (3, 5)]]%N.
Definition s_polyhedra : list polyhedron := [Polyhedron [0; 1; 2; 3] [0; 1; 2; 3; 4; 5] [0; 1; 2; 3]]%N.
Lemma s_consistent : consistent s_points s_edges s_polygons s_polyhedra.
Proof. unfold consistent. split_and!; repeat (constructor; cbn; try lia). Qed.

Definition result (o : outcome mesh) : mesh := match o with Ok m => m | _ => empty_mesh end.
Definition w_mesh : mesh := result (FillMesh2D w_points w_edges w_polygons empty_mesh).
Definition s_mesh : mesh := result (FillMesh3D s_points s_edges s_polygons s_polyhedra empty_mesh).

Lemma w_reachable : reachable w_mesh.
Proof.
  destruct (fill2_ok empty_mesh w_points w_edges w_polygons blank_empty) as (m & E & H & _); [done..|apply w_consistent|].
  unfold w_mesh. by rewrite E.
Qed.
Lemma s_reachable : reachable s_mesh.
Proof.
  destruct (fill3_ok empty_mesh s_points s_edges s_polygons s_polyhedra blank_empty) as (m & E & H & _); [done..|apply s_consistent|].
  unfold s_mesh. by rewrite E.
Qed.

Lemma w_few d : few (num d w_mesh).
Proof. unfold few. destruct d; vm_compute; done. Qed.
Lemma s_few d : few (num d s_mesh).
Proof. unfold few. destruct d; vm_compute; done. Qed.

(** The triangle on its own, with its vertices in an arbitrary order. *)
Definition g0 : list N := [2; 4; 1]%N.
Definition g1 : list N := [4; 1; 5]%N.
Definition g2 : list N := [1]%N.
Lemma nodup_dec (l : list N) : bool_decide (NoDup l) = true -> NoDup l.
Proof. apply bool_decide_eq_true. Qed.
Lemma good_dec d l m n : num d m = n -> bool_decide (NoDup l) = true -> bool_decide (Forall (fun o => (o < N.of_nat n)%N) l) = true -> good_filter d l m.
Proof. intros <- H1 H2. split; by eapply bool_decide_eq_true. Qed.
Lemma w_good : good_filter D0 g0 w_mesh /\ good_filter D1 g1 w_mesh /\ good_filter D2 g2 w_mesh.
Proof. split_and!; eapply good_dec; by vm_compute. Qed.

Lemma closed_rows_dec r fs ft m l :
  omapM (fun c => RelRow r (N.to_nat c) m) fs = Ok l -> bool_decide (Forall (Forall (fun v => v ∈ ft)) l) = true -> closed_rows r fs ft m.
Proof.
  intros E H%bool_decide_eq_true. revert l E H. induction fs as [|c fs IH]; intros l E H x Hx; [by apply elem_of_nil in Hx|].
  cbn [omapM] in E. apply bind_ok in E as (row & Er & E). apply bind_ok in E as (l' & El & E). injection E as <-.
  apply Forall_cons in H as [H1 H2]. apply elem_of_cons in Hx as [->|Hx]; [by exists row|]. by apply (IH l').
Qed.
Lemma closed_edges_dec f0 f1 m l :
  omapM (fun e => o ← Cell1DOrigin (N.to_nat e) m; t ← Cell1DEnd (N.to_nat e) m; Ok (o, t)) f1 = Ok l ->
  bool_decide (Forall (fun p => p.1 ∈ f0 /\ p.2 ∈ f0) l) = true -> closed_edges f0 f1 m.
Proof.
  intros E H%bool_decide_eq_true. revert l E H. induction f1 as [|c fs IH]; intros l E H x Hx; [by apply elem_of_nil in Hx|].
  cbn [omapM] in E. apply bind_ok in E as (row & Er & E). apply bind_ok in E as (l' & El & E). injection E as <-.
  apply Forall_cons in H as [H1 H2]. apply elem_of_cons in Hx as [->|Hx]; [|by apply (IH l')].
  apply bind_ok in Er as (o & Eo & Er). apply bind_ok in Er as (t & Et & Er). injection Er as <-. exists o, t. tauto.
Qed.
Lemma w_closed : closed_edges g0 g1 w_mesh /\ closed_rows V2 g2 g0 w_mesh /\ closed_rows E2 g2 g1 w_mesh /\ same_numbers g2 w_mesh.
Proof.
  split_and!.
  - eapply closed_edges_dec; [by vm_compute|by vm_compute].
  - eapply closed_rows_dec; [by vm_compute|by vm_compute].
  - eapply closed_rows_dec; [by vm_compute|by vm_compute].
  - intros c ->%elem_of_list_singleton. by vm_compute.
Qed.

(** What is visible of a planar mesh. *)
Definition shown (m : mesh) : outcome (list (list (list N))) :=
  ps ← omapM (fun i => p ← Cell0DCoordinates i m; Ok [p.1.1; p.1.2; p.2]) (seq 0 (num D0 m));
  es ← omapM (fun i => o ← Cell1DOrigin i m; t ← Cell1DEnd i m; Ok [o; t]) (seq 0 (num D1 m));
  vs ← omapM (fun i => RelRow V2 i m) (seq 0 (num D2 m));
  cs ← omapM (fun i => RelRow E2 i m) (seq 0 (num D2 m));
  Ok [ps; es; vs; cs].

Lemma w_shown : (m ← FillMesh2D w_points w_edges w_polygons empty_mesh; shown m) =
  Ok [[[0; 0; 0]; [1; 0; 0]; [1; 1; 0]; [0; 1; 0]; [2; 0; 0]]; [[0; 1]; [1; 2]; [2; 3]; [3; 0]; [1; 4]; [4; 2]];
      [[0; 1; 2; 3]; [1; 4; 2]]; [[0; 1; 2; 3]; [4; 5; 1]]]%N.
Proof. vm_compute. reflexivity. Qed.

Lemma w_extracted : (r ← ExtractMesh2D g0 g1 g2 w_mesh empty_mesh; s ← shown r.1; Ok (s, r.2)) =
  Ok ([[[1; 1; 0]; [2; 0; 0]; [1; 0; 0]]; [[2; 1]; [2; 0]; [1; 0]]; [[2; 1; 0]]; [[0; 2; 1]]],
      ([UINT_MAX; 2; 0; UINT_MAX; 1], [UINT_MAX; 1; UINT_MAX; UINT_MAX; 0; 2], [UINT_MAX; 0]))%N.
Proof. vm_compute. reflexivity. Qed.
Lemma w_filtered : FilterMesh2D g2 w_mesh = Ok ([1; 2; 4], [1; 4; 5], [1])%N.
Proof. vm_compute. reflexivity. Qed.

Lemma s_good : good_filter D0 [0; 1; 2; 3]%N s_mesh /\ good_filter D1 [0; 1; 2; 3; 4; 5]%N s_mesh /\
  good_filter D2 [3; 2; 1; 0]%N s_mesh /\ good_filter D3 [0]%N s_mesh.
Proof. split_and!; eapply good_dec; by vm_compute. Qed.
Lemma s_closed : closed_edges [0; 1; 2; 3]%N [0; 1; 2; 3; 4; 5]%N s_mesh /\ closed_rows V2 [3; 2; 1; 0]%N [0; 1; 2; 3]%N s_mesh /\
  closed_rows E2 [3; 2; 1; 0]%N [0; 1; 2; 3; 4; 5]%N s_mesh /\ same_numbers [3; 2; 1; 0]%N s_mesh /\
  closed_rows V3 [0]%N [0; 1; 2; 3]%N s_mesh /\ closed_rows E3 [0]%N [0; 1; 2; 3; 4; 5]%N s_mesh /\ closed_rows F3 [0]%N [3; 2; 1; 0]%N s_mesh.
Proof.
  split_and!; try (eapply closed_rows_dec; [by vm_compute|by vm_compute]).
  - eapply closed_edges_dec; [by vm_compute|by vm_compute].
  - intros c Hc. repeat (apply elem_of_cons in Hc as [->|Hc]; [by vm_compute|]). by apply elem_of_nil in Hc.
Qed.
Lemma s_extracted : (r ← ExtractMesh3D [0; 1; 2; 3]%N [0; 1; 2; 3; 4; 5]%N [3; 2; 1; 0]%N [0]%N s_mesh empty_mesh; RelRow F3 0 r.1) =
  Ok [3; 2; 1; 0]%N.
Proof. vm_compute. reflexivity. Qed.

(** Polygons without a matching number of edges, and one polygon mentioning an edge that is not there. *)
Lemma w_reject : FillMesh2D w_points w_edges [[(0, 9)]]%N empty_mesh = Abort.
Proof. apply fill2_abort; [apply blank_empty|apply w_inconsistent]. Qed.

(** ExtractMesh1D loses markers. *)
Definition l_mesh : mesh := result (FillMesh1D (0, 0, 0)%Qc (1, 0, 0)%Qc [0; Q2Qc (1 # 2); 1]%Qc empty_mesh).
Lemma l_reachable : reachable l_mesh.
Proof.
  destruct (fill1_ok empty_mesh (0, 0, 0)%Qc (1, 0, 0)%Qc [0; Q2Qc (1 # 2); 1]%Qc blank_empty) as (m & E & H & _); [done..|].
  unfold l_mesh. by rewrite E.
Qed.
Lemma l_good : good_filter D0 [0; 1]%N l_mesh /\ good_filter D1 [0]%N l_mesh /\ closed_edges [0; 1]%N [0]%N l_mesh.
Proof. split_and!; [eapply good_dec; by vm_compute..|]. eapply closed_edges_dec; [by vm_compute|by vm_compute]. Qed.
Lemma l_marker : Marker D0 0 l_mesh = Ok 1%N /\ (r ← ExtractMesh1D [0; 1]%N [0]%N l_mesh empty_mesh; Marker D0 0 r.1) = Ok 0%N.
Proof. split; vm_compute; reflexivity. Qed.
Lemma extract1_marks_refuted : exists old m f0 f1 m' t,
  reachable old /\ blank m /\ good_filter D0 f0 old /\ good_filter D1 f1 old /\ closed_edges f0 f1 old /\
  ExtractMesh1D f0 f1 old m = Ok (m', t) /\ ~ taken_marks D0 f0 old m'.
Proof.
  destruct l_good as (G0 & G1 & C). destruct l_marker as [E1 E2]. apply bind_ok in E2 as ([m' t] & E & E2).
  exists l_mesh, empty_mesh, [0; 1]%N, [0]%N, m', t. 
  refine (conj l_reachable (conj blank_empty (conj G0 (conj G1 (conj C (conj E _)))))).
  intros H. destruct (H 0 0%N eq_refl) as [Hm _]. cbn [fst N.to_nat] in *. congruence.
Qed.

(** Mesh1DFromSegment on the segment from (1,0,0) to (2,0,0) ends in (3,0,0). *)
Lemma segment_refuted : exists m v0 v1 k0 k1 m', blank m /\ Mesh1DFromSegment v0 v1 [k0; k1] m = Ok m' /\
  Cell0DCoordinates 1 m' <> Ok (dbl3 v1).
Proof.
  set (v0 := (1, 0, 0)%Qc : vec3). set (v1 := (Q2Qc 2, 0, 0)%Qc : vec3).
  destruct (segment_ok empty_mesh v0 v1 1%N 2%N blank_empty) as (m' & E & _).
  exists empty_mesh, v0, v1, 1%N, 2%N, m'. 
  refine (conj blank_empty (conj E _)).
  destruct (segment_ends _ _ _ _ _ _ blank_empty E) as [_ H]. rewrite H. done.
Qed.
