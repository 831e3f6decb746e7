(** * Property C88: the mesh of one polygon. *)
From Coq Require Import QArith Qcanon.
From Verif Require Import Base BaseProof QcTac FillModel FillSpec GeoModel MapModel PointModel PointSpec PolyModel PolySpec HullModel HullSpec CsrModel MeshModel MeshSpec MeshHist
  UtilModel UtilSpec RefineModel RefineSpec RefineWit CheckModel CheckSpec CheckProof CheckProof2 CheckWit CheckProps LoneModel LoneSpec LoneProof LoneProof2.
From Coq Require Import ZifyBool ZifyNat ZifyN.
Local Open Scope nat_scope.

(** At least three points give the mesh of LoneSpec.v, with the given markers or with 1, 2, ... *)
Theorem C88_mesh : forall pts vm em m, blank m -> 2 < length pts -> (N.of_nat (2 * length pts) <= UINT_MAX)%N ->
  exists m', Mesh2DFromPolygon pts vm em m = Ok m' /\ reachable m' /\
    lone pts (mark_of (length pts) 1 vm) (mark_of (length pts) (length pts + 1) em) m'.
Proof. exact lone_ok. Qed.
Print Assumptions C88_mesh.

(** Fewer points are rejected. *)
Theorem C88_few : forall pts vm em m, length pts <= 2 -> Mesh2DFromPolygon pts vm em m = Abort.
Proof. exact lone_short. Qed.
Print Assumptions C88_few.

(** The mesh can be refined: it is conforming. *)
Theorem C88_conforming : forall pts vm em m m', blank m -> (N.of_nat (2 * length pts) <= UINT_MAX)%N ->
  Mesh2DFromPolygon pts vm em m = Ok m' -> reachable m' /\ conforming m'.
Proof.
  intros pts vm em m m' B F E. destruct (decide (2 < length pts)) as [H|H]; [|rewrite lone_short in E by lia; done].
  destruct (lone_ok pts vm em m B H F) as (m1 & E1 & R & L). rewrite E in E1. injection E1 as <-. split; [done|].
  apply (lone_conforming _ _ _ _ L R H). lia.
Qed.
Print Assumptions C88_conforming.

(** It passes the checks of plane meshes when the points are flat and apart, and the polygon is counterclockwise and not too small. *)
Theorem C88_checks : forall A k pts vm em m m', (0 <= MinTolerance (geo A))%Qc -> (0 <= cfgTolerance1D (geo A))%Qc -> blank m ->
  (N.of_nat (2 * length pts) <= UINT_MAX)%N ->
  (forall i j p q, i <> j -> pts !! i = Some p -> pts !! j = Some q -> apart (geo A) (point_of A p) (point_of A q)) ->
  Forall (fun p => qabs (point_of A p).2 <= cfgTolerance1D (geo A))%Qc pts ->
  (MinTolerance (geo A) < CheckSpec.signed_area (point_of A <$> pts) /\ qabs (Tolerance2D A) < CheckSpec.signed_area (point_of A <$> pts))%Qc ->
  Cell1D_CheckDuplications k = true -> Cell2D_CheckConvexity k = false ->
  Mesh2DFromPolygon pts vm em m = Ok m' -> CheckMesh2D A k m' = Ok tt.
Proof.
  intros A k pts vm em m m' T0 T1 B F Ap Fl Ar K1 K2 E. destruct (decide (2 < length pts)) as [H|H]; [|rewrite lone_short in E by lia; done].
  destruct (lone_ok pts vm em m B H F) as (m1 & E1 & R & L). rewrite E in E1. injection E1 as <-.
  apply (proj2 (C81_accepts A k m' R T0 T1 (lone_balanced _ _ _ _ L R H ltac:(lia) A Ap) K1 K2)).
  apply (lone_plane _ _ _ _ L R H ltac:(lia)); [exact Ap| |exact Ar]. split; [by rewrite fmap_length|]. by apply Forall_fmap.
Qed.
Print Assumptions C88_checks.

Definition square_pts : list (N * N * N) := (fun p : Q * Q => (store exact (Q2Qc p.1), store exact (Q2Qc p.2), store exact 0%Qc)) <$> [(0, 0); (1, 0); (1, 1); (0, 1)]%Q.
Example C88_nonvacuous : 2 < length square_pts /\ (N.of_nat (2 * length square_pts) <= UINT_MAX)%N /\
  (forall i j p q, i <> j -> square_pts !! i = Some p -> square_pts !! j = Some q -> apart (geo exact) (point_of exact p) (point_of exact q)) /\
  Forall (fun p => qabs (point_of exact p).2 <= cfgTolerance1D (geo exact))%Qc square_pts /\
  (MinTolerance (geo exact) < CheckSpec.signed_area (point_of exact <$> square_pts) /\ qabs (Tolerance2D exact) < CheckSpec.signed_area (point_of exact <$> square_pts))%Qc /\
  (exists m', Mesh2DFromPolygon square_pts [] [7; 8; 9; 10]%N empty_mesh = Ok m' /\ Marker D0 2 m' = Ok 3%N /\ Marker D1 2 m' = Ok 9%N) /\
  Mesh2DFromPolygon (take 2 square_pts) [] [] empty_mesh = Abort.
Proof.
  split; [vm_compute; lia|]. split; [vm_compute; discriminate|]. split.
  { intros i j p q Hij Hi Hj. pose proof (lookup_lt_Some _ _ _ Hi) as Li. pose proof (lookup_lt_Some _ _ _ Hj) as Lj. change (length square_pts) with 4 in *.
    destruct i as [|[|[|[|i]]]]; destruct j as [|[|[|[|j]]]]; try lia.
    all: vm_compute in Hi; injection Hi as <-; vm_compute in Hj; injection Hj as <-; split; vm_compute; reflexivity. }
  split; [repeat constructor; vm_compute; discriminate|]. split; [split; vm_compute; reflexivity|].
  split; [eexists; split; [vm_compute; reflexivity|]; split; vm_compute; reflexivity|vm_compute; reflexivity].
Qed.
