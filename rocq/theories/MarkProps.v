(** * Properties C92 and C93: markers along a line; first ancestors of polygons. *)
From Coq Require Import QArith Qcanon.
From Verif Require Import Base BaseProof QcTac FillModel GeoModel MapModel PointModel PointSpec PolyModel HullModel CsrModel MeshModel MeshSpec MeshHist
  MeshWit UtilModel RefineModel RefineWit MarkModel MarkSpec MarkProof MarkRoots.
From Coq Require Import ZifyBool ZifyNat ZifyN.
Local Open Scope nat_scope.

(** ** C92 *)

(** Exactly the vertices of the line, and the edges with both ends on it, get the marker; nothing else changes. *)
Theorem C92_line : forall A o t l k m, PointSpec.exact (geo A) -> t <> (0, 0, 0)%Qc -> (0 < l)%Qc -> reachable m -> edges_have_ends m ->
  exists m', SetMeshMarkersOnLine A o t l k m = Ok m' /\ reachable m' /\ marked_at A (of_the_line o t) k m m'.
Proof. exact line_ok. Qed.
Print Assumptions C92_line.

(** The same for the segment from [o] to [o + t]. *)
Theorem C92_segment : forall A o t l k m, PointSpec.exact (geo A) -> t <> (0, 0, 0)%Qc -> (0 < l)%Qc -> reachable m -> edges_have_ends m ->
  exists m', SetMeshMarkersOnSegment A o t l k m = Ok m' /\ reachable m' /\ marked_at A (of_the_segment o t) k m m'.
Proof. exact segment_ok. Qed.
Print Assumptions C92_segment.

(** Two triangles over a segment of the x axis with three vertices, and one vertex more. *)
Definition w_axis : list op :=
  [OInitDimension 2; OAppend D0 5; at_point 0 0 0; at_point 1 1 0; at_point 2 (-1) 0; at_point 3 0 1; at_point 4 2 0;
   OAppend D1 4; OExtremes 0 0 1; OExtremes 1 2 0; OExtremes 2 3 0; OExtremes 3 1 4; OAppend D2 1].
Definition axis : mesh := after w_axis.
Lemma axis_reachable : reachable axis.
Proof. apply after_reachable, plain_allowed. vm_compute. reflexivity. Qed.
Lemma axis_ends : edges_have_ends axis.
Proof.
  intros e o t. destruct e as [|[|[|[|e]]]]; vm_compute; intros X Y; try discriminate X; injection X as <-; injection Y as <-; cbn; lia.
Qed.
Definition markers (d : dim) (m : mesh) : outcome (list N) := omapM (fun i => Marker d i m) (seq 0 (num d m)).
Definition xy (x y : Q) : vec3 := (Q2Qc x, Q2Qc y, 0%Qc).
Example C92_nonvacuous : PointSpec.exact (geo RefineWit.exact) /\ xy 1 0 <> (0, 0, 0)%Qc /\ (0 < 1)%Qc /\ reachable axis /\ edges_have_ends axis /\
  match SetMeshMarkersOnLine RefineWit.exact (xy 0 0) (xy 1 0) 1 7 axis with
  | Ok m => markers D0 m = Ok [7; 7; 7; 0; 7]%N /\ markers D1 m = Ok [7; 7; 0; 7]%N | _ => False end /\
  match SetMeshMarkersOnSegment RefineWit.exact (xy 0 0) (xy 1 0) 1 7 axis with
  | Ok m => markers D0 m = Ok [7; 7; 0; 0; 0]%N /\ markers D1 m = Ok [7; 0; 0; 0]%N | _ => False end.
Proof.
  split; [split; vm_compute; reflexivity|]. split; [intros E; discriminate E|]. split; [vm_compute; reflexivity|].
  split; [exact axis_reachable|]. split; [exact axis_ends|]. split; vm_compute; repeat split.
Qed.

(** Refuted: with tolerances, a vertex nearer to the segment than the tolerance is found.  The two tests measure different
    things, a distance and a sine: near the origin of the segment a vertex which is on the line for the first one is beside the
    line for the second one. *)
Definition rough : arith := Arith (value RefineWit.exact) (store RefineWit.exact) (GeoConfig (Q2Qc (1 # 1000000)) (Q2Qc (1 # 100))) 0.
Definition w_near : list op :=
  [OInitDimension 2; OAppend D0 2; at_point 0 (1 # 20) (1 # 1000); at_point 1 (1 # 2) (1 # 1000)].
Definition w_above : list op :=
  [OInitDimension 2; OAppend D0 1; OCoordinates 0 (store RefineWit.exact (Q2Qc (1 # 20))) (store RefineWit.exact 0%Qc) (store RefineWit.exact (Q2Qc (1 # 1000)))].
Theorem C92_near_refuted : exists m1 m2, reachable m1 /\ reachable m2 /\
  match SetMeshMarkersOnLine rough (xy 0 0) (xy 1 0) 1 7 m1 with Ok m => markers D0 m = Ok [7; 7]%N | _ => False end /\
  match SetMeshMarkersOnSegment rough (xy 0 0) (xy 1 0) 1 7 m1 with Ok m => markers D0 m = Ok [0; 7]%N | _ => False end /\
  match SetMeshMarkersOnLine rough (xy 0 0) (xy 1 0) 1 7 m2 with Ok m => markers D0 m = Ok [7]%N | _ => False end /\
  SetMeshMarkersOnSegment rough (xy 0 0) (xy 1 0) 1 7 m2 = Abort.
Proof.
  exists (after w_near), (after w_above). split; [apply after_reachable, plain_allowed; vm_compute; reflexivity|].
  split; [apply after_reachable, plain_allowed; vm_compute; reflexivity|]. split_and!; vm_compute; reflexivity.
Qed.
Print Assumptions C92_near_refuted.

(** ** C93 *)

(** If no polygon is its own ancestor, the result lists for every polygon its only ancestor which was not made from another one. *)
Theorem C93_roots : forall m, reachable m -> ~ own_ancestor m ->
  exists rs, MeshCell2DRoots (num D2 m + 2) m = Ok rs /\ length rs = num D2 m /\
    forall c r, c < num D2 m -> rs !! c = Some r <-> first_ancestor m c r.
Proof. exact roots_ok. Qed.
Print Assumptions C93_roots.

(** This is so if every polygon was made from one with a smaller index. *)
Theorem C93_growing : forall m, (forall c b, made_from m c b -> b < c) -> ~ own_ancestor m.
Proof. exact growing_roots. Qed.
Print Assumptions C93_growing.

(** Otherwise the call never returns. *)
Theorem C93_cycle : forall m, reachable m -> own_ancestor m -> forall fuel, MeshCell2DRoots fuel m = OutOfFuel.
Proof. intros m R O fuel. exact (roots_never m R fuel O). Qed.
Print Assumptions C93_cycle.

Definition w_tree : list op := [OInitDimension 2; OAppend D2 5; OUpdated D2 0 2; OUpdated D2 0 3; OUpdated D2 3 4].
Definition tree : mesh := after w_tree.
Lemma tree_reachable : reachable tree.
Proof. apply after_reachable, plain_allowed. vm_compute. reflexivity. Qed.
Example C93_nonvacuous : reachable tree /\ (forall c b, made_from tree c b -> b < c) /\ MeshCell2DRoots (num D2 tree + 2) tree = Ok [0; 1; 0; 0; 0].
Proof.
  split; [exact tree_reachable|]. split; [|vm_compute; reflexivity].
  intros c b [E L]. change (num D2 tree) with 5 in L.
  destruct c as [|[|[|[|[|c]]]]], b as [|[|[|[|[|b]]]]]; try lia; vm_compute in E; discriminate E.
Qed.

(** Refuted: the call returns for every mesh.  A polygon may be declared its own replacement. *)
Theorem C93_ends_refuted : exists m, reachable m /\ forall fuel, MeshCell2DRoots fuel m = OutOfFuel.
Proof.
  exists (after [OAppend D2 1; OUpdated D2 0 0]).
  assert (reachable (after [OAppend D2 1; OUpdated D2 0 0])) as R by (apply after_reachable, plain_allowed; vm_compute; reflexivity).
  split; [exact R|]. apply C93_cycle; [exact R|]. exists 0. apply tc_once. split; vm_compute; [reflexivity|]. lia.
Qed.
Print Assumptions C93_ends_refuted.
