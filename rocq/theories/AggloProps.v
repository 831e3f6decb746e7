(** * Property C91: joining triangles around a vertex. *)
From Coq Require Import QArith Qcanon Sorted.
From stdpp Require Import sorting.
From Verif Require Import Base BaseProof QcTac FillModel FillSpec GeoModel MapModel PointModel PointSpec PolyModel PolySpec HullModel HullSpec CsrModel MeshModel MeshSpec MeshHist
  MeshWit UtilModel UtilSpec RefineModel RefineSpec RefineWit CheckModel CheckSpec AggloModel AggloSpec AggloProof AggloMesh AggloAll.
From Coq Require Import ZifyBool ZifyNat ZifyN.
Local Open Scope nat_scope.

(** Three or more consecutive triangles, counterclockwise around a vertex, give the polygon around them and the edges inside. *)
Theorem C91_fan : forall m f, reachable m -> is_fan m f -> 3 <= length (f_triangles f) ->
  AgglomerateTriangles (f_triangles f) m = Ok (Joined (border_vertices f) (border_edges f) (inner_spokes f)).
Proof. intros m f R F. exact (agglomerate_fan m R f F). Qed.
Print Assumptions C91_fan.

(** Each of its edges joins the vertex at its position and the next one, if this is so for the triangles. *)
Theorem C91_border : forall m f, is_fan m f -> 1 <= length (f_triangles f) ->
  (forall t vs es, t ∈ f_triangles f -> RelRow V2 t m = Ok vs -> RelRow E2 t m = Ok es -> around_edges m vs es) ->
  around_edges m (border_vertices f) (border_edges f).
Proof. exact border_around. Qed.
Print Assumptions C91_border.

(** Its area is the sum of the areas of the triangles, wherever the vertices are. *)
Theorem C91_area : forall m f (pos : N -> vec3) rows, is_fan m f ->
  Forall2 (fun t row => RelRow V2 t m = Ok row) (f_triangles f) rows ->
  CheckSpec.signed_area (pos <$> border_vertices f) = sum_of (fun row => CheckSpec.signed_area (pos <$> row)) rows.
Proof. exact border_area. Qed.
Print Assumptions C91_area.

(** Fewer triangles are rejected. *)
Theorem C91_few : forall m f, reachable m -> is_fan m f -> 1 <= length (f_triangles f) <= 2 ->
  AgglomerateTriangles (f_triangles f) m = Abort.
Proof. intros m f R F. exact (agglomerate_few m R f F). Qed.
Print Assumptions C91_few.

(** Several fans in a mesh: each becomes one new active polygon which replaces its triangles; the triangles and the edges inside
    are no longer active, and are listed in increasing order; nothing else changes. *)
Theorem C91_mesh : forall fs m, reachable m -> joinable fs m ->
  exists m' r, AgglomerateMeshFromTriangularMesh (f_triangles <$> fs) m = Ok (m', r) /\ reachable m' /\ agglomerated fs m m' /\
    jm_cells r = imap (fun k f => (num D2 m + k, f_triangles f)) fs /\
    jm_edges r ≡ₚ concat (inner_spokes <$> fs) /\ StronglySorted N.lt (jm_edges r) /\
    jm_triangles r ≡ₚ N.of_nat <$> concat (f_triangles <$> fs) /\ StronglySorted N.lt (jm_triangles r).
Proof. exact agglomerate_all. Qed.
Print Assumptions C91_mesh.

(** Four triangles around the origin. *)
Definition w_wheel : list op :=
  [OInitDimension 2; OAppend D0 5; at_point 0 0 0; at_point 1 1 0; at_point 2 0 1; at_point 3 (-1) 0; at_point 4 0 (-1)] ++
  ((fun v => OState D0 v true) <$> seq 0 5) ++
  [OAppend D1 8; OExtremes 0 0 1; OExtremes 1 0 2; OExtremes 2 0 3; OExtremes 3 0 4; OExtremes 4 1 2; OExtremes 5 2 3; OExtremes 6 3 4; OExtremes 7 4 1] ++
  ((fun e => OState D1 e true) <$> seq 0 8) ++ ((fun e => OInitOne R12 e 2) <$> seq 0 8) ++ [OAppend D2 4] ++
  [OAdd V2 0 [0; 1; 2]%N; OAdd E2 0 [0; 4; 1]%N; OAdd V2 1 [2; 3; 0]%N; OAdd E2 1 [5; 2; 1]%N;
   OAdd V2 2 [4; 0; 3]%N; OAdd E2 2 [3; 2; 6]%N; OAdd V2 3 [0; 4; 1]%N; OAdd E2 3 [3; 7; 0]%N] ++
  ((fun t => OState D2 t true) <$> seq 0 4) ++
  [OInsert R12 0 0 3; OInsert R12 0 1 0; OInsert R12 1 0 0; OInsert R12 1 1 1; OInsert R12 2 0 1; OInsert R12 2 1 2; OInsert R12 3 0 2; OInsert R12 3 1 3;
   OInsert R12 4 1 0; OInsert R12 5 1 1; OInsert R12 6 1 2; OInsert R12 7 1 3]%N.
Definition wheel : mesh := after w_wheel.
Lemma wheel_reachable : reachable wheel.
Proof. apply after_reachable, plain_allowed. vm_compute. reflexivity. Qed.
Definition wheel_fan : fan_data := Fan 0 [1; 2; 3; 4]%N [0; 1; 2; 3]%N [4; 5; 6]%N [0; 1; 2].
Lemma wheel_is_fan : is_fan wheel wheel_fan.
Proof.
  split; [done..| | |].
  - intros [|[|[|k]]] t T; [..|done]; injection T as <-.
    + exists 1%N, 2%N, 0%N, 4%N, 1%N. do 5 (split; [done|]). exists 0. split; [lia|]. split; vm_compute; reflexivity.
    + exists 2%N, 3%N, 1%N, 5%N, 2%N. do 5 (split; [done|]). exists 1. split; [lia|]. split; vm_compute; reflexivity.
    + exists 3%N, 4%N, 2%N, 6%N, 3%N. do 5 (split; [done|]). exists 2. split; [lia|]. split; vm_compute; reflexivity.
  - apply (bool_decide_unpack _). vm_compute. exact I.
  - apply (bool_decide_unpack _). vm_compute. exact I.
Qed.
Lemma wheel_joinable : joinable [wheel_fan] wheel.
Proof.
  split.
  - constructor; [split; [exact wheel_is_fan|cbn; lia]|constructor].
  - constructor; [split; repeat constructor|constructor].
  - constructor; [|constructor]. repeat (constructor; [vm_compute; reflexivity|]). constructor.
  - constructor; [|constructor]. repeat (constructor; [vm_compute; reflexivity|]). constructor.
  - apply (bool_decide_unpack _). vm_compute. exact I.
  - apply (bool_decide_unpack _). vm_compute. exact I.
Qed.
Definition wheel_result : outcome (mesh * joined_mesh) := AgglomerateMeshFromTriangularMesh [[0; 1; 2]] wheel.
Definition wheel_joined : mesh := match wheel_result with Ok r => r.1 | _ => empty_mesh end.
Lemma wheel_result_ok : match wheel_result with
  | Ok r => jm_cells r.2 = [(4, [0; 1; 2])] /\ jm_edges r.2 = [1; 2]%N /\ jm_triangles r.2 = [0; 1; 2]%N
  | _ => False
  end.
Proof. vm_compute. repeat split. Qed.
Example C91_nonvacuous : reachable wheel /\ joinable [wheel_fan] wheel /\
  border_vertices wheel_fan = [0; 1; 2; 3; 4]%N /\ border_edges wheel_fan = [0; 4; 5; 6; 3]%N /\ inner_spokes wheel_fan = [1; 2]%N /\
  match wheel_result with
  | Ok r => jm_cells r.2 = [(4, [0; 1; 2])] /\ jm_edges r.2 = [1; 2]%N /\ jm_triangles r.2 = [0; 1; 2]%N
  | _ => False
  end /\
  RelRow V2 4 wheel_joined = Ok [0; 1; 2; 3; 4]%N /\ IsActive D2 0 wheel_joined = Ok false /\ IsActive D1 1 wheel_joined = Ok false.
Proof.
  split; [exact wheel_reachable|]. split; [exact wheel_joinable|]. do 3 (split; [reflexivity|]). split; [exact wheel_result_ok|].
  split; [vm_compute; reflexivity|]. split; vm_compute; reflexivity.
Qed.

(** The neighbours of the edges are not updated: the edges of the new polygon still have the triangles on that side, and after
    the removal of the inactive cells some of them have no neighbour at all. *)
Theorem C91_neighbours_refuted :
  match AgglomerateMeshFromTriangularMesh [[0; 1; 2]] wheel with
  | Ok r =>
      IsActive D2 4 r.1 = Ok true /\ RelRow E2 4 r.1 = Ok [0; 4; 5; 6; 3]%N /\
      RelNeighbours R12 4 r.1 = Ok [0]%N /\ IsActive D2 0 r.1 = Ok false /\
      match ExtractActiveMesh r.1 no_active_data with
      | Ok s => RelRow E2 1 s.1 = Ok [0; 2; 3; 4; 1]%N /\ RelNeighbours R12 2 s.1 = Ok []
      | _ => False
      end
  | _ => False
  end.
Proof. vm_compute. repeat split. Qed.
Print Assumptions C91_neighbours_refuted.

(** Triangles all around a vertex are accepted, but the result is not their border: the vertex and one edge inside, twice, stay. *)
Theorem C91_closed_refuted : exists r, AgglomerateTriangles [0; 1; 2; 3] wheel = Ok r /\
  j_vertices r = [0; 1; 2; 3; 4; 1]%N /\ j_edges r = [0; 4; 5; 6; 7; 0]%N /\ j_removed r = [1; 2; 3]%N.
Proof. eexists. split; [vm_compute; reflexivity|]. split; [vm_compute; reflexivity|]. split; vm_compute; reflexivity. Qed.
Print Assumptions C91_closed_refuted.

(** The order around the vertex matters (MeshUtilities.hpp:1138 asks for it) and is not checked: clockwise triangles give lists with
    repetitions. *)
Theorem C91_clockwise_refuted : exists r, AgglomerateTriangles [2; 1; 0] wheel = Ok r /\
  j_vertices r = [0; 4; 3; 1; 1]%N /\ j_edges r = [2; 3; 2; 4; 4]%N /\ j_removed r = [2; 1]%N.
Proof. eexists. split; [vm_compute; reflexivity|]. split; [vm_compute; reflexivity|]. split; vm_compute; reflexivity. Qed.
Print Assumptions C91_clockwise_refuted.
