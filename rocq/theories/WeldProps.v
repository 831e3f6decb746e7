(** * Property C97: joining polygons. *)
From Coq Require Import ZifyBool ZifyNat ZifyN.
From Verif Require Import Base BaseProof CsrModel MeshModel MeshSpec MeshHist MeshWit JoinModel JoinSpec WeldModel WeldSpec WeldProof WeldEnd.
Local Open Scope nat_scope.

(** The new polygon: vertices, edges, state, greatest marker and polyhedra around the joined polygons; the joined polygons and the
    given vertices and edges are no longer active; the edges of the new polygon have it in place of the joined ones, and so have its
    vertices if they know any other polygon; nothing else changes. *)
Theorem C97_mesh : forall order fs vs es gone0 gone1 original m, reachable m -> can_weld fs vs es gone0 gone1 original m -> (forall l, order l ≡ₚ l) ->
  exists m' l, WeldPolygons order fs vs es gone0 gone1 original m = Ok (m', num D2 m, original ++ [l]) /\
    originals_of original fs l /\ reachable m' /\ polygons_joined fs vs es gone0 gone1 m m'.
Proof. exact weld_ok. Qed.
Print Assumptions C97_mesh.

(** Fewer than two polygons: nothing happens. *)
Theorem C97_few : forall order fs vs es gone0 gone1 original m, length fs < 2 ->
  exists c, WeldPolygons order fs vs es gone0 gone1 original m = Ok (m, c, original) /\
    (fs = [] -> c = num D2 m) /\ forall f, fs = [f] -> c = N.to_nat f.
Proof. exact weld_few. Qed.
Print Assumptions C97_few.

(** Three triangles in a row. *)
Definition w_row : list op :=
  [OInitDimension 2; OAppend D0 5] ++ ((fun v => OState D0 v true) <$> seq 0 5) ++
  [OAppend D1 7; OExtremes 0 0 1; OExtremes 1 1 2; OExtremes 2 2 0; OExtremes 3 1 3; OExtremes 4 3 2; OExtremes 5 3 4; OExtremes 6 4 2] ++
  ((fun e => OState D1 e true) <$> seq 0 7) ++
  [OAdd R01 0 [0; 2]; OAdd R01 1 [0; 1; 3]; OAdd R01 2 [1; 2; 4; 6]; OAdd R01 3 [3; 4; 5]; OAdd R01 4 [5; 6]]%N ++
  [OAppend D2 3; OAdd V2 0 [0; 1; 2]; OAdd E2 0 [0; 1; 2]; OAdd V2 1 [1; 3; 2]; OAdd E2 1 [3; 4; 1]; OAdd V2 2 [3; 4; 2]; OAdd E2 2 [5; 6; 4]]%N ++
  ((fun f => OState D2 f true) <$> seq 0 3) ++ [OMarker D2 0 4; OMarker D2 1 6; OMarker D2 2 9] ++
  [OAdd R02 0 [0]; OAdd R02 1 [0; 1]; OAdd R02 2 [0; 1; 2]; OAdd R02 3 [1; 2]; OAdd R02 4 [2]]%N ++
  ((fun e => OInitOne R12 e 2) <$> seq 0 7) ++
  [OInsert R12 0 1 0; OInsert R12 1 1 0; OInsert R12 1 0 1; OInsert R12 2 1 0; OInsert R12 3 1 1; OInsert R12 4 1 1; OInsert R12 4 0 2; OInsert R12 5 1 2; OInsert R12 6 1 2]%N.
Definition tri_row : mesh := after w_row.
Lemma tri_row_reachable : reachable tri_row.
Proof. apply after_reachable, plain_allowed. vm_compute. reflexivity. Qed.
Definition tri_original : list (list N) := [[20]; [21; 22]; [23]]%N.
Definition tri_joined : outcome (mesh * nat * list (list N)) := WeldPolygons (fun l => l) [1; 0]%N [0; 1; 3; 2]%N [0; 3; 4; 2]%N [] [1]%N tri_original tri_row.
Lemma tri_can_weld : can_weld [1; 0]%N [0; 1; 3; 2]%N [0; 3; 4; 2]%N [] [1]%N tri_original tri_row.
Proof.
  split.
  - cbn. lia.
  - apply (bool_decide_unpack _). vm_compute. exact I.
  - repeat (constructor; [vm_compute; reflexivity|]). constructor.
  - split; [repeat (constructor; [vm_compute; reflexivity|]); constructor|]. apply (bool_decide_unpack _). vm_compute. exact I.
  - repeat (constructor; [vm_compute; reflexivity|]). constructor.
  - split; [constructor|]. repeat (constructor; [vm_compute; reflexivity|]). constructor.
  - vm_compute. reflexivity.
  - assert (Forall (fun v => match RelRow R02 (N.to_nat v) tri_row with Ok row => Forall (fun f => (f < N.of_nat (num D2 tri_row))%N) row | _ => True end) [0; 1; 3; 2]%N) as H.
    { repeat (constructor; [vm_compute; repeat (constructor; [reflexivity|]); constructor|]). constructor. }
    intros v row V RW I. rewrite Forall_forall in H. specialize (H v V). rewrite RW in H. rewrite Forall_forall in H. specialize (H _ I). lia.
Qed.
Example C97_nonvacuous : reachable tri_row /\ can_weld [1; 0]%N [0; 1; 3; 2]%N [0; 3; 4; 2]%N [] [1]%N tri_original tri_row /\
  match tri_joined with
  | Ok (m', c, o) => c = 3 /\ o = tri_original ++ [[21; 22; 20]%N] /\ RelRow V2 3 m' = Ok [0; 1; 3; 2]%N /\ Marker D2 3 m' = Ok 6%N /\
      RelRow R02 2 m' = Ok [2; 3]%N /\ RelRow R12 4 m' = Ok [2; 3]%N /\ RelRow R12 0 m' = Ok [UINT_MAX; 3]%N /\
      IsActive D2 0 m' = Ok false /\ IsActive D1 1 m' = Ok false /\ IsActive D2 3 m' = Ok true
  | _ => False
  end.
Proof.
  split; [exact tri_row_reachable|]. split; [exact tri_can_weld|]. vm_compute. repeat split.
Qed.

(** A vertex of the new polygon all of whose polygons were joined keeps them as neighbours, although they are no longer active, and
    does not know the new one. *)
Theorem C97_border_refuted : match tri_joined with
  | Ok (m', c, _) => RelRow V2 c m' = Ok [0; 1; 3; 2]%N /\ RelRow R02 1 m' = Ok [0; 1]%N /\ IsActive D2 0 m' = Ok false /\ IsActive D2 1 m' = Ok false
  | _ => False
  end.
Proof. vm_compute. repeat split. Qed.
Print Assumptions C97_border_refuted.
