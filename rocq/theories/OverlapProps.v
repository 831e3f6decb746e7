(** * Property C94: overlapping triangles. *)
From Coq Require Import QArith Qcanon.
From Verif Require Import Base BaseProof QcTac FillModel GeoModel MapModel PointModel PointSpec OverlapModel OverlapSpec OverlapProof.
Local Open Scope Qc_scope.

(** With the border: the answer is yes exactly if the triangles have a common point. *)
Theorem C94_closed : forall g t u, exact g -> counterclockwise t -> counterclockwise u ->
  CheckTrianglesIntersection g t u true = true <-> exists x, in_triangle t x /\ in_triangle u x.
Proof. intros g t u. exact (triangles_exact g t u true). Qed.
Print Assumptions C94_closed.

(** Without the border: exactly if a point is strictly inside both. *)
Theorem C94_open : forall g t u, exact g -> counterclockwise t -> counterclockwise u ->
  CheckTrianglesIntersection g t u false = true <-> exists x, inside_triangle t x /\ inside_triangle u x.
Proof. intros g t u. exact (triangles_exact g t u false). Qed.
Print Assumptions C94_open.

Definition xy (x y : Q) : vec3 := (Q2Qc x, Q2Qc y, 0).
Definition no_tolerance : geo_config := GeoConfig 0 0.
Definition low : tri := (xy 0 0, xy 2 0, xy 0 2).
Definition star : tri := (xy 0 1, xy 1 (-1), xy 2 1).
Definition beside : tri := (xy 2 0, xy 3 0, xy 2 1).
Definition far : tri := (xy 3 0, xy 4 0, xy 3 1).
Example C94_nonvacuous : exact no_tolerance /\ counterclockwise low /\ counterclockwise star /\ counterclockwise beside /\ counterclockwise far /\
  CheckTrianglesIntersection no_tolerance low star false = true /\
  CheckTrianglesIntersection no_tolerance low beside true = true /\ CheckTrianglesIntersection no_tolerance low beside false = false /\
  CheckTrianglesIntersection no_tolerance low far true = false.
Proof. split; [split; reflexivity|]. split_and!; vm_compute; reflexivity. Qed.

(** Refuted: the answer does not depend on the order of the corners.  A clockwise triangle does not even overlap itself
    (without its border). *)
Definition turned (t : tri) : tri := (t.1.1, t.2, t.1.2).
Theorem C94_clockwise_refuted : exists g t, exact g /\ counterclockwise t /\
  CheckTrianglesIntersection g (turned t) (turned t) false = false /\ CheckTrianglesIntersection g t (turned t) false = false /\
  exists x, inside_triangle t x /\ inside_triangle (turned t) x.
Proof.
  exists no_tolerance, low. split; [split; reflexivity|]. split; [vm_compute; reflexivity|]. split; [vm_compute; reflexivity|].
  split; [vm_compute; reflexivity|]. exists (weighted low (Q2Qc (1 # 2)) (Q2Qc (1 # 4)) (Q2Qc (1 # 4))).
  split; exists (Q2Qc (1 # 2)), (Q2Qc (1 # 4)), (Q2Qc (1 # 4)); (split_and!; [vm_compute; reflexivity..|apply Qc_is_canon; vm_compute; reflexivity|]);
    (unfold weighted; f_equal; apply Qc_is_canon; vm_compute; reflexivity).
Qed.
Print Assumptions C94_clockwise_refuted.

(** Refuted: with a tolerance, triangles which overlap are found.  The tolerance is compared with twice an area, so small
    triangles never overlap without their border, not even with themselves. *)
Theorem C94_small_refuted : exists g t x, MinTolerance g = Q2Qc (1 # 1000000) /\ cfgTolerance1D g = Q2Qc (1 # 1000) /\ counterclockwise t /\
  t = (xy 0 0, xy (1 # 40) 0, xy 0 (1 # 40)) /\ inside_triangle t x /\ CheckTrianglesIntersection g t t false = false.
Proof.
  exists (GeoConfig (Q2Qc (1 # 1000000)) (Q2Qc (1 # 1000))), (xy 0 0, xy (1 # 40) 0, xy 0 (1 # 40)).
  exists (weighted (xy 0 0, xy (1 # 40) 0, xy 0 (1 # 40)) (Q2Qc (1 # 2)) (Q2Qc (1 # 4)) (Q2Qc (1 # 4))).
  split; [reflexivity|]. split; [reflexivity|]. split; [vm_compute; reflexivity|]. split; [reflexivity|].
  split; [|vm_compute; reflexivity].
  exists (Q2Qc (1 # 2)), (Q2Qc (1 # 4)), (Q2Qc (1 # 4)). split_and!; [vm_compute; reflexivity..| |reflexivity].
  apply Qc_is_canon. vm_compute. reflexivity.
Qed.
Print Assumptions C94_small_refuted.
