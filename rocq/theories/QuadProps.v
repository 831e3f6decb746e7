(** * Properties C43 and C58 to C61: quadrature rules on the reference elements *)
From Coq Require Import QArith Qcanon.
From Verif Require Import Base QcTac QuadModel QuadSpec QuadDouble QuadFinal
  QuadGauss1D QuadLobatto1D QuadSquare QuadTriangle QuadHexahedron QuadTetrahedron QuadTetrahedronPositive
  QuadCheckGauss1D QuadCheckLobatto1D QuadCheckSquare QuadCheckTriangle QuadCheckHexahedron QuadCheckTetrahedron QuadCheckTetrahedronPositive.
Local Open Scope Qc_scope.

(** ** C43: Gauss rules on [0, 1], relative error at most 2e-15 *)

Theorem C43_gauss : forall order, (order <= 31)%nat -> exists r, Gauss1D_Fill order = Ok r /\
  determined 1 r /\ inside_cube r /\ positive_weights r /\ accurate integral_cube 1 order (/ ZQ (5 * 10 ^ 14)) r.
Proof. exact Gauss1D_ok. Qed.
Print Assumptions C43_gauss.

Theorem C43_other_orders : forall order, (31 < order)%nat -> Gauss1D_Fill order = Throw.
Proof. exact Gauss1D_throws. Qed.
Print Assumptions C43_other_orders.

(** The literals are read as the nearest double: 53 significant bits, ties to even. *)
Theorem C43_literals : forall p e, p <> 0%Z -> (0 <= e)%Z -> (0 <= (double_of (Dec p e)).2)%Z ->
  let '(m, k) := double_of (Dec p e) in
  (2 ^ 52 <= Z.abs m <= 2 ^ 53 /\ 2 * Z.abs (m * 10 ^ e - p * 2 ^ k) <= 10 ^ e /\ (2 * Z.abs (m * 10 ^ e - p * 2 ^ k) = 10 ^ e -> Z.Even m))%Z.
Proof. exact double_of_nearest. Qed.
Print Assumptions C43_literals.

(** x^3 - 2 x^2 with the two-point rule. *)
Example C43_instance : of_degree 1 3 [([3%nat], 1); ([2%nat], - (1 + 1))] /\
  integral integral_cube [([3%nat], 1); ([2%nat], - (1 + 1))] = Q2Qc (- 5 # 12) /\
  length (columns Gauss1D_3) = 2%nat /\ double_of (Dec 1 1) = (7205759403792794, 56)%Z.
Proof. split; [|vm_compute; done]. repeat (apply Forall_cons; split; [split; [reflexivity|cbn; lia]|]). apply Forall_nil. done. Qed.

(** ** C58: Gauss rules on the square and on the cube, 2e-15 and 1e-15 *)

Theorem C58_square : forall order, (order <= 31)%nat -> exists r, Square_Fill order = Ok r /\
  determined 2 r /\ inside_cube r /\ positive_weights r /\ accurate integral_cube 2 order (/ ZQ (5 * 10 ^ 14)) r.
Proof. exact Square_ok. Qed.
Print Assumptions C58_square.

Theorem C58_hexahedron : forall order, (order <= 15)%nat -> exists r, Hexahedron_Fill order = Ok r /\
  determined 3 r /\ inside_cube r /\ positive_weights r /\ accurate integral_cube 3 order (/ ZQ (10 ^ 15)) r.
Proof. exact Hexahedron_ok. Qed.
Print Assumptions C58_hexahedron.

Theorem C58_other_orders : forall order, ((31 < order)%nat -> Square_Fill order = Throw) /\ ((15 < order)%nat -> Hexahedron_Fill order = Throw).
Proof. exact (fun order => conj (Square_throws order) (Hexahedron_throws order)). Qed.
Print Assumptions C58_other_orders.

Example C58_instance : of_degree 3 5 [([1; 2; 2]%nat, 1)] /\ integral integral_cube [([1; 2; 2]%nat, 1)] = Q2Qc (1 # 18) /\
  length (columns Hexahedron_5) = 27%nat.
Proof. split; [|vm_compute; done]. apply Forall_cons. split; [split; [reflexivity|cbn; lia]|apply Forall_nil; done]. Qed.

(** ** C59: rules on the triangle, 2e-13 *)

Theorem C59_triangle_partial : forall order, (order <= 30)%nat -> order <> 21%nat -> exists r, Triangle_Fill order = Ok r /\
  determined 2 r /\ inside_simplex r /\ positive_weights r /\ accurate integral_simplex 2 order (/ ZQ (5 * 10 ^ 12)) r.
Proof. exact Triangle_ok. Qed.
Print Assumptions C59_triangle_partial.

(** The rule returned for order 21 is the one of order 20 and misses degree 21 by more than 1e-7. *)
Theorem C59_order_21_refuted : exists r, Triangle_Fill 21 = Ok r /\ ~ accurate integral_simplex 2 21 (/ ZQ (10 ^ 7)) r.
Proof. exact Triangle_21_wrong. Qed.
Print Assumptions C59_order_21_refuted.
Theorem C59_order_21_partial : exists r, Triangle_Fill 21 = Ok r /\
  determined 2 r /\ inside_simplex r /\ positive_weights r /\ accurate integral_simplex 2 20 (/ ZQ (5 * 10 ^ 12)) r.
Proof. exact Triangle_21_ok. Qed.
Print Assumptions C59_order_21_partial.

Theorem C59_other_orders : forall order, (30 < order)%nat -> Triangle_Fill order = Throw.
Proof. exact Triangle_throws. Qed.
Print Assumptions C59_other_orders.

Example C59_instance : of_degree 2 4 [([1; 2]%nat, 1); ([0; 4]%nat, 1)] /\
  integral integral_simplex [([1; 2]%nat, 1); ([0; 4]%nat, 1)] = Q2Qc (1 # 20) /\ length (columns Triangle_4) = 6%nat.
Proof. split; [|split; [apply Qc_is_canon; vm_compute; done|done]]. repeat (apply Forall_cons; split; [split; [reflexivity|cbn; lia]|]). apply Forall_nil. done. Qed.

(** ** C60: rules on the tetrahedron, 5e-14 and, with positive weights, 1e-14 *)

Theorem C60_tetrahedron : forall order, (order <= 15)%nat -> exists r, Tetrahedron_Fill order = Ok r /\
  determined 3 r /\ inside_simplex r /\ accurate integral_simplex 3 order (/ ZQ (2 * 10 ^ 13)) r.
Proof. exact Tetrahedron_ok. Qed.
Print Assumptions C60_tetrahedron.

Theorem C60_positive_weights : forall order, (order <= 14)%nat -> order <> 11%nat -> order <> 13%nat -> exists r, TetrahedronPositive_Fill order = Ok r /\
  determined 3 r /\ inside_simplex r /\ positive_weights r /\ accurate integral_simplex 3 order (/ ZQ (10 ^ 14)) r.
Proof. exact TetrahedronPositive_ok. Qed.
Print Assumptions C60_positive_weights.

Theorem C60_other_orders : forall order, ((15 < order)%nat -> Tetrahedron_Fill order = Throw) /\
  ((14 < order)%nat -> TetrahedronPositive_Fill order = Throw) /\ TetrahedronPositive_Fill 11 = Throw /\ TetrahedronPositive_Fill 13 = Throw.
Proof. exact (fun order => conj (Tetrahedron_throws order) (conj (TetrahedronPositive_throws order) (conj eq_refl eq_refl))). Qed.
Print Assumptions C60_other_orders.

Example C60_instance : of_degree 3 3 [([1; 1; 1]%nat, 1)] /\ integral integral_simplex [([1; 1; 1]%nat, 1)] = Q2Qc (1 # 720) /\
  length (columns Tetrahedron_3) = 5%nat /\ check_weights Tetrahedron_3 = false.
Proof. split; [|vm_compute; done]. apply Forall_cons. split; [split; [reflexivity|cbn; lia]|apply Forall_nil; done]. Qed.

(** ** C61: Gauss-Lobatto rules on [0, 1], 3.4e-15 *)

Theorem C61_lobatto : forall order, (order <= 43)%nat -> exists r, Lobatto1D_Fill order = Ok r /\
  inside_cube r /\ positive_weights r /\ accurate integral_cube 1 order (/ ZQ (3 * 10 ^ 14)) r.
Proof. exact Lobatto1D_ok. Qed.
Print Assumptions C61_lobatto.

(** The first point is 0 and the last is 1. *)
Theorem C61_end_points : forall order, (order <= 43)%nat -> exists r, Lobatto1D_Fill order = Ok r /\
  (exists a, head (nodes r) = Some a /\ a.1 = [0]) /\ (exists b, last (nodes r) = Some b /\ b.1 = [1]).
Proof. exact Lobatto1D_ends. Qed.
Print Assumptions C61_end_points.

Theorem C61_other_orders : forall order, (43 < order)%nat -> Lobatto1D_Fill order = Throw.
Proof. exact Lobatto1D_throws. Qed.
Print Assumptions C61_other_orders.

(** The second and third coordinates of the points are zero up to order 15; above they are never written. *)
Theorem C61_coordinates_partial : forall order, (order <= 15)%nat -> exists r, Lobatto1D_Fill order = Ok r /\ determined 1 r.
Proof. exact Lobatto1D_low. Qed.
Print Assumptions C61_coordinates_partial.
Theorem C61_coordinates_refuted : forall order, (16 <= order <= 43)%nat -> exists r, Lobatto1D_Fill order = Ok r /\ ~ determined 1 r /\
  points r = (fun c => [Some (double_of (hd (Dec 0 0) c.1)); None; None]) <$> columns r.
Proof. exact Lobatto1D_high. Qed.
Print Assumptions C61_coordinates_refuted.

Example C61_instance : length (columns Lobatto1D_17) = 10%nat /\ head (points Lobatto1D_17) = Some [Some (0, 0)%Z; None; None].
Proof. vm_compute. done. Qed.
