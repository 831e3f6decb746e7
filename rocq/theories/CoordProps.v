(** * Properties C99 and C100: equispaced and random coordinates. *)
From Coq Require Import QArith Qcanon ZifyBool ZifyNat ZifyN.
From Verif Require Import Base BaseProof QcTac GeoModel CommonModel CoordModel CoordSpec CoordProof.
Local Open Scope nat_scope.

(** As many coordinates as asked for; with the ends, if these are left out, they go from one to the other in equal steps. *)
Theorem C99_coordinates : forall size a b (extremes : bool), (if extremes then 2 <= size else 1 <= size) ->
  exists l, EquispaceCoordinates size a b extremes = Ok l /\ length l = size /\ even_line a b (if extremes then l else a :: l ++ [b]).
Proof. exact equispace_ok. Qed.
Print Assumptions C99_coordinates.

(** If the first end is smaller they increase. *)
Theorem C99_increasing : forall a b l, even_line a b l -> (a < b)%Qc -> exists d, (0 < d)%Qc /\ gaps d l.
Proof. exact even_increasing. Qed.
Print Assumptions C99_increasing.

(** A step gives as many intervals as the nearest whole number to its inverse. *)
Theorem C99_steps : forall g, (0 <= MinTolerance g)%Qc -> forall step (extremes : bool), (Tolerance1D g < step)%Qc -> (step <= 1)%Qc -> (1 / step < Q2Qc 4294967294)%Qc ->
  exists n l, 1 <= n /\ floor_of (1 / step + Q2Qc (1 # 2)) n /\ EquispaceSteps g step extremes = Ok l /\
    length (if extremes then l else 0%Qc :: l ++ [1%Qc]) = n + 1 /\ even_line 0 1 (if extremes then l else 0%Qc :: l ++ [1%Qc]).
Proof. exact steps_ok. Qed.
Print Assumptions C99_steps.

(** If the inverse is a whole number the coordinates have the step asked for. *)
Theorem C99_exact : forall g, (0 <= MinTolerance g)%Qc -> forall step (extremes : bool) k, (Tolerance1D g < step)%Qc -> (step <= 1)%Qc -> (1 / step < Q2Qc 4294967294)%Qc ->
  (Q2Qc (inject_Z (Z.of_nat k)) * step = 1)%Qc ->
  exists l, EquispaceSteps g step extremes = Ok l /\ forall j x y, (if extremes then l else 0%Qc :: l ++ [1%Qc]) !! j = Some x ->
    (if extremes then l else 0%Qc :: l ++ [1%Qc]) !! S j = Some y -> (y - x = step)%Qc.
Proof. exact steps_exact. Qed.
Print Assumptions C99_exact.

(** No coordinates: nothing; one coordinate with both ends: an exception, although the interface says that two are returned. *)
Theorem C99_few : forall a b, (forall extremes, EquispaceCoordinates 0 a b extremes = Ok []) /\ EquispaceCoordinates 1 a b true = Throw.
Proof. intros a b. split; [intros extremes; exact (equispace_none a b extremes)|exact (equispace_one a b)]. Qed.
Print Assumptions C99_few.

Definition c_geo : geo_config := GeoConfig (Q2Qc (1 # 1000)) (Q2Qc (1 # 1000)).
(** The numbers of a result. *)
Definition numbers (o : outcome (list Qc)) : option (list Q) := match o with Ok l => Some (this <$> l) | _ => None end.
Example C99_nonvacuous : (0 <= MinTolerance c_geo)%Qc /\ (Tolerance1D c_geo < Q2Qc (1 # 4))%Qc /\ (Q2Qc (1 # 4) <= 1)%Qc /\ (1 / Q2Qc (1 # 4) < Q2Qc 4294967294)%Qc /\
  numbers (EquispaceSteps c_geo (Q2Qc (1 # 4)) true) = Some [0; 1 # 4; 1 # 2; 3 # 4; 1]%Q /\
  numbers (EquispaceSteps c_geo (Q2Qc (1 # 4)) false) = Some [1 # 4; 1 # 2; 3 # 4]%Q /\
  numbers (EquispaceCoordinates 3 (Q2Qc 2) (Q2Qc 5) true) = Some [2; 7 # 2; 5]%Q /\
  numbers (EquispaceCoordinates 2 (Q2Qc 2) (Q2Qc 5) false) = Some [3; 4]%Q.
Proof. vm_compute. repeat split; discriminate. Qed.

(** The step is said to be the distance of the coordinates: the steps of two fifths are thirds. *)
Theorem C99_step_refuted : numbers (EquispaceSteps c_geo (Q2Qc (2 # 5)) true) = Some [0; 1 # 3; 2 # 3; 1]%Q.
Proof. vm_compute. reflexivity. Qed.
Print Assumptions C99_step_refuted.

(** As many coordinates as asked for, increasing, between 0 and 1, with the ends if they are wanted; without the ends the distance
    asked for is kept, with them half of it; whatever the shuffle. *)
Theorem C100_random : forall g, (0 <= MinTolerance g)%Qc -> forall shuffle size (extremes : bool) d mx, (forall l, shuffle l ≡ₚ l) -> (if extremes then 2 <= size else 1 <= size) ->
  (Tolerance1D g < d)%Qc -> floor_of (1 / d) mx -> (N.of_nat mx < 4294967296)%N -> size <= mx ->
  exists l, RandomCoordinates g shuffle size extremes d = Ok l /\ length l = size /\ gaps (Q2Qc (1 # 2) * d) l /\ (extremes = false -> gaps d l) /\
    Forall (fun x => (0 <= x)%Qc /\ (x <= 1)%Qc) l /\ (extremes = true -> l !! 0 = Some 0%Qc /\ last l = Some 1%Qc).
Proof. exact random_coordinates. Qed.
Print Assumptions C100_random.

Example C100_nonvacuous : (0 <= MinTolerance c_geo)%Qc /\ (Tolerance1D c_geo < Q2Qc (1 # 4))%Qc /\ floor_of (1 / Q2Qc (1 # 4)) 4 /\
  numbers (RandomCoordinates c_geo (fun l => rev l) 4 true (Q2Qc (1 # 4))) = Some [0; 1 # 2; 3 # 4; 1]%Q /\
  numbers (RandomCoordinates c_geo (fun l => rev l) 2 false (Q2Qc (1 # 4))) = Some [1 # 2; 3 # 4]%Q.
Proof. vm_compute. repeat split; discriminate. Qed.

(** With the ends the distance asked for is not kept: an eighth instead of a quarter. *)
Theorem C100_distance_refuted : numbers (RandomCoordinates c_geo (fun l => l) 4 true (Q2Qc (1 # 4))) = Some [0; 1 # 8; 1 # 4; 1]%Q.
Proof. vm_compute. reflexivity. Qed.
Print Assumptions C100_distance_refuted.
(** Without the ends the lower end may still be among the coordinates. *)
Theorem C100_ends_refuted : numbers (RandomCoordinates c_geo (fun l => l) 2 false (Q2Qc (1 # 4))) = Some [0; 1 # 4]%Q.
Proof. vm_compute. reflexivity. Qed.
Print Assumptions C100_ends_refuted.
