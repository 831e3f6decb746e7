(** * Convex hulls: C72, and the orientation of polygons through their hull: C71. *)
From Coq Require Import QArith Qcanon Sorted.
From Verif Require Import Base QcTac FillModel GeoModel MapModel PointModel PointSpec PointProof PolyModel PolySpec PointProps
  HullModel HullSpec HullFinal HullTrue HullOrient.
Local Open Scope Qc_scope.

(** ** C72: the convex hull *)

(** The result selects the corners of a strictly convex polygon, counterclockwise, which encloses all the points. *)
Theorem C72_corners g ps : exact g -> Forall flat ps -> NoDup ps -> ~ on_one_line ps ->
  exists ids hs, ConvexHull g ps false = Ok ids /\ selected ps ids hs /\ (2 < length hs)%nat /\ ordered hs /\
    forall p, p ∈ ps -> encloses hs p.
Proof. exact (hull_corners g ps). Qed.
Print Assumptions C72_corners.
(** One point: the point. *)
Theorem C72_point g p b : exact g -> flat p -> ConvexHull g [p] b = Ok [0%nat].
Proof.
  intros [_ X] P. unfold ConvexHull, PointsAre2D. cbn [length Nat.eqb negb require mbind outcome_bind forallb].
  unfold flat in P. rewrite P, X. reflexivity.
Qed.
Print Assumptions C72_point.
(** Points on one line: the result is the two ends of the smallest segment which contains all of them. *)
Theorem C72_segment g ps : exact g -> Forall flat ps -> NoDup ps -> (1 < length ps)%nat -> on_one_line ps ->
  exists i j a b, ConvexHull g ps false = Ok [i; j] /\ selected ps [i; j] [a; b] /\ a <> b /\
    forall p, p ∈ ps -> exists c, 0 <= c /\ c <= 1 /\ on_line b a c p.
Proof. exact (hull_segment g ps). Qed.
Print Assumptions C72_segment.
(** With the points on the sides: a counterclockwise polygon without reflex corners which encloses all the points; each point is one
    of its vertices or strictly inside. *)
Theorem C72_sides g ps : exact g -> Forall flat ps -> NoDup ps -> ~ on_one_line ps ->
  exists ids hs, ConvexHull g ps true = Ok ids /\ selected ps ids hs /\ (2 < length hs)%nat /\ NoDup hs /\ left_turning hs /\
    forall p, p ∈ ps -> encloses hs p /\ (p ∈ hs \/ surrounds hs p).
Proof. exact (hull_sides g ps). Qed.
Print Assumptions C72_sides.
(** Points on one line, with the points on the sides: undefined behaviour for all of them. *)
Theorem C72_one_line_refuted g ps : exact g -> Forall flat ps -> NoDup ps -> (1 < length ps)%nat -> on_one_line ps ->
  ConvexHull g ps true = UB.
Proof. exact (convex_hull_undefined g ps). Qed.
Print Assumptions C72_one_line_refuted.

Definition cloud : list vec3 := [q2 2 0; q2 4 4; q2 2 1; q2 0 0; q2 0 2; q2 4 0; q2 0 4].
Example C72_nonvacuous : exact zero_tolerances /\ Forall flat cloud /\ NoDup cloud /\ ~ on_one_line cloud /\
  ConvexHull zero_tolerances cloud false = Ok [5; 1; 6; 3]%nat /\ ConvexHull zero_tolerances cloud true = Ok [0; 5; 1; 6; 4; 3]%nat.
Proof.
  split; [done|]. split; [by repeat constructor|]. split.
  { apply NoDup_alt. intros i j x A B. unfold cloud in A, B.
    do 7 (destruct i as [|i]; [cbn in A; injection A as <-; do 7 (destruct j as [|j]; [try done; exfalso; cbn in B; vm_compute in B; congruence|]); done|]). done. }
  split.
  { intros H. pose proof (H (q2 2 0) (q2 4 4) (q2 2 1)) as Z.
    assert (orient (q2 2 0) (q2 4 4) (q2 2 1) <> 0) as N by (vm_compute; congruence).
    apply N, Z; unfold cloud; set_solver. }
  split; vm_compute; reflexivity.
Qed.
Example C72_line_nonvacuous : on_one_line [q2 0 0; q2 3 3; q2 1 1] /\ ConvexHull zero_tolerances [q2 0 0; q2 3 3; q2 1 1] false = Ok [1; 0]%nat /\
  ConvexHull zero_tolerances [q2 0 0; q2 3 3; q2 1 1] true = UB.
Proof.
  split; [|split; vm_compute; reflexivity]. intros a b c A B C.
  repeat match goal with H : _ ∈ _ :: _ |- _ => apply elem_of_cons in H; destruct H as [-> |H] | H : _ ∈ [] |- _ => by apply elem_of_nil in H end;
    apply Qc_is_canon; vm_compute; reflexivity.
Qed.

(** ** C71: the orientation of a convex polygon, through the convex hull of its vertices *)

Theorem C71_convex_counterclockwise g vs : exact g -> Forall flat vs -> (2 < length vs)%nat -> ordered vs ->
  exists ids, ConvexHull g vs false = Ok ids /\ PolygonOrientation (N.of_nat <$> ids) = Ok CounterClockwise.
Proof. exact (orientation_counterclockwise g vs). Qed.
Print Assumptions C71_convex_counterclockwise.
Theorem C71_convex_clockwise g vs : exact g -> Forall flat vs -> (2 < length vs)%nat -> ordered (reverse vs) ->
  exists ids, ConvexHull g vs false = Ok ids /\ PolygonOrientation (N.of_nat <$> ids) = Ok Clockwise.
Proof. exact (orientation_clockwise g vs). Qed.
Print Assumptions C71_convex_clockwise.
Definition kite : list vec3 := [q2 0 4; q2 0 0; q2 4 0; q2 5 5].
Example C71_hull_nonvacuous : Forall flat kite /\ ordered kite /\ ConvexHull zero_tolerances kite false = Ok [2; 3; 0; 1]%nat /\
  PolygonOrientation (N.of_nat <$> [2; 3; 0; 1]%nat) = Ok CounterClockwise.
Proof.
  split; [by repeat constructor|]. split; [|split; vm_compute; reflexivity].
  intros i j k a b c L A B C. pose proof (lookup_lt_Some _ _ _ C) as LC. cbn in LC.
  do 4 (destruct i as [|i]; [do 4 (destruct j as [|j]; [do 4 (destruct k as [|k]; [first [lia|
    cbn in A, B, C; injection A as <-; injection B as <-; injection C as <-; vm_compute; reflexivity]|]); lia|]); lia|]); lia.
Qed.
