(** Intersections of segments and planes: the theorems. *)
From Coq Require Import QArith Qcanon Sorted.
From Verif Require Import Base BaseProof QcTac FillModel GeoModel MapModel PointModel PointSpec PointProof IntersectModel IntersectSpec IntersectProof IntersectProof2 IntersectProof3 IntersectProof4 IntersectRoots.
Local Open Scope Qc_scope.

(** Two segments: the relation of the lines, the common points, their coordinates on both segments. *)
Theorem C78_segments : forall g o1 e1 o2 e2, exact g -> o1 <> e1 -> o2 <> e2 ->
  exists r, IntersectionSegmentSegment g o1 e1 o2 e2 = Ok r /\ segments_spec o1 e1 o2 e2 r.
Proof. exact segments_exact. Qed.
Print Assumptions C78_segments.

(** The comparisons of lengths in the model are those of the code, for all tolerances, where the lengths are rational. *)
Theorem C78_roots : forall g,
  (forall d a b tol, 0 <= d -> 0 <= a -> 0 <= b ->
     spheres_apart g (d * d) (a * a) (b * b) tol = IsValuePositive g (d - (a * Q2Qc (1 # 2) + b * Q2Qc (1 # 2))) tol) /\
  (forall x s tol, 0 <= x -> root_greater g (x * x) s tol = IsValueGreater g x s tol) /\
  (forall x tol, 0 <= x -> root_is_one g (x * x) tol = AreValuesEqual g x 1 tol) /\
  (forall d, - (1) <= d -> d <= 1 -> not_parallel g (d * d) =
     IsValuePositive g (qabs (qabs d - 1)) (Tolerance1DSquared g) &&
     IsValuePositive g ((1 - d) * (1 + d)) (Tolerance1DSquared g * Tolerance1DSquared g)).
Proof. intros g. exact (conj (spheres_code g) (conj (greater_code g) (conj (one_code g) (parallel_code g)))). Qed.
Print Assumptions C78_roots.

Definition p3 (x y z : Z) : vec3 := (Q2Qc (inject_Z x), Q2Qc (inject_Z y), Q2Qc (inject_Z z)).
Definition no_tolerance : geo_config := GeoConfig 0 0.
Definition hundredth : geo_config := GeoConfig (Q2Qc (1 # 1000)) (Q2Qc (1 # 100)).

(** Results with the numerators and denominators of their coordinates. *)
Definition shown_list (l : list (segment_position * Qc)) : list (segment_position * Q) := map (fun x => (x.1, this x.2)) l.
Definition shown (r : segments_result) :=
  (LinesType r, SegmentsType r, Relation r, shown_list (FirstIntersections r), shown_list (SecondIntersections r)).
Lemma this_inj (a b : Qc) : this a = this b -> a = b.
Proof. intros E. apply Qc_is_canon. rewrite E. reflexivity. Qed.
Lemma shown_list_inj l l' : shown_list l = shown_list l' -> l = l'.
Proof.
  revert l'. induction l as [|[p x] l IH]; intros [|[p' x'] l'] E; try done. cbn in E. injection E as -> E1 E2. f_equal; [|by apply IH].
  f_equal. apply this_inj. exact E1.
Qed.
Lemma shown_Ok (x : outcome segments_result) r : (match x with Ok a => shown a = shown r | _ => False end) -> x = Ok r.
Proof.
  destruct x as [a| | | |]; try done. destruct a as [a1 a2 a3 a4 a5], r as [b1 b2 b3 b4 b5]. unfold shown. cbn [LinesType SegmentsType Relation FirstIntersections SecondIntersections].
  intros [= -> -> -> E1 E2]. apply shown_list_inj in E1 as ->. apply shown_list_inj in E2 as ->. done.
Qed.

Example C78_nonvacuous : exact no_tolerance /\ p3 0 0 1 <> p3 4 2 1 /\ p3 2 0 1 <> p3 2 4 1 /\
  IntersectionSegmentSegment no_tolerance (p3 0 0 1) (p3 4 2 1) (p3 2 0 1) (p3 2 4 1) =
    Ok (SegmentsResult CoPlanarIntersecting SingleIntersection [0%nat] [(InsideSegment, Q2Qc (1 # 2))] [(InsideSegment, Q2Qc (1 # 4))]) /\
  IntersectionSegmentSegment no_tolerance (p3 0 0 0) (p3 4 0 4) (p3 6 0 6) (p3 2 0 2) =
    Ok (SegmentsResult CoPlanarParallel MultipleIntersections [1; 0]%nat [(InsideSegment, Q2Qc (1 # 2)); (OnSegmentEnd, 1)]
                       [(InsideSegment, Q2Qc (1 # 2)); (OnSegmentEnd, 1)]).
Proof. split; [done|]. split; [discriminate|]. split; [discriminate|]. split; apply shown_Ok; vm_compute; reflexivity. Qed.

(** Two segments on a line with one common point have many intersections according to the answer. *)
Theorem C78_touching_refuted : exists o1 e1 o2 e2 r, o1 <> e1 /\ o2 <> e2 /\
  IntersectionSegmentSegment no_tolerance o1 e1 o2 e2 = Ok r /\ SegmentsType r = MultipleIntersections /\
  forall p, of_segment o1 e1 p /\ of_segment o2 e2 p -> p = p3 1 0 0.
Proof.
  exists (p3 0 0 0), (p3 1 0 0), (p3 1 0 0), (p3 3 0 0). eexists. split; [discriminate|]. split; [discriminate|]. split; [vm_compute; reflexivity|].
  split; [reflexivity|]. intros p [(c & C0 & C1 & P) (d & D0 & D1 & Q)].
  change (p = (Q2Qc 0 + c * (Q2Qc 1 - Q2Qc 0), Q2Qc 0 + c * (Q2Qc 0 - Q2Qc 0), Q2Qc 0 + c * (Q2Qc 0 - Q2Qc 0))) in P.
  change (p = (Q2Qc 1 + d * (Q2Qc 3 - Q2Qc 1), Q2Qc 0 + d * (Q2Qc 0 - Q2Qc 0), Q2Qc 0 + d * (Q2Qc 0 - Q2Qc 0))) in Q.
  pose proof P as P'. rewrite P in Q. apply pair3 in Q as (E & _ & _). rewrite P'. change (p3 1 0 0) with (Q2Qc 1, Q2Qc 0, Q2Qc 0).
  assert (c = 1) as -> by qlra. apply pair3. split_and!; ring.
Qed.
Print Assumptions C78_touching_refuted.

(** Two disjoint segments on a line, with a gap below the tolerance: the whole first segment is reported as common part, and the
    end of the common part on the second segment is before its begin, and outside of the segment. *)
Definition tw (n : Z) : vec3 := (Q2Qc (n # 1000), 0, 0).
Theorem C78_gap_refuted : exists o1 e1 o2 e2 r q, o1 <> e1 /\ o2 <> e2 /\
  IntersectionSegmentSegment hundredth o1 e1 o2 e2 = Ok r /\ SegmentsType r = MultipleIntersections /\
  FirstIntersections r = [(OnSegmentOrigin, 0); (OnSegmentEnd, 1)] /\
  SecondIntersections r = [(OnSegmentOrigin, 0); (OnSegmentLineBeforeOrigin, q)] /\ q < 0 /\
  ~ exists p, of_segment o1 e1 p /\ of_segment o2 e2 p.
Proof.
  exists (tw 0), (tw 50), (tw 55), (tw 100). eexists. exists (Q2Qc (- 1 # 9)). split; [discriminate|]. split; [discriminate|].
  split; [vm_compute; reflexivity|]. split; [reflexivity|]. split; [apply shown_list_inj; vm_compute; reflexivity|].
  split; [apply shown_list_inj; vm_compute; reflexivity|]. split; [reflexivity|].
  intros (p & (c & C0 & C1 & P) & (d & D0 & D1 & Q)).
  change (p = (Q2Qc (0 # 1000) + c * (Q2Qc (50 # 1000) - Q2Qc (0 # 1000)), Q2Qc 0 + c * (Q2Qc 0 - Q2Qc 0), Q2Qc 0 + c * (Q2Qc 0 - Q2Qc 0))) in P.
  change (p = (Q2Qc (55 # 1000) + d * (Q2Qc (100 # 1000) - Q2Qc (55 # 1000)), Q2Qc 0 + d * (Q2Qc 0 - Q2Qc 0), Q2Qc 0 + d * (Q2Qc 0 - Q2Qc 0))) in Q.
  rewrite P in Q. apply pair3 in Q as (E & _ & _). qlra.
Qed.
Print Assumptions C78_gap_refuted.

(** Whether the two coordinates are matched in the right order depends on the place of the segments: far from the origin, a
    segment and the same segment reversed are matched as if they had the same direction. *)
Theorem C78_far_refuted :
  (exists r, IntersectionSegmentSegment hundredth (p3 1 0 0) (p3 2 0 0) (p3 2 0 0) (p3 1 0 0) = Ok r /\ Relation r = [1; 0]%nat) /\
  (exists r, IntersectionSegmentSegment hundredth (p3 101 0 0) (p3 102 0 0) (p3 102 0 0) (p3 101 0 0) = Ok r /\ Relation r = [0; 1]%nat /\
     FirstIntersections r = [(OnSegmentOrigin, 0); (OnSegmentEnd, 1)] /\ SecondIntersections r = [(OnSegmentOrigin, 0); (OnSegmentEnd, 1)]).
Proof. split; eexists; (split; [vm_compute; reflexivity|]); [reflexivity|]. split; [reflexivity|]. split; apply shown_list_inj; vm_compute; reflexivity. Qed.
Print Assumptions C78_far_refuted.

(** Many segments: on each segment the coordinates of its crossings with the others. *)
Theorem C79_crossings : forall g segs, exact g -> Forall described segs ->
  exists l, IntersectionsBetweenSegments g segs = Ok l /\ length l = length segs /\
            forall i xs, l !! i = Some xs -> crossings_spec segs i xs.
Proof. intros g segs X D. exact (crossings_exact g segs X D). Qed.
Print Assumptions C79_crossings.

Definition three_segments : list segment :=
  [Segment (p3 0 0 0) (p3 4 0 0) (p3 2 0 0) (Q2Qc 4); Segment (p3 1 (- 1) 0) (p3 1 3 0) (p3 1 1 0) (Q2Qc 4);
   Segment (p3 3 (- 3) 0) (p3 3 3 0) (p3 3 0 0) (Q2Qc 6)].
Lemma this_lists (l l' : list (list Qc)) : map (map this) l = map (map this) l' -> l = l'.
Proof.
  revert l'. induction l as [|x l IH]; intros [|x' l'] E; try done. cbn in E. injection E as E1 E2. f_equal; [|by apply IH].
  clear - E1. revert x' E1. induction x as [|a x IH]; intros [|b x'] E; try done. cbn in E. injection E as E1 E2. f_equal; [by apply this_inj|by apply IH].
Qed.
Lemma lists_Ok (x : outcome (list (list Qc))) l : (match x with Ok a => map (map this) a = map (map this) l | _ => False end) -> x = Ok l.
Proof. destruct x as [a| | | |]; try done. intros E. f_equal. by apply this_lists. Qed.
Example C79_nonvacuous : Forall described three_segments /\
  IntersectionsBetweenSegments no_tolerance three_segments = Ok [[Q2Qc (1 # 4); Q2Qc (3 # 4)]; [Q2Qc (1 # 4)]; [Q2Qc (1 # 2)]].
Proof.
  split; [|apply lists_Ok; vm_compute; reflexivity]. unfold three_segments.
  repeat (apply Forall_cons; split; [split; [discriminate|]; split; [vm_compute; reflexivity|]; split; [discriminate|]; vm_compute; discriminate|]). constructor.
Qed.

(** A segment and a plane. *)
Theorem C80_plane : forall g o e n po, exact g -> norm2 n = 1 -> o <> e ->
  exists r, IntersectionSegmentPlane g o e n po = Ok r /\ plane_spec o e n po r.
Proof. exact plane_exact. Qed.
Print Assumptions C80_plane.

Example C80_nonvacuous : norm2 (p3 0 0 1) = 1 /\
  IntersectionSegmentPlane no_tolerance (p3 0 0 0) (p3 2 2 4) (p3 0 0 1) (p3 7 5 1) = Ok (PlaneSingle InsideSegment (Q2Qc (1 # 4))) /\
  IntersectionSegmentPlane no_tolerance (p3 0 0 1) (p3 2 2 1) (p3 0 0 1) (p3 7 5 1) = Ok PlaneMultiple /\
  IntersectionSegmentPlane no_tolerance (p3 0 0 0) (p3 2 2 0) (p3 0 0 1) (p3 7 5 1) = Ok PlaneNone.
Proof.
  split; [apply this_inj; vm_compute; reflexivity|]. split; [|split; vm_compute; reflexivity].
  assert (H : forall x k c, (match x with Ok (PlaneSingle k' c') => k' = k /\ this c' = this c | _ => False end) -> x = Ok (PlaneSingle k c)).
  { intros [[| |k' c']| | | |] k c; try done. intros [-> E]. by rewrite (this_inj _ _ E). }
  apply H. vm_compute. split; reflexivity.
Qed.
