(** * Properties C73-C76: refinement of the polygons of a plane mesh. *)
From Coq Require Import QArith Qcanon.
From Verif Require Import Base BaseProof QcTac FillModel GeoModel MapModel PointModel PolyModel CsrModel MeshModel MeshSpec MeshHist
  UtilModel UtilSpec RefineModel RefineSpec RefineTop RefineArea RefineDir RefineFinal RefineWit.
Local Open Scope nat_scope.

(** ** C73: the mesh stays conforming *)

(** Whatever the geometric tests answer: a successful split followed by the update of the neighbours gives a conforming mesh in
    which the polygon is replaced by two; a split which does not take place leaves the mesh as it was. *)
Theorem C73_refine : forall A m c l is_triangle is_unaligned vs k directions dc extend m' r,
  reachable m -> (N.of_nat (num D2 m) + 6 <= UINT_MAX)%N -> conforming m -> request m c l vs k directions dc -> ~ shares_both m c k ->
  RefinePolygonCell_ByDirection A c is_triangle is_unaligned vs k dc extend m = Ok (m', r) ->
  match r with
  | Successfull _ _ updated f cells => exists m'' log a b, UpdateAll c updated directions m' = Ok (m'', log) /\
      reachable m'' /\ conforming m'' /\ cells = [a; b] /\ cut_in_two A m m'' c f a b
  | _ => reachable m' /\ conforming m' /\ as_before m m'
  end.
Proof. exact refine_conforming. Qed.
Print Assumptions C73_refine.

(** Why an edge would get a new vertex: for the polygon itself, or only for the one on the other side. *)
Definition for_itself (t : to_split) : Prop := t = BothQuality \/ t = OnlyLocalQuality \/ t = BothAligned \/ t = OnlyLocalAligned.
Definition for_the_other (t : to_split) : Prop := t = OnlyNeighQuality \/ t = OnlyNeighAligned.

(** When the split may be extended to the neighbours, it is put off, and the mesh left unchanged, if one edge would be split only
    for the neighbour and the other one not for the polygon itself. *)
Theorem C73_put_off : forall A m c is_triangle vs k dc,
  (for_the_other (cr_split_one k) /\ ~ for_itself (cr_split_two k)) \/ (for_the_other (cr_split_two k) /\ ~ for_itself (cr_split_one k)) ->
  RefinePolygonCell_ByDirection A c is_triangle false vs k dc true m = Ok (m, QualityCheckFailed).
Proof.
  intros A m c is_triangle vs k dc H. unfold RefinePolygonCell_ByDirection.
  assert (CheckIsNotToExtend (cr_split_one k) (cr_split_two k) = false) as ->; [|done].
  unfold for_itself, for_the_other in H. destruct (cr_split_one k), (cr_split_two k); try done; exfalso; destruct H as [[[?|?] N]|[[?|?] N]]; try done; apply N; tauto.
Qed.
Print Assumptions C73_put_off.

(** It is put off only if an edge would be split only for the neighbour and extensions are asked for. *)
Theorem C73_put_off_only : forall A m c is_triangle is_unaligned vs k dc extend m',
  RefinePolygonCell_ByDirection A c is_triangle is_unaligned vs k dc extend m = Ok (m', QualityCheckFailed) ->
  m' = m /\ extend = true /\ (for_the_other (cr_split_one k) \/ for_the_other (cr_split_two k)).
Proof.
  intros A m c is_triangle is_unaligned vs k dc extend m'. unfold RefinePolygonCell_ByDirection.
  assert (CheckIsNotToExtend (cr_split_one k) (cr_split_two k) = false -> for_the_other (cr_split_one k) \/ for_the_other (cr_split_two k)) as E1.
  { unfold for_the_other. destruct (cr_split_one k), (cr_split_two k); intros; try done; tauto. }
  assert (CheckIsToSplit_Relaxed (cr_split_one k) (cr_split_two k) = false -> for_the_other (cr_split_one k) \/ for_the_other (cr_split_two k)) as E2.
  { unfold for_the_other. destruct (cr_split_one k), (cr_split_two k); intros; try done; tauto. }
  destruct (extend && negb is_unaligned && negb (CheckIsNotToExtend (cr_split_one k) (cr_split_two k))) eqn:B.
  { intros [= <-]. rewrite !andb_true_iff, !negb_true_iff in B. destruct B as [[-> _] B]. split; [done|]. split; [done|]. by apply E1. }
  intros (st & _ & H)%bind_ok. destruct st as [[[] [from to]]|]; [..|done].
  - apply bind_ok in H as (a & _ & H). destruct a.
    + destruct (extend && negb (CheckIsToSplit_Relaxed (cr_split_one k) (cr_split_two k))) eqn:R; [|done]. injection H as <-.
      rewrite !andb_true_iff, !negb_true_iff in R. destruct R as [-> R]. split; [done|]. split; [done|]. by apply E2.
    + apply bind_ok in H as (r & _ & H). by destruct r.2.
  - destruct (bool_decide _); [done|]. destruct (ei_type _); try done. apply bind_ok in H as (a & _ & H). cbn zeta in H.
    apply bind_ok in H as (b & _ & H). destruct b; [done|]. apply bind_ok in H as (s & _ & H). apply bind_ok in H as (d & _ & H).
    apply bind_ok in H as (r & _ & H). destruct r.2; [|done]. by apply bind_ok in H as (? & _ & H).
  - destruct (bool_decide _); [done|]. destruct (ei_type _); try done. apply bind_ok in H as (a & _ & H). cbn zeta in H.
    apply bind_ok in H as (b & _ & H). destruct b; [done|]. apply bind_ok in H as (s & _ & H). apply bind_ok in H as (d & _ & H).
    apply bind_ok in H as (r & _ & H). destruct r.2; [|done]. by apply bind_ok in H as (? & _ & H).
  - destruct (ei_type _); try done. destruct (ei_type _); try done. do 4 (apply bind_ok in H as (? & _ & H)). apply bind_ok in H as (r & _ & H). destruct r.2; [|done].
    repeat (apply bind_ok in H as (? & _ & H)). done.
Qed.
Print Assumptions C73_put_off_only.

Example C73_nonvacuous : reachable squares /\ (N.of_nat (num D2 squares) + 6 <= UINT_MAX)%N /\ conforming squares /\
  request squares 0 [(0, 0); (1, 1); (2, 2); (3, 3)]%N square_points across squares_directions [true; true; true; true] /\
  ~ shares_both squares 0 across /\
  match RefinePolygonCell_ByDirection exact 0 false false square_points across [true; true; true; true] false squares with
  | Ok (_, Successfull _ _ _ _ cells) => cells = [2; 3]
  | _ => False
  end.
Proof.
  split_and!; [apply squares_reachable|vm_compute; discriminate|apply squares_conforming|apply squares_request|apply squares_shares|vm_compute; reflexivity].
Qed.

(** A polygon next to both split edges: its directions are looked up with the number of a polygon created in the meantime. *)
Theorem C73_two_edges_refuted : exists A m c l vs k directions dc m' type vertices updated f cells,
  reachable m /\ (N.of_nat (num D2 m) + 6 <= UINT_MAX)%N /\ conforming m /\ request m c l vs k directions dc /\
  RefinePolygonCell_ByDirection A c false false vs k dc false m = Ok (m', Successfull type vertices updated f cells) /\
  UpdateAll c updated directions m' = UB.
Proof. exact two_edges_refuted. Qed.
Print Assumptions C73_two_edges_refuted.

(** ** C74: the area *)

(** The area covered by the active polygons does not change when the coordinates are stored exactly. *)
Theorem C74_area : forall A m c l is_triangle is_unaligned vs k directions dc extend m' r,
  (forall x, value A (store A x) = x) ->
  reachable m -> (N.of_nat (num D2 m) + 6 <= UINT_MAX)%N -> conforming m -> request m c l vs k directions dc -> ~ shares_both m c k ->
  RefinePolygonCell_ByDirection A c is_triangle is_unaligned vs k dc extend m = Ok (m', r) ->
  match r with
  | Successfull _ _ updated _ _ => forall m'' log, UpdateAll c updated directions m' = Ok (m'', log) -> covered_area A m'' = covered_area A m
  | _ => covered_area A m' = covered_area A m
  end.
Proof. exact refine_area. Qed.
Print Assumptions C74_area.

Example C74_nonvacuous : (forall x, value exact (store exact x) = x) /\ covered_area exact squares = Q2Qc 2.
Proof. split; [apply exact_store|]. apply Qc_is_canon. vm_compute. reflexivity. Qed.

(** ** C75: the directions *)

(** The directions computed for a polygon tell which edges it passes from the origin to the end. *)
Theorem C75_directions : forall m c,
  reachable m -> conforming m -> active D2 m c = true ->
  exists ds, EdgesDirection c m = Ok ds /\ forall l, polygon m c l -> length ds = length l /\ directions_of m l ds.
Proof. exact edges_direction. Qed.
Print Assumptions C75_directions.

Example C75_nonvacuous : active D2 squares 1 = true /\ EdgesDirection 1 squares = Ok [true; true; true; false].
Proof. split; vm_compute; reflexivity. Qed.

(** ** C76: bisection of triangles *)

(** After the bisection of a triangle and of its neighbour the mesh is conforming and has the same area; a bisection which does not take
    place leaves the mesh as it was. *)
Theorem C76_bisection_partial : forall A m c l edge opposite e dc d area lengths m' r,
  reachable m -> (N.of_nat (num D2 m) + 6 <= UINT_MAX)%N -> conforming m -> bisection m c l edge e dc d ->
  RefineTriangleCell_ByEdge A c edge opposite dc area lengths m = Ok (m', r) ->
  match r with
  | Successfull _ _ updated f cells => exists q, updated = [q] /\ re_original q = e /\
      forall m'' log, RefineTriangleCell_UpdateNeighbours A c e (re_vertex q) (re_children q) d m' = Ok (m'', log) ->
        (forall y, neighbour m c e y -> exists z, (y, z) ∈ log) ->
        reachable m'' /\ conforming m'' /\ (exists a b, cells = [a; b] /\ cut_in_two A m m'' c f a b) /\
        (forall y z, (y, z) ∈ log -> neighbour m c e y /\ exists g a b, (z = a \/ z = b) /\ cut_in_two A m m'' y g a b) /\
        ((forall x, value A (store A x) = x) -> covered_area A m'' = covered_area A m)
  | _ => reachable m' /\ conforming m' /\ as_before m m'
  end.
Proof. exact bisect_conforming. Qed.
Print Assumptions C76_bisection_partial.

Example C76_nonvacuous : reachable triangles /\ (N.of_nat (num D2 triangles) + 6 <= UINT_MAX)%N /\ conforming triangles /\
  bisection triangles 0 [(0, 0); (1, 1); (2, 2)]%N 0 0 [true; true; true] true /\
  match RefineTriangleCell_ByEdge exact 0 0 2 [true; true; true] (Q2Qc (1 # 2)) [Q2Qc 1; Q2Qc 1; Q2Qc 1] triangles with
  | Ok (m', Successfull _ _ [q] _ cells) => cells = [2; 3] /\
      match RefineTriangleCell_UpdateNeighbours exact 0 0 (re_vertex q) (re_children q) true m' with Ok (_, log) => log = [(1, 4); (1, 5)] | _ => False end
  | _ => False
  end.
Proof.
  split_and!; [apply triangles_reachable|vm_compute; discriminate|apply triangles_conforming|apply two_bisection; [apply triangles_reachable|apply triangles_two]|].
  vm_compute. split; reflexivity.
Qed.

(** A neighbour whose split does not take place, here because its halves are too small, keeps the edge which has been split. *)
Theorem C76_neighbour_refuted : exists A m c l edge e dc d opposite area lengths m' vertices q f cells m'' log,
  reachable m /\ (N.of_nat (num D2 m) + 6 <= UINT_MAX)%N /\ conforming m /\ bisection m c l edge e dc d /\
  RefineTriangleCell_ByEdge A c edge opposite dc area lengths m = Ok (m', Successfull None vertices [q] f cells) /\
  RefineTriangleCell_UpdateNeighbours A c e (re_vertex q) (re_children q) d m' = Ok (m'', log) /\ ~ conforming m''.
Proof. exact bisect_refuted. Qed.
Print Assumptions C76_neighbour_refuted.
