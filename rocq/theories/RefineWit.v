(** * A check of conformity for concrete meshes, and meshes used by the examples about refinement. *)
From Coq Require Import QArith Qcanon.
From Verif Require Import Base BaseProof QcTac FillModel GeoModel MapModel PointModel PolyModel CsrModel MeshModel MeshSpec MeshHist MeshWit
  UtilModel UtilSpec RefineModel RefineSpec RefineView RefineSplit RefineStep RefineConf.
From stdpp Require Import countable.
From Coq Require Import ZifyBool ZifyNat ZifyN.
Local Open Scope nat_scope.

Definition joins_check (m : mesh) (e v w : N) : bool :=
  match Cell1DOrigin (N.to_nat e) m, Cell1DEnd (N.to_nat e) m with
  | Ok a, Ok b => ((a =? v)%N && (b =? w)%N) || ((a =? w)%N && (b =? v)%N)
  | _, _ => false
  end.
Definition chain_check (m : mesh) (l : list (N * N)) : bool :=
  (3 <=? length l) && bool_decide (NoDup (l.*1)) && bool_decide (NoDup (l.*2)) &&
  forallb (fun p => active D0 m (N.to_nat p.1) && active D1 m (N.to_nat p.2)) l &&
  forallb (fun i => match l !! i, l !! ((i + 1) mod length l) with Some (v, e), Some (w, _) => joins_check m e v w | _, _ => false end) (seq 0 (length l)).
Definition on_boundary (m : mesh) (v : N) (e : nat) (c : nat) : bool :=
  match vp (view_of m) (N.of_nat c) with Some l => bool_decide ((v, N.of_nat e) ∈ l) | None => false end.
Definition only_check (m : mesh) (q : nat -> bool) (x : N) : bool :=
  forallb (fun c => negb (active D2 m c && q c) || (x =? N.of_nat c)%N) (seq 0 (num D2 m)) &&
  ((x =? UINT_MAX)%N || existsb (fun c => (x =? N.of_nat c)%N && active D2 m c && q c) (seq 0 (num D2 m))).
Definition polygon_check (m : mesh) (c : nat) : bool :=
  negb (active D2 m c) || match HasUpdateds D2 c m, vp (view_of m) (N.of_nat c) with Ok false, Some l => chain_check m l | _, _ => false end.
Definition edge_check (m : mesh) (e : nat) : bool :=
  negb (active D1 m e) ||
  match Cell1DOrigin e m, Cell1DEnd e m, RelRow R12 e m with
  | Ok o, Ok t, Ok [rt; lf] => active D0 m (N.to_nat o) && active D0 m (N.to_nat t) &&
      only_check m (on_boundary m t e) rt && only_check m (on_boundary m o e) lf
  | _, _, _ => false
  end.
Definition conforming_check (m : mesh) : bool := forallb (polygon_check m) (seq 0 (num D2 m)) && forallb (edge_check m) (seq 0 (num D1 m)).

Lemma joins_check_ok m e v w : joins_check m e v w = true -> joins m e v w.
Proof.
  unfold joins_check, joins. destruct (Cell1DOrigin _ m) as [a| | | |], (Cell1DEnd _ m) as [b| | | |]; try done.
  intros [[->%N.eqb_eq ->%N.eqb_eq]%andb_true_iff|[->%N.eqb_eq ->%N.eqb_eq]%andb_true_iff]%orb_true_iff; [by left|by right].
Qed.

Lemma chain_check_ok m l : chain_check m l = true -> closed_chain m l.
Proof.
  unfold chain_check. intros [[[[H1%Nat.leb_le H2%bool_decide_eq_true]%andb_true_iff H3%bool_decide_eq_true]%andb_true_iff H4]%andb_true_iff H5]%andb_true_iff.
  rewrite forallb_forall in H4, H5. split_and!; [done..| |].
  - intros v e M. specialize (H4 (v, e)). rewrite <- elem_of_list_In in H4. specialize (H4 M). cbn in H4. by apply andb_true_iff in H4.
  - intros p v e w e' Hp Hw. specialize (H5 p). rewrite <- elem_of_list_In, elem_of_seq in H5. pose proof (lookup_lt_Some _ _ _ Hp).
    specialize (H5 ltac:(lia)). rewrite Hp, Hw in H5. by apply joins_check_ok.
Qed.

Lemma on_boundary_iff m v e c : on_boundary m v e c = true <-> exists l, polygon m c l /\ (v, N.of_nat e) ∈ l.
Proof.
  unfold on_boundary. split.
  - destruct (vp _ _) as [l|] eqn:E; [|done]. intros M%bool_decide_eq_true. exists l. apply vp_polygon in E. by rewrite Nat2N.id in E.
  - intros (l & Hl & M). rewrite <- (Nat2N.id c) in Hl. apply vp_polygon in Hl. rewrite Hl. by apply bool_decide_eq_true.
Qed.

Lemma only_check_ok m q Q x : reachable m -> (forall c, q c = true <-> Q c) -> only_check m q x = true -> the_only m Q x.
Proof.
  intros R Hq [H1 H2]%andb_true_iff. rewrite forallb_forall in H1. split.
  - intros c Ac Qc. specialize (H1 c). rewrite <- elem_of_list_In, elem_of_seq in H1. pose proof (active_num _ _ _ R Ac). specialize (H1 ltac:(lia)).
    apply Hq in Qc. rewrite Ac, Qc in H1. by apply N.eqb_eq in H1.
  - apply orb_true_iff in H2 as [H2%N.eqb_eq|H2]; [by left|right]. apply existsb_exists in H2 as (c & _ & [[H2%N.eqb_eq H3]%andb_true_iff H4]%andb_true_iff).
    exists c. split_and!; [done..|]. by apply Hq.
Qed.

Lemma conforming_check_ok m : reachable m -> conforming_check m = true -> conforming m.
Proof.
  intros R [H1 H2]%andb_true_iff. rewrite forallb_forall in H1, H2. split.
  - intros c Ac. specialize (H1 c). rewrite <- elem_of_list_In, elem_of_seq in H1. pose proof (active_num _ _ _ R Ac). specialize (H1 ltac:(lia)).
    unfold polygon_check in H1. rewrite Ac in H1. cbn [negb orb] in H1. destruct (HasUpdateds D2 c m) as [[]| | | |]; try done. split; [done|].
    destruct (vp _ _) as [l|] eqn:E; [|done]. exists l. apply vp_polygon in E. rewrite Nat2N.id in E. split; [done|by apply chain_check_ok].
  - intros e Ae. specialize (H2 e). rewrite <- elem_of_list_In, elem_of_seq in H2. pose proof (active_num _ _ _ R Ae). specialize (H2 ltac:(lia)).
    unfold edge_check in H2. rewrite Ae in H2. cbn [negb orb] in H2.
    destruct (Cell1DOrigin e m) as [o| | | |] eqn:Eo; try done. destruct (Cell1DEnd e m) as [t| | | |] eqn:Et; try done.
    destruct (RelRow R12 e m) as [[|rt [|lf []]]| | | |] eqn:Er; try done.
    apply andb_true_iff in H2 as [[[A1 A2]%andb_true_iff A3]%andb_true_iff A4]. exists o, t, rt, lf. split_and!; try done.
    + eapply only_check_ok; [done| |exact A3]. intros c. rewrite on_boundary_iff. unfold passes_against. rewrite Et. naive_solver.
    + eapply only_check_ok; [done| |exact A4]. intros c. rewrite on_boundary_iff. unfold passes_along. rewrite Eo. naive_solver.
Qed.

(** ** Exact arithmetic *)
Definition exact : arith :=
  Arith (fun n => match n with N0 => 0%Qc | Npos p => default 0%Qc (decode p) end) (fun q => Npos (encode q)) (GeoConfig 0 0) 0.
Lemma exact_store x : value exact (store exact x) = x.
Proof. cbn [value store exact]. by rewrite decode_encode. Qed.
Notation at_point v x y := (OCoordinates v (store exact (Q2Qc x)) (store exact (Q2Qc y)) (store exact (Q2Qc 0))).

(** Two squares side by side. *)
Definition w_squares : list op :=
  [OAppend D0 6; at_point 0 0 0; at_point 1 1 0; at_point 2 1 1; at_point 3 0 1; at_point 4 2 0; at_point 5 2 1] ++
  ((fun v => OState D0 v true) <$> seq 0 6) ++
  [OAppend D1 7; OExtremes 0 0 1; OExtremes 1 1 2; OExtremes 2 2 3; OExtremes 3 3 0; OExtremes 4 1 4; OExtremes 5 4 5; OExtremes 6 5 2] ++
  ((fun e => OState D1 e true) <$> seq 0 7) ++ ((fun e => OInitOne R12 e 2) <$> seq 0 7) ++
  [OAppend D2 2; OInsert R12 0 1 0; OInsert R12 1 1 0; OInsert R12 2 1 0; OInsert R12 3 1 0;
   OInsert R12 1 0 1; OInsert R12 4 1 1; OInsert R12 5 1 1; OInsert R12 6 1 1;
   OAdd V2 0 [0; 1; 2; 3]%N; OAdd E2 0 [0; 1; 2; 3]%N; OAdd V2 1 [1; 4; 5; 2]%N; OAdd E2 1 [4; 5; 6; 1]%N;
   OState D2 0 true; OState D2 1 true].
Definition squares : mesh := after w_squares.
Lemma squares_reachable : reachable squares.
Proof. apply after_reachable, plain_allowed. done. Qed.
Lemma squares_conforming : conforming squares.
Proof. apply conforming_check_ok; [apply squares_reachable|]. vm_compute. reflexivity. Qed.

Definition plane_point (x y : Q) : vec3 := (Q2Qc x, Q2Qc y, Q2Qc 0).
Definition inside (i : nat) : edge_intersection := EdgeIntersection InsideEdge i (Q2Qc (1 # 2)).
Definition square_points : list vec3 := [plane_point 0 0; plane_point 1 0; plane_point 1 1; plane_point 0 1].
(** The first square is split between the edges 1 and 3. *)
Definition across : check_result := CheckResult 1 3 (inside 1) (inside 3) ToSplit ToSplit.
Definition squares_directions : list (list bool) := [[true; true; true; true]; [true; true; true; false]].

Lemma decide_directions m (ds : list (list bool)) : reachable m ->
  forallb (fun c => negb (active D2 m c) || match vp (view_of m) (N.of_nat c), ds !! c with
     | Some l, Some d => (length l =? length d) && forallb (fun i => match l !! i, d !! i with
          | Some (v, e), Some b => match Cell1DOrigin (N.to_nat e) m with Ok o => Bool.eqb b (o =? v)%N | _ => false end | _, _ => false end) (seq 0 (length l))
     | _, _ => false end) (seq 0 (num D2 m)) = true ->
  forall y l, active D2 m y = true -> polygon m y l -> exists d, ds !! y = Some d /\ directions_of m l d.
Proof.
  intros R H y l Ay Hl. rewrite forallb_forall in H. specialize (H y). rewrite <- elem_of_list_In, elem_of_seq in H. pose proof (active_num _ _ _ R Ay). specialize (H ltac:(lia)).
  rewrite Ay in H. cbn [negb orb] in H. rewrite <- (Nat2N.id y) in Hl. apply vp_polygon in Hl. rewrite Hl in H. destruct (ds !! y) as [d|]; [|done].
  exists d. split; [done|]. apply andb_true_iff in H as [_ H]. rewrite forallb_forall in H. intros p v e Hp. specialize (H p). rewrite <- elem_of_list_In, elem_of_seq in H.
  apply lookup_lt_Some in Hp as Lp. specialize (H ltac:(lia)). rewrite Hp in H. destruct (d !! p) as [b|]; [|done]. exists b. split; [done|].
  destruct (Cell1DOrigin (N.to_nat e) m) as [o| | | |]; try done. apply Bool.eqb_prop in H as ->. rewrite N.eqb_eq. split; [by intros ->|by intros [= ->]].
Qed.

Lemma squares_request : request squares 0 [(0, 0); (1, 1); (2, 2); (3, 3)]%N square_points across squares_directions [true; true; true; true].
Proof.
  split; try (vm_compute; done).
  - by exists 1%N.
  - by exists 3%N.
  - apply decide_directions; [apply squares_reachable|]. vm_compute. reflexivity.
Qed.

Lemma squares_shares : ~ shares_both squares 0 across.
Proof.
  intros (y & l & u & w & Hy & Ay & Hl & M1 & M2). pose proof (active_num _ _ _ squares_reachable Ay) as L.
  assert (N2 : num D2 squares = 2) by (vm_compute; reflexivity). rewrite N2 in L. assert (y = 1) as -> by (clear - L Hy; lia). destruct Hl as [_ Hl].
  assert (E : RelRow E2 1 squares = Ok [4; 5; 6; 1]%N) by (vm_compute; reflexivity). rewrite E in Hl. injection Hl as Hl.
  clear - Hl M2. change (N.of_nat (cr_two across)) with 3%N in M2.
  assert (X : 3%N ∈ l.*2) by (apply elem_of_list_fmap; by exists (w, 3%N)). rewrite <- Hl in X. clear - X.
  repeat (apply elem_of_cons in X as [X|X]; [discriminate|]). by apply elem_of_nil in X.
Qed.

(** A square and a polygon around its corner. *)
Definition w_corner : list op :=
  [OAppend D0 5; at_point 0 0 0; at_point 1 1 0; at_point 2 1 1; at_point 3 0 1; at_point 4 2 2] ++
  ((fun v => OState D0 v true) <$> seq 0 5) ++
  [OAppend D1 6; OExtremes 0 0 1; OExtremes 1 1 2; OExtremes 2 2 3; OExtremes 3 3 0; OExtremes 4 1 4; OExtremes 5 4 3] ++
  ((fun e => OState D1 e true) <$> seq 0 6) ++ ((fun e => OInitOne R12 e 2) <$> seq 0 6) ++
  [OAppend D2 2; OInsert R12 0 1 0; OInsert R12 1 1 0; OInsert R12 2 1 0; OInsert R12 3 1 0;
   OInsert R12 1 0 1; OInsert R12 2 0 1; OInsert R12 4 1 1; OInsert R12 5 1 1;
   OAdd V2 0 [0; 1; 2; 3]%N; OAdd E2 0 [0; 1; 2; 3]%N; OAdd V2 1 [1; 4; 3; 2]%N; OAdd E2 1 [4; 5; 2; 1]%N;
   OState D2 0 true; OState D2 1 true].
Definition corner : mesh := after w_corner.
Lemma corner_reachable : reachable corner.
Proof. apply after_reachable, plain_allowed. done. Qed.
Lemma corner_conforming : conforming corner.
Proof. apply conforming_check_ok; [apply corner_reachable|]. vm_compute. reflexivity. Qed.
Definition cut_corner : check_result := CheckResult 1 2 (inside 1) (inside 2) ToSplit ToSplit.
Definition corner_directions : list (list bool) := [[true; true; true; true]; [true; true; false; false]].
Lemma corner_request : request corner 0 [(0, 0); (1, 1); (2, 2); (3, 3)]%N square_points cut_corner corner_directions [true; true; true; true].
Proof.
  split; try (vm_compute; done).
  - by exists 1%N.
  - by exists 2%N.
  - apply decide_directions; [apply corner_reachable|]. vm_compute. reflexivity.
Qed.
Lemma corner_ub : exists m' type vertices updated f cells,
  RefinePolygonCell_ByDirection exact 0 false false square_points cut_corner [true; true; true; true] false corner = Ok (m', Successfull type vertices updated f cells) /\
  UpdateAll 0 updated corner_directions m' = UB.
Proof.
  assert (E : match RefinePolygonCell_ByDirection exact 0 false false square_points cut_corner [true; true; true; true] false corner with
              | Ok (m', Successfull _ _ updated _ _) => match UpdateAll 0 updated corner_directions m' with UB => true | _ => false end
              | _ => false
              end = true) by (vm_compute; reflexivity).
  destruct (RefinePolygonCell_ByDirection _ _ _ _ _ _ _ _ _) as [[m' [| | | |type vertices updated f cells]]| | | |]; try done.
  exists m', type, vertices, updated, f, cells. split; [done|]. by destruct (UpdateAll _ _ _ _).
Qed.

(** Two triangles on both sides of an edge; the point of the second one is [y] below. *)
Definition w_triangles (y : Q) : list op :=
  [OAppend D0 4; at_point 0 0 0; at_point 1 1 0; at_point 2 0 1; OCoordinates 3 (store exact (Q2Qc (1 # 2))) (store exact (- Q2Qc y)%Qc) (store exact (Q2Qc 0))] ++
  ((fun v => OState D0 v true) <$> seq 0 4) ++
  [OAppend D1 5; OExtremes 0 0 1; OExtremes 1 1 2; OExtremes 2 2 0; OExtremes 3 0 3; OExtremes 4 3 1] ++
  ((fun e => OState D1 e true) <$> seq 0 5) ++ ((fun e => OInitOne R12 e 2) <$> seq 0 5) ++
  [OAppend D2 2; OInsert R12 0 1 0; OInsert R12 1 1 0; OInsert R12 2 1 0; OInsert R12 0 0 1; OInsert R12 3 1 1; OInsert R12 4 1 1;
   OAdd V2 0 [0; 1; 2]%N; OAdd E2 0 [0; 1; 2]%N; OAdd V2 1 [0; 3; 1]%N; OAdd E2 1 [3; 4; 0]%N;
   OState D2 0 true; OState D2 1 true].
Definition triangles : mesh := after (w_triangles 1).
Definition flat_triangles : mesh := after (w_triangles (1 # 100)).
Lemma triangles_reachable : reachable triangles.
Proof. apply after_reachable, plain_allowed. done. Qed.
Lemma triangles_conforming : conforming triangles.
Proof. apply conforming_check_ok; [apply triangles_reachable|]. vm_compute. reflexivity. Qed.
Lemma flat_reachable : reachable flat_triangles.
Proof. apply after_reachable, plain_allowed. done. Qed.
Lemma flat_conforming : conforming flat_triangles.
Proof. apply conforming_check_ok; [apply flat_reachable|]. vm_compute. reflexivity. Qed.

Definition two_triangles (m : mesh) : Prop :=
  num D2 m = 2 /\ polygon m 0 [(0, 0); (1, 1); (2, 2)]%N /\ polygon m 1 [(0, 3); (3, 4); (1, 0)]%N /\ active D2 m 0 = true /\
  Cell1DOrigin 0 m = Ok 0%N /\ Cell1DOrigin 1 m = Ok 1%N /\ Cell1DOrigin 2 m = Ok 2%N.
Lemma polygon_once m y k l : polygon m y k -> polygon m y l -> k = l.
Proof.
  intros Hk Hl. rewrite <- (Nat2N.id y) in Hk, Hl. apply vp_polygon in Hk. apply vp_polygon in Hl. congruence.
Qed.
Lemma two_bisection m : reachable m -> two_triangles m -> bisection m 0 [(0, 0); (1, 1); (2, 2)]%N 0 0 [true; true; true] true.
Proof.
  intros R (N2 & P0 & P1 & A0 & O0 & O1 & O2). split; try done.
  - by exists 0%N.
  - intros p v e Hp. exists true. destruct p as [|[|[|p]]]; cbn in Hp; try done; injection Hp as <- <-; (split; [done|]); cbn; by rewrite ?O0, ?O1, ?O2.
  - intros y k w Ay Hk _. pose proof (active_num _ _ _ R Ay) as L. rewrite N2 in L.
    destruct y as [|[|y]]; [by rewrite (polygon_once m 0 _ _ Hk P0)|by rewrite (polygon_once m 1 _ _ Hk P1)|lia].
Qed.
Lemma triangles_two : two_triangles triangles.
Proof. split_and!; vm_compute; split_and?; reflexivity. Qed.
Lemma flat_two : two_triangles flat_triangles.
Proof. split_and!; vm_compute; split_and?; reflexivity. Qed.

(** Areas below one hundredth count as zero. *)
Definition coarse : arith := Arith (value exact) (store exact) (GeoConfig 0 0) (Q2Qc (1 # 100)).
Definition bisect_flat : outcome (mesh * refine_result) :=
  RefineTriangleCell_ByEdge coarse 0 0 2 [true; true; true] (Q2Qc (1 # 2)) [Q2Qc 1; Q2Qc 1; Q2Qc 1] flat_triangles.
Lemma flat_ignored : exists m' vertices q f cells m'', bisect_flat = Ok (m', Successfull None vertices [q] f cells) /\
  RefineTriangleCell_UpdateNeighbours coarse 0 0 (re_vertex q) (re_children q) true m' = Ok (m'', []) /\
  active D2 m'' 1 = true /\ RelRow E2 1 m'' = Ok [3; 4; 0]%N /\ active D1 m'' 0 = false.
Proof.
  assert (E : match bisect_flat with
              | Ok (m', Successfull None _ [q] _ _) => match RefineTriangleCell_UpdateNeighbours coarse 0 0 (re_vertex q) (re_children q) true m' with
                 | Ok (m'', []) => active D2 m'' 1 && match RelRow E2 1 m'' with Ok l => bool_decide (l = [3; 4; 0]%N) | _ => false end && negb (active D1 m'' 0) | _ => false end
              | _ => false
              end = true) by (vm_compute; reflexivity).
  destruct bisect_flat as [[m' [| | | |[] vertices [|q []] f cells]]| | | |]; try done.
  destruct (RefineTriangleCell_UpdateNeighbours _ _ _ _ _ _ _) as [[m'' []]| | | |] eqn:F; try done.
  apply andb_true_iff in E as [[E1 Ee]%andb_true_iff E3%negb_true_iff].
  destruct (RelRow E2 1 m'') as [l| | | |] eqn:Er; try done. apply bool_decide_eq_true in Ee as ->. by exists m', vertices, q, f, cells, m''.
Qed.
