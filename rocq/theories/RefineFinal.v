(** * The theorems about the refinement of polygons, in the words of the specification. *)
From Coq Require Import QArith Qcanon.
From Verif Require Import Base BaseProof QcTac FillModel GeoModel MapModel PointModel PolyModel CsrModel MeshModel MeshSpec MeshHist
  UtilModel UtilSpec RefineModel RefineSpec RefineMove RefineTop RefineArea RefineDir RefineTri RefineWit.
Local Open Scope nat_scope.

Section request.
Context (A : arith) (m : mesh) (c : nat) (l : list (N * N)) (is_triangle is_unaligned : bool) (vs : list vec3) (k : check_result)
  (directions : list (list bool)) (dc : list bool) (extend : bool) (m' : mesh) (r : refine_result).
Context (R : reachable m) (Hb : (N.of_nat (num D2 m) + 6 <= UINT_MAX)%N) (C : conforming m) (Q : request m c l vs k directions dc)
  (Sh : ~ shares_both m c k) (E : RefinePolygonCell_ByDirection A c is_triangle is_unaligned vs k dc extend m = Ok (m', r)).

Lemma refine_all : refined A c directions m m' r.
Proof.
  destruct Q as [Q1 Q2 Q3 Q4 Q5 Q6 Q7 Q8]. eapply refine_polygon; try done.
  intros y l' u w Hy Ay Hl M1 M2. apply Sh. by exists y, l', u, w.
Qed.

Lemma refine_conforming :
  match r with
  | Successfull _ _ updated f cells => exists m'' log a b, UpdateAll c updated directions m' = Ok (m'', log) /\
      reachable m'' /\ conforming m'' /\ cells = [a; b] /\ cut_in_two A m m'' c f a b
  | _ => reachable m' /\ conforming m' /\ as_before m m'
  end.
Proof.
  pose proof refine_all as H. destruct r as [| | | |type vertices updated f cells]; cbn in H; [naive_solver..|].
  destruct H as (m'' & log & H1 & H2 & H3 & (a & b & H4 & H5) & _). exists m'', log, a, b. done.
Qed.

Lemma refine_area_of : (forall x, value A (store A x) = x) ->
  match r with
  | Successfull _ _ updated _ _ => forall m'' log, UpdateAll c updated directions m' = Ok (m'', log) -> covered_area A m'' = covered_area A m
  | _ => covered_area A m' = covered_area A m
  end.
Proof.
  intros Ex. pose proof refine_all as H. destruct r as [| | | |type vertices updated f cells]; cbn in H;
    [by (destruct H as (_ & C' & _ & Mv); by apply moves_area)..|].
  destruct H as (m2 & log2 & H1 & _ & C' & _ & Mv). intros m'' log E'. rewrite H1 in E'. injection E' as <- <-. by apply moves_area.
Qed.
End request.

Lemma refine_area A m c l is_triangle is_unaligned vs k directions dc extend m' r :
  (forall x, value A (store A x) = x) ->
  reachable m -> (N.of_nat (num D2 m) + 6 <= UINT_MAX)%N -> conforming m -> request m c l vs k directions dc -> ~ shares_both m c k ->
  RefinePolygonCell_ByDirection A c is_triangle is_unaligned vs k dc extend m = Ok (m', r) ->
  match r with
  | Successfull _ _ updated _ _ => forall m'' log, UpdateAll c updated directions m' = Ok (m'', log) -> covered_area A m'' = covered_area A m
  | _ => covered_area A m' = covered_area A m
  end.
Proof. intros Ex R Hb C Q Sh E. by eapply refine_area_of. Qed.

Lemma two_edges_refuted : exists A m c l vs k directions dc m' type vertices updated f cells,
  reachable m /\ (N.of_nat (num D2 m) + 6 <= UINT_MAX)%N /\ conforming m /\ request m c l vs k directions dc /\
  RefinePolygonCell_ByDirection A c false false vs k dc false m = Ok (m', Successfull type vertices updated f cells) /\
  UpdateAll c updated directions m' = UB.
Proof.
  destruct corner_ub as (m' & type & vertices & updated & f & cells & E1 & E2).
  exists exact, corner, 0, [(0, 0); (1, 1); (2, 2); (3, 3)]%N, square_points, cut_corner, corner_directions, [true; true; true; true], m', type, vertices, updated, f, cells.
  split_and!; [apply corner_reachable|vm_compute; discriminate|apply corner_conforming|apply corner_request|exact E1|exact E2].
Qed.

Lemma bisect_conforming A m c l edge opposite e dc d area lengths m' r :
  reachable m -> (N.of_nat (num D2 m) + 6 <= UINT_MAX)%N -> conforming m -> bisection m c l edge e dc d ->
  RefineTriangleCell_ByEdge A c edge opposite dc area lengths m = Ok (m', r) ->
  match r with
  | Successfull _ _ updated f cells => exists q, updated = [q] /\ re_original q = e /\
      forall m'' log, RefineTriangleCell_UpdateNeighbours A c e (re_vertex q) (re_children q) d m' = Ok (m'', log) ->
        (forall y, neighbour m c e y -> exists z, (y, z) ∈ log) ->
        reachable m'' /\ conforming m'' /\ (exists a b, cells = [a; b] /\ cut_in_two A m m'' c f a b) /\
        (forall y z, (y, z) ∈ log -> neighbour m c e y /\ exists g a b, (z = a \/ z = b) /\ cut_in_two A m m'' y g a b) /\
        ((forall x, value A (store A x) = x) -> covered_area A m'' = covered_area A m)
  | _ => reachable m' /\ conforming m' /\ as_before m m'
  end.
Proof.
  intros R Hb C B E. pose proof (bisect A m c l edge opposite e dc d area lengths m' r R Hb C B E) as H.
  destruct r as [| | | |type vertices updated f cells]; cbn in H; [naive_solver..|].
  destruct H as (q & H1 & H2 & H). exists q. split; [done|]. split; [done|]. intros m'' log Eu Hl. destruct (H m'' log Eu Hl) as (K1 & K2 & K3 & K4 & K5).
  split_and!; try done. intros Ex. by apply moves_area.
Qed.

Lemma bisect_refuted : exists A m c l edge e dc d opposite area lengths m' vertices q f cells m'' log,
  reachable m /\ (N.of_nat (num D2 m) + 6 <= UINT_MAX)%N /\ conforming m /\ bisection m c l edge e dc d /\
  RefineTriangleCell_ByEdge A c edge opposite dc area lengths m = Ok (m', Successfull None vertices [q] f cells) /\
  RefineTriangleCell_UpdateNeighbours A c e (re_vertex q) (re_children q) d m' = Ok (m'', log) /\ ~ conforming m''.
Proof.
  destruct flat_ignored as (m' & vertices & q & f & cells & m'' & E1 & E2 & A2 & Re & A1).
  exists coarse, flat_triangles, 0, [(0, 0); (1, 1); (2, 2)]%N, 0, 0, [true; true; true], true, 2, (Q2Qc (1 # 2)), [Q2Qc 1; Q2Qc 1; Q2Qc 1], m', vertices, q, f, cells, m'', [].
  split_and!; [apply flat_reachable|vm_compute; discriminate|apply flat_conforming|apply two_bisection; [apply flat_reachable|apply flat_two]|exact E1|exact E2|].
  intros C. destruct (cf_polygons _ C 1 A2) as (_ & l & [_ Hl] & (_ & _ & _ & Act & _)). rewrite Re in Hl. injection Hl as Hl.
  assert (M : 0%N ∈ l.*2) by (rewrite <- Hl; do 2 apply elem_of_list_further; apply elem_of_list_here).
  apply elem_of_list_fmap in M as ([v g] & Eg & M). cbn in Eg. subst g. apply Act in M as [_ M]. cbn in M. congruence.
Qed.
