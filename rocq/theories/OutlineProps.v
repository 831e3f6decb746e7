(** * Property C98: the outline of a group of polygons. *)
From Coq Require Import ZArith ZifyBool ZifyNat ZifyN.
From Verif Require Import Base BaseProof ConcatModel CsrModel MeshModel MeshSpec MeshHist MeshWit JoinModel JoinSpec WeldModel WeldSpec WeldProps
  OutlineModel OutlineSpec OutlineProof OutlineEnd OutlineJoin.
Local Open Scope nat_scope.

(** Whenever an outline is found, the edges and vertices said to be given up are exactly those inside the group. *)
Theorem C98_inside : forall fuel order order2 fs m o, reachable m -> polygons_exist fs m -> 2 <= length fs -> (forall l, order l ≡ₚ l) ->
  PolygonsOutline fuel order order2 fs m = Ok o ->
  NoDup (ou_gone0 o) /\ NoDup (ou_gone1 o) /\ (forall e, e ∈ ou_gone1 o <-> inner_edge fs m e) /\ (forall v, v ∈ ou_gone0 o <-> inner_corner fs m v).
Proof. exact outline_inside. Qed.
Print Assumptions C98_inside.

(** If the outer edges and vertices of the group are those of one closed line, the vertices and edges found are that line, from
    some vertex on, in the direction in which the polygons have its edges. *)
Theorem C98_outline : forall fuel order order2 fs m ws bs, reachable m -> polygons_exist fs m -> 2 <= length fs -> has_outline fs m ws bs ->
  (N.of_nat (num D0 m) <= 2147483648)%N -> (forall l, order l ≡ₚ l) -> (forall l, order2 l ≡ₚ l) -> S (length ws) * S (length ws) <= fuel ->
  exists vs es gone0 gone1, PolygonsOutline fuel order order2 fs m = Ok (Outline vs es gone0 gone1) /\ has_outline fs m vs es.
Proof. exact outline_ok. Qed.
Print Assumptions C98_outline.

(** What is found can be handed on to the joining of the polygons. *)
Theorem C98_joined : forall fuel order order2 fs m ws bs original, reachable m -> polygons_exist fs m -> 2 <= length fs -> NoDup fs -> has_outline fs m ws bs ->
  (N.of_nat (num D0 m) <= 2147483648)%N -> (forall l, order l ≡ₚ l) -> (forall l, order2 l ≡ₚ l) -> S (length ws) * S (length ws) <= fuel ->
  length original = num D2 m -> (forall v row, v ∈ ws -> RelRow R02 (N.to_nat v) m = Ok row -> N.of_nat (num D2 m) ∉ row) ->
  exists o m' l, PolygonsOutline fuel order order2 fs m = Ok o /\
    WeldPolygons order fs (ou_vertices o) (ou_edges o) (ou_gone0 o) (ou_gone1 o) original m = Ok (m', num D2 m, original ++ [l]) /\
    originals_of original fs l /\ reachable m' /\ polygons_joined fs (ou_vertices o) (ou_edges o) (ou_gone0 o) (ou_gone1 o) m m'.
Proof. exact outline_joined. Qed.
Print Assumptions C98_joined.

(** Fewer than two polygons: nothing is found. *)
Theorem C98_few : forall fuel order order2 fs m, length fs < 2 -> PolygonsOutline fuel order order2 fs m = Ok (Outline [] [] [] []).
Proof. exact outline_few. Qed.
Print Assumptions C98_few.

(** Three triangles around the vertex 3. *)
Definition f_fan : list op :=
  [OInitDimension 2; OAppend D0 4; OAppend D1 6; OExtremes 0 0 1; OExtremes 1 2 1; OExtremes 2 2 0; OExtremes 3 0 3; OExtremes 4 1 3; OExtremes 5 2 3] ++
  [OAdd R01 0 [0; 2; 3]; OAdd R01 1 [0; 1; 4]; OAdd R01 2 [1; 2; 5]; OAdd R01 3 [3; 4; 5]]%N ++
  [OAppend D2 3; OAdd V2 0 [0; 1; 3]; OAdd E2 0 [0; 4; 3]; OAdd V2 1 [1; 2; 3]; OAdd E2 1 [1; 5; 4]; OAdd V2 2 [2; 0; 3]; OAdd E2 2 [2; 3; 5]]%N ++
  ((fun e => OInitOne R12 e 2) <$> seq 0 6) ++
  [OInsert R12 0 1 0; OInsert R12 1 1 1; OInsert R12 2 1 2; OInsert R12 3 0 0; OInsert R12 3 1 2; OInsert R12 4 0 0; OInsert R12 4 1 1; OInsert R12 5 0 1; OInsert R12 5 1 2]%N.
Definition tri_fan : mesh := after f_fan.
Lemma tri_fan_reachable : reachable tri_fan.
Proof. apply after_reachable, plain_allowed. vm_compute. reflexivity. Qed.
Definition fan : list N := [2; 0; 1]%N.

Lemma fan_rows : RelRow V2 0 tri_fan = Ok [0; 1; 3]%N /\ RelRow V2 1 tri_fan = Ok [1; 2; 3]%N /\ RelRow V2 2 tri_fan = Ok [2; 0; 3]%N /\
  RelRow MeshModel.E2 0 tri_fan = Ok [0; 4; 3]%N /\ RelRow MeshModel.E2 1 tri_fan = Ok [1; 5; 4]%N /\ RelRow MeshModel.E2 2 tri_fan = Ok [2; 3; 5]%N.
Proof. vm_compute. repeat split. Qed.
Lemma fan_cases (f : N) (P : Prop) : f ∈ fan -> (f = 0%N -> P) -> (f = 1%N -> P) -> (f = 2%N -> P) -> P.
Proof.
  intros F A B C. unfold fan in F. apply elem_of_cons in F as [F|F]; [by apply C|]. apply elem_of_cons in F as [F|F]; [by apply A|].
  apply elem_of_list_singleton in F. by apply B.
Qed.
Lemma fan_edge e : edge_of fan tri_fan e <-> e ∈ [0; 4; 3; 1; 5; 4; 2; 3; 5]%N.
Proof.
  destruct fan_rows as (_ & _ & _ & W0 & W1 & W2). split.
  - intros (f & row & F & H & I). apply (fan_cases f); [exact F|intros ->..].
    + change (N.to_nat 0) with 0 in H. rewrite W0 in H. injection H as <-. change (e ∈ [0; 4; 3]%N ++ [1; 5; 4; 2; 3; 5]%N). apply elem_of_app. by left.
    + change (N.to_nat 1) with 1 in H. rewrite W1 in H. injection H as <-. change (e ∈ [0; 4; 3]%N ++ [1; 5; 4]%N ++ [2; 3; 5]%N). apply elem_of_app. right. apply elem_of_app. by left.
    + change (N.to_nat 2) with 2 in H. rewrite W2 in H. injection H as <-. change (e ∈ [0; 4; 3]%N ++ [1; 5; 4]%N ++ [2; 3; 5]%N). apply elem_of_app. right. apply elem_of_app. by right.
  - change (e ∈ [0; 4; 3]%N ++ [1; 5; 4]%N ++ [2; 3; 5]%N -> edge_of fan tri_fan e). rewrite !elem_of_app. intros [I|[I|I]].
    + exists 0%N, [0; 4; 3]%N. split; [right; left|]. split; [exact W0|exact I].
    + exists 1%N, [1; 5; 4]%N. split; [right; right; left|]. split; [exact W1|exact I].
    + exists 2%N, [2; 3; 5]%N. split; [left|]. split; [exact W2|exact I].
Qed.
Lemma fan_corner v : corner_of fan tri_fan v <-> v ∈ [0; 1; 3; 1; 2; 3; 2; 0; 3]%N.
Proof.
  destruct fan_rows as (W0 & W1 & W2 & _ & _ & _). split.
  - intros (f & row & F & H & I). apply (fan_cases f); [exact F|intros ->..].
    + change (N.to_nat 0) with 0 in H. rewrite W0 in H. injection H as <-. change (v ∈ [0; 1; 3]%N ++ [1; 2; 3; 2; 0; 3]%N). apply elem_of_app. by left.
    + change (N.to_nat 1) with 1 in H. rewrite W1 in H. injection H as <-. change (v ∈ [0; 1; 3]%N ++ [1; 2; 3]%N ++ [2; 0; 3]%N). apply elem_of_app. right. apply elem_of_app. by left.
    + change (N.to_nat 2) with 2 in H. rewrite W2 in H. injection H as <-. change (v ∈ [0; 1; 3]%N ++ [1; 2; 3]%N ++ [2; 0; 3]%N). apply elem_of_app. right. apply elem_of_app. by right.
  - change (v ∈ [0; 1; 3]%N ++ [1; 2; 3]%N ++ [2; 0; 3]%N -> corner_of fan tri_fan v). rewrite !elem_of_app. intros [I|[I|I]].
    + exists 0%N, [0; 1; 3]%N. split; [right; left|]. split; [exact W0|exact I].
    + exists 1%N, [1; 2; 3]%N. split; [right; right; left|]. split; [exact W1|exact I].
    + exists 2%N, [2; 0; 3]%N. split; [left|]. split; [exact W2|exact I].
Qed.
(** Both tests, decided. *)
Definition inner1 (e : N) : bool := match RelRow R12 (N.to_nat e) tri_fan with Ok row => (2 <=? length row) && bool_decide (Forall (fun f => f ∈ fan) row) | _ => false end.
Lemma fan_inner e : inner_edge fan tri_fan e <-> e ∈ [3; 4; 5]%N.
Proof.
  assert (inner_edge fan tri_fan e <-> edge_of fan tri_fan e /\ inner1 e = true) as ->.
  { unfold inner_edge, inner1. split; (intros [H1 H2]; split; [exact H1|]).
    - destruct H2 as (row & -> & L & F). apply andb_true_iff. split; [by apply Nat.leb_le|]. by apply bool_decide_eq_true.
    - destruct (RelRow R12 (N.to_nat e) tri_fan) as [row| | | | ]; try discriminate. apply andb_true_iff in H2 as [L F]. exists row.
      split; [reflexivity|]. split; [by apply Nat.leb_le|]. by apply bool_decide_eq_true in F. }
  rewrite fan_edge. split.
  - intros [H I]. revert I. assert (Forall (fun e => inner1 e = true -> e ∈ [3; 4; 5]%N) [0; 4; 3; 1; 5; 4; 2; 3; 5]%N) as F.
    { apply Forall_forall. intros x X. assert (bool_decide (Forall (fun x => x ∈ [3; 4; 5]%N) (filter (fun e => inner1 e = true) [0; 4; 3; 1; 5; 4; 2; 3; 5]%N)) = true) as D by (vm_compute; reflexivity).
      apply bool_decide_eq_true in D. rewrite Forall_forall in D. intros T. apply D. apply elem_of_list_filter. split; [exact T|exact X]. }
    rewrite Forall_forall in F. by apply F.
  - intros I. assert (bool_decide (Forall (fun e => e ∈ [0; 4; 3; 1; 5; 4; 2; 3; 5]%N /\ inner1 e = true) [3; 4; 5]%N) = true) as D by (vm_compute; reflexivity).
    apply bool_decide_eq_true in D. rewrite Forall_forall in D. by apply D.
Qed.
Lemma fan_inside v : inner_corner fan tri_fan v <-> v = 3%N.
Proof.
  assert (RelRow R01 0 tri_fan = Ok [0; 2; 3]%N /\ RelRow R01 1 tri_fan = Ok [0; 1; 4]%N /\ RelRow R01 2 tri_fan = Ok [1; 2; 5]%N /\ RelRow R01 3 tri_fan = Ok [3; 4; 5]%N)
    as (W0 & W1 & W2 & W3) by (vm_compute; repeat split).
  split.
  - intros (C & row & H & F). apply fan_corner in C. revert F. setoid_rewrite Forall_forall. setoid_rewrite fan_inner. intros F.
    assert (forall x l, RelRow R01 (N.to_nat v) tri_fan = Ok (x :: l) -> x ∈ [3; 4; 5]%N) as HD.
    { intros x l HX. rewrite HX in H. injection H as <-. apply F. left. }
    assert (v = 0%N \/ v = 1%N \/ v = 2%N \/ v = 3%N) as CS.
    { repeat (apply elem_of_cons in C as [C|C]; [tauto|]). apply elem_of_nil in C. exact (False_ind _ C). }
    destruct CS as [-> |[-> |[-> | ->]]]; [..|reflexivity]; exfalso.
    + specialize (HD _ _ W0). revert HD. apply (bool_decide_unpack (~ _)). vm_compute. exact I.
    + specialize (HD _ _ W1). revert HD. apply (bool_decide_unpack (~ _)). vm_compute. exact I.
    + specialize (HD _ _ W2). revert HD. apply (bool_decide_unpack (~ _)). vm_compute. exact I.
  - intros ->. split; [apply fan_corner; apply (bool_decide_unpack _); vm_compute; exact I|]. exists [3; 4; 5]%N. split; [exact W3|].
    apply Forall_forall. intros e I. apply fan_inner. exact I.
Qed.
Lemma fan_exists : polygons_exist fan tri_fan.
Proof.
  destruct fan_rows as (V0 & V1 & V2' & W0 & W1 & W2). intros f F. apply (fan_cases f); [exact F|intros ->..]; (split; [vm_compute; reflexivity|]).
  - exists [0; 1; 3]%N, [0; 4; 3]%N. split; [exact V0|]. split; [exact W0|]. split; [reflexivity|].
    split; repeat (constructor; [vm_compute; reflexivity|]); constructor.
  - exists [1; 2; 3]%N, [1; 5; 4]%N. split; [exact V1|]. split; [exact W1|]. split; [reflexivity|].
    split; repeat (constructor; [vm_compute; reflexivity|]); constructor.
  - exists [2; 0; 3]%N, [2; 3; 5]%N. split; [exact V2'|]. split; [exact W2|]. split; [reflexivity|].
    split; repeat (constructor; [vm_compute; reflexivity|]); constructor.
Qed.
(** The edges as the triangles have them. *)
Definition fan_runs : list (N * N) := [(0, 0); (4, 1); (3, 3); (1, 1); (5, 2); (4, 3); (2, 2); (3, 0); (5, 3)]%N.
Lemma fan_run e u : runs_from fan tri_fan e u <-> (e, u) ∈ fan_runs.
Proof.
  destruct fan_rows as (V0 & V1 & V2' & W0 & W1 & W2). split.
  - intros (f & vs & es & k & F & HV & HE & KV & KE).
    assert (forall vs0 es0, RelRow V2 (N.to_nat f) tri_fan = Ok vs0 -> RelRow MeshModel.E2 (N.to_nat f) tri_fan = Ok es0 -> (e, u) ∈ zip es0 vs0) as Z.
    { intros vs0 es0 HV0 HE0. rewrite HV in HV0. rewrite HE in HE0. injection HV0 as <-. injection HE0 as <-. apply elem_of_list_lookup. exists k.
      apply lookup_zip_with_Some. exists e, u. split; [reflexivity|]. split; [exact KE|exact KV]. }
    unfold fan_runs. change [(0, 0); (4, 1); (3, 3); (1, 1); (5, 2); (4, 3); (2, 2); (3, 0); (5, 3)]%N
      with (zip [0; 4; 3]%N [0; 1; 3]%N ++ zip [1; 5; 4]%N [1; 2; 3]%N ++ zip [2; 3; 5]%N [2; 0; 3]%N). rewrite !elem_of_app.
    apply (fan_cases f); [exact F|intros ->..].
    + left. apply Z; [exact V0|exact W0].
    + right. left. apply Z; [exact V1|exact W1].
    + right. right. apply Z; [exact V2'|exact W2].
  - unfold fan_runs. change [(0, 0); (4, 1); (3, 3); (1, 1); (5, 2); (4, 3); (2, 2); (3, 0); (5, 3)]%N
      with (zip [0; 4; 3]%N [0; 1; 3]%N ++ zip [1; 5; 4]%N [1; 2; 3]%N ++ zip [2; 3; 5]%N [2; 0; 3]%N). rewrite !elem_of_app.
    assert (forall f vs es, f ∈ fan -> RelRow V2 (N.to_nat f) tri_fan = Ok vs -> RelRow MeshModel.E2 (N.to_nat f) tri_fan = Ok es -> (e, u) ∈ zip es vs -> runs_from fan tri_fan e u) as Z.
    { intros f vs es F HV HE [k K]%elem_of_list_lookup. apply lookup_zip_with_Some in K as (e' & u' & EQ & KE & KV). injection EQ as <- <-.
      exists f, vs, es, k. split; [exact F|]. split; [exact HV|]. split; [exact HE|]. split; [exact KV|exact KE]. }
    intros [I|[I|I]].
    + apply (Z 0%N [0; 1; 3]%N [0; 4; 3]%N); [right; left|exact V0|exact W0|exact I].
    + apply (Z 1%N [1; 2; 3]%N [1; 5; 4]%N); [right; right; left|exact V1|exact W1|exact I].
    + apply (Z 2%N [2; 0; 3]%N [2; 3; 5]%N); [left|exact V2'|exact W2|exact I].
Qed.
Lemma fan_outline : has_outline fan tri_fan [0; 1; 2]%N [0; 1; 2]%N.
Proof.
  split.
  - split.
    + reflexivity.
    + cbn. lia.
    + apply (bool_decide_unpack _). vm_compute. exact I.
    + apply (bool_decide_unpack _). vm_compute. exact I.
    + intros k e K. destruct k as [|[|[|k]]]; [| | |discriminate K]; injection K as <-.
      * exists 0%N, 1%N. split; [reflexivity|]. split; [reflexivity|]. left. split; vm_compute; reflexivity.
      * exists 1%N, 2%N. split; [reflexivity|]. split; [reflexivity|]. right. split; vm_compute; reflexivity.
      * exists 2%N, 0%N. split; [reflexivity|]. split; [reflexivity|]. left. split; vm_compute; reflexivity.
  - intros e. rewrite fan_edge, fan_inner, !elem_of_cons, !elem_of_nil. lia.
  - intros v. rewrite fan_corner, fan_inside, !elem_of_cons, !elem_of_nil. lia.
  - intros k e u u' KE KU. rewrite fan_run. unfold fan_runs.
    destruct k as [|[|[|k]]]; [| | |discriminate KE]; injection KE as <-; injection KU as <-; rewrite !elem_of_cons, elem_of_nil, !pair_equal_spec; lia.
Qed.
Example C98_nonvacuous : reachable tri_fan /\ polygons_exist fan tri_fan /\ has_outline fan tri_fan [0; 1; 2]%N [0; 1; 2]%N /\
  PolygonsOutline 40 (fun l => l) (fun l => l) fan tri_fan = Ok (Outline [2; 0; 1]%N [2; 0; 1]%N [3]%N [3; 5; 4]%N) /\
  PolygonsOutline 40 (fun l => rev l) (fun l => rev l) fan tri_fan = Ok (Outline [1; 2; 0]%N [1; 2; 0]%N [3]%N [4; 5; 3]%N) /\
  PolygonsOutline 40 (fun l => l) (fun l => l) [1; 0]%N tri_row = Ok (Outline [1; 3; 2; 0]%N [3; 4; 2; 0]%N [] [1]%N).
Proof.
  split; [exact tri_fan_reachable|]. split; [exact fan_exists|]. split; [exact fan_outline|]. vm_compute. repeat split.
Qed.

(** If the vertices do not know their edges, which nothing checks, all vertices count as inside and the first of no vertices is taken. *)
Definition tri_lost : mesh := after (List.filter (fun o => match o with OAdd R01 _ _ => false | _ => true end) f_fan).
Lemma tri_lost_reachable : reachable tri_lost.
Proof. apply after_reachable, plain_allowed. vm_compute. reflexivity. Qed.
Theorem C98_neighbours_refuted : reachable tri_lost /\ Forall (fun f => RelRow V2 f tri_lost = RelRow V2 f tri_fan /\ RelRow MeshModel.E2 f tri_lost = RelRow MeshModel.E2 f tri_fan) [0; 1; 2] /\
  PolygonsOutline 40 (fun l => l) (fun l => l) fan tri_lost = UB.
Proof. split; [exact tri_lost_reachable|]. split; [|vm_compute; reflexivity]. repeat (constructor; [split; vm_compute; reflexivity|]). constructor. Qed.
Print Assumptions C98_neighbours_refuted.
(** Polygons that have only a vertex in common: the program ends. *)
Theorem C98_apart_refuted : reachable tri_row /\ PolygonsOutline 60 (fun l => l) (fun l => l) [2; 0]%N tri_row = Abort.
Proof. split; [exact tri_row_reachable|]. vm_compute. reflexivity. Qed.
Print Assumptions C98_apart_refuted.
