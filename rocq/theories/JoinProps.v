(** * Properties C95 and C96: joining edges. *)
From Coq Require Import ZifyBool ZifyNat ZifyN.
From Verif Require Import Base BaseProof CsrModel MeshModel MeshSpec MeshHist MeshWit JoinModel JoinSpec JoinProof JoinMesh JoinEnd.
Local Open Scope nat_scope.

(** In whatever order the edges are visited: the vertices of the edges are split in those that stay and those that go, and those
    that go are those all of whose edges, two or more, are joined. *)
Theorem C95_vertices : forall order es m, reachable m -> edges_exist es m -> 2 <= length es -> (forall l, order l ≡ₚ l) ->
  exists stay gone, JoinedVertices order es m = Ok (stay, gone) /\ NoDup stay /\ NoDup gone /\
    (forall v, v ∈ stay <-> touched es m v /\ ~ swallowed es m v) /\ (forall v, v ∈ gone <-> touched es m v /\ swallowed es m v).
Proof. exact joined_vertices. Qed.
Print Assumptions C95_vertices.

(** Of a path the ends stay and the vertices between them go. *)
Theorem C95_path : forall order m vs es es' a b, reachable m -> is_path m vs es -> es' ≡ₚ es -> edges_exist es m -> 2 <= length es ->
  (forall l, order l ≡ₚ l) -> vs !! 0 = Some a -> last vs = Some b ->
  exists stay gone, JoinedVertices order es' m = Ok (stay, gone) /\ stay ≡ₚ [a; b] /\ gone ≡ₚ take (length es - 1) (drop 1 vs).
Proof. exact joined_path. Qed.
Print Assumptions C95_path.

Theorem C95_few : forall order es m, length es < 2 -> JoinedVertices order es m = Ok ([], []).
Proof. exact few_edges. Qed.
Print Assumptions C95_few.

(** The new edge: ends, state, greatest marker, polygons and polyhedra around the joined edges; the joined edges and the given
    vertices are no longer active; the ends know the new edge in place of the joined ones if they know any other; nothing else
    changes. *)
Theorem C96_mesh : forall order order2 es a b gone original keep_sides m, reachable m -> can_join es a b gone original m ->
  (keep_sides = true -> sided es m) -> (forall l, order l ≡ₚ l) -> (forall l, order2 l ≡ₚ l) ->
  exists m' l, JoinEdges order order2 es [a; b] gone original keep_sides m = Ok (m', num D1 m, original ++ [l]) /\
    originals_of original es l /\ reachable m' /\ edges_joined es a b gone keep_sides m m'.
Proof. exact join_ok. Qed.
Print Assumptions C96_mesh.

(** Both calls on a path. *)
Theorem C96_path : forall order order2 m vs es es' a b original keep_sides,
  reachable m -> is_path m vs es -> es' ≡ₚ es -> NoDup es -> edges_exist es m -> 2 <= length es ->
  vs !! 0 = Some a -> last vs = Some b -> length original = num D1 m ->
  (forall v row, v = a \/ v = b -> RelRow R01 (N.to_nat v) m = Ok row -> N.of_nat (num D1 m) ∉ row) -> (keep_sides = true -> sided es' m) ->
  (forall l, order l ≡ₚ l) -> (forall l, order2 l ≡ₚ l) ->
  exists o t gone m' l, JoinedVertices order es' m = Ok ([o; t], gone) /\ ((o = a /\ t = b) \/ (o = b /\ t = a)) /\
    gone ≡ₚ take (length es - 1) (drop 1 vs) /\
    JoinEdges order order2 es' [o; t] gone original keep_sides m = Ok (m', num D1 m, original ++ [l]) /\
    originals_of original es' l /\ reachable m' /\ edges_joined es' o t gone keep_sides m m'.
Proof. exact join_path. Qed.
Print Assumptions C96_path.

(** Fewer than two edges: nothing happens.  Other than two ends, as for a closed line: rejected. *)
Theorem C96_few : forall order order2 es ends gone original keep_sides m, length es < 2 ->
  exists c, JoinEdges order order2 es ends gone original keep_sides m = Ok (m, c, original) /\
    (es = [] -> c = num D1 m) /\ forall e, es = [e] -> c = N.to_nat e.
Proof. exact join_few. Qed.
Print Assumptions C96_few.
Theorem C96_ends : forall order order2 es ends gone original keep_sides m, reachable m -> 2 <= length es -> Forall (is_cell D1 m) es ->
  length original = num D1 m -> length ends <> 2 -> JoinEdges order order2 es ends gone original keep_sides m = Abort.
Proof. exact join_abort. Qed.
Print Assumptions C96_ends.

(** A line of four edges with a fork at its third vertex; two polygons beside the first three edges. *)
Definition w_fork : list op :=
  [OInitDimension 2; OAppend D0 6] ++ ((fun v => OState D0 v true) <$> seq 0 6) ++
  [OAppend D1 5; OExtremes 0 0 1; OExtremes 1 2 1; OExtremes 2 2 3; OExtremes 3 3 4; OExtremes 4 3 5; OMarker D1 0 3; OMarker D1 1 7] ++
  ((fun e => OState D1 e true) <$> seq 0 5) ++
  [OAdd R01 0 [0]; OAdd R01 1 [0; 1]; OAdd R01 2 [1; 2]; OAdd R01 3 [2; 3; 4]; OAdd R01 4 [3]; OAdd R01 5 [4]]%N ++
  [OAppend D2 3; OAdd R12 0 [0; 1]; OAdd R12 1 [0; 1]; OAdd R12 2 [0; 1]; OAdd R12 3 [2; 1]]%N.
Definition fork : mesh := after w_fork.
Lemma fork_reachable : reachable fork.
Proof. apply after_reachable, plain_allowed. vm_compute. reflexivity. Qed.
Lemma fork_path : is_path fork [0; 1; 2; 3]%N [0; 1; 2]%N.
Proof.
  split; [done| | | |].
  - apply (bool_decide_unpack _). vm_compute. exact I.
  - intros [|[|[|k]]] e [= <-]; eexists _, _; (split; [reflexivity|]); (split; [reflexivity|]).
    + left. split; vm_compute; reflexivity.
    + right. split; vm_compute; reflexivity.
    + left. split; vm_compute; reflexivity.
  - intros k v K L. assert (k = 1 \/ k = 2) as [-> | ->] by (cbn in L; lia); injection K as <-.
    + exists [0; 1]%N. split; [vm_compute; reflexivity|]. split; [cbn; lia|]. apply (bool_decide_unpack _). vm_compute. exact I.
    + exists [1; 2]%N. split; [vm_compute; reflexivity|]. split; [cbn; lia|]. apply (bool_decide_unpack _). vm_compute. exact I.
  - intros k v K [-> | ->]; injection K as <-; intros (row & RW & L & F).
    + assert (RelRow R01 0 fork = Ok [0]%N) as E by (vm_compute; reflexivity). change (N.to_nat 0) with 0 in RW. rewrite E in RW. injection RW as <-. cbn in L. lia.
    + assert (RelRow R01 3 fork = Ok [2; 3; 4]%N) as E by (vm_compute; reflexivity). change (N.to_nat 3) with 3 in RW. rewrite E in RW. injection RW as <-.
      apply Forall_cons in F as [_ [F _]%Forall_cons]. rewrite !elem_of_cons, elem_of_nil in F. intuition congruence.
Qed.
Lemma fork_edges : edges_exist [0; 1; 2]%N fork.
Proof.
  assert (forall e o t, Cell1DOrigin (N.to_nat e) fork = Ok o -> Cell1DEnd (N.to_nat e) fork = Ok t -> is_cell D0 fork o -> is_cell D0 fork t ->
    forall v, has_end fork e v -> is_cell D0 fork v) as H.
  { intros e o t O T PO PT v [V|V]; [rewrite O in V|rewrite T in V]; injection V as <-; done. }
  intros e. rewrite !elem_of_cons, elem_of_nil. intros [-> |[-> |[-> |[]]]]; (split; [vm_compute; reflexivity|]);
    (eapply H; [vm_compute; reflexivity|vm_compute; reflexivity|vm_compute; reflexivity|vm_compute; reflexivity]).
Qed.
Definition fork_original : list (list N) := [[10]; [11; 12]; [13]; [14]; [15]]%N.
Lemma fork_can_join : can_join [2; 0; 1]%N 0 3 [1; 2]%N fork_original fork.
Proof.
  split.
  - cbn. lia.
  - apply (bool_decide_unpack _). vm_compute. exact I.
  - repeat (constructor; [vm_compute; reflexivity|]). constructor.
  - split; [vm_compute; reflexivity|]. split; [vm_compute; reflexivity|done].
  - repeat (constructor; [vm_compute; reflexivity|]). constructor.
  - vm_compute. reflexivity.
  - intros v row V RW.
    assert (RelRow R01 0 fork = Ok [0]%N) as E0 by (vm_compute; reflexivity).
    assert (RelRow R01 3 fork = Ok [2; 3; 4]%N) as E3 by (vm_compute; reflexivity).
    assert (num D1 fork = 5) as -> by (vm_compute; reflexivity). change (N.of_nat 5) with 5%N.
    destruct V as [-> | ->]; [change (N.to_nat 0) with 0 in RW; rewrite E0 in RW|change (N.to_nat 3) with 3 in RW; rewrite E3 in RW]; injection RW as <-;
      rewrite !elem_of_cons, elem_of_nil; intuition congruence.
Qed.
Lemma fork_sided : sided [2; 0; 1]%N fork.
Proof.
  assert (forall k p, around R12 [2; 0; 1]%N fork k p -> (k = 0 /\ p = 0%N) \/ (k = 1 /\ p = 1%N)) as H.
  { intros k p (e & row & I & RW & K & _).
    assert (row = [0; 1]%N) as ->.
    { assert (RelRow R12 0 fork = Ok [0; 1]%N) as E0 by (vm_compute; reflexivity).
      assert (RelRow R12 1 fork = Ok [0; 1]%N) as E1 by (vm_compute; reflexivity).
      assert (RelRow R12 2 fork = Ok [0; 1]%N) as E2 by (vm_compute; reflexivity).
      rewrite !elem_of_cons, elem_of_nil in I. destruct I as [-> |[-> |[-> |[]]]].
      - change (N.to_nat 2) with 2 in RW. rewrite E2 in RW. congruence.
      - change (N.to_nat 0) with 0 in RW. rewrite E0 in RW. congruence.
      - change (N.to_nat 1) with 1 in RW. rewrite E1 in RW. congruence. }
    destruct k as [|[|k]]; [injection K as <-; tauto|injection K as <-; tauto|discriminate K]. }
  split.
  - intros k p A%H. lia.
  - intros k k' p A%H B%H. destruct A as [[-> ->]|[-> ->]], B as [[-> ?]|[-> ?]]; first [reflexivity|discriminate].
  - intros k p p' A%H B%H. destruct A as [[-> ->]|[-> ->]], B as [[? ->]|[? ->]]; first [reflexivity|discriminate].
  - vm_compute. discriminate.
Qed.
Definition as_is {A} (l : list A) : list A := l.
Definition fork_result (keep_sides : bool) : outcome (mesh * nat * list (list N)) := JoinEdges as_is as_is [2; 0; 1]%N [0; 3]%N [1; 2]%N fork_original keep_sides fork.
Example C95_nonvacuous : reachable fork /\ edges_exist [0; 1; 2]%N fork /\ is_path fork [0; 1; 2; 3]%N [0; 1; 2]%N /\
  JoinedVertices as_is [2; 0; 1]%N fork = Ok ([3; 0]%N, [2; 1]%N) /\ JoinedVertices as_is [0; 1; 2]%N fork = Ok ([0; 3]%N, [1; 2]%N).
Proof.
  split; [exact fork_reachable|]. split; [exact fork_edges|]. split; [exact fork_path|]. split; vm_compute; reflexivity.
Qed.
Example C96_nonvacuous : reachable fork /\ can_join [2; 0; 1]%N 0 3 [1; 2]%N fork_original fork /\ sided [2; 0; 1]%N fork /\
  match fork_result true with
  | Ok (m', c, o) => c = 5 /\ o = fork_original ++ [[13; 10; 11; 12]%N] /\ Cell1DOrigin 5 m' = Ok 0%N /\ Cell1DEnd 5 m' = Ok 3%N /\
      Marker D1 5 m' = Ok 7%N /\ RelRow R12 5 m' = Ok [0; 1]%N /\ RelRow R01 3 m' = Ok [3; 4; 5]%N /\ IsActive D1 1 m' = Ok false /\ IsActive D0 2 m' = Ok false
  | _ => False
  end.
Proof.
  split; [exact fork_reachable|]. split; [exact fork_can_join|]. split; [exact fork_sided|]. vm_compute. repeat split.
Qed.

(** An end that knows only the joined edge keeps knowing it, though it is no longer active, and does not know the new one: after the
    removal of the inactive cells it knows no edge at all. *)
Theorem C96_border_refuted : match fork_result false with
  | Ok (m', c, _) => Cell1DOrigin c m' = Ok 0%N /\ RelRow R01 0 m' = Ok [0]%N /\ IsActive D1 0 m' = Ok false
  | _ => False
  end.
Proof. vm_compute. repeat split. Qed.
Print Assumptions C96_border_refuted.

(** Which end is the origin depends on the unspecified order of a set, but the sides do not follow: the polygons are left and right of
    the first joined edge, also if the new edge has the opposite direction. *)
Theorem C96_direction_refuted : match JoinedVertices as_is [0; 2; 1]%N fork, JoinedVertices (fun l => rev l) [0; 2; 1]%N fork with
  | Ok (ends, gone), Ok (ends', gone') =>
      match JoinEdges as_is as_is [0; 2; 1]%N ends gone fork_original true fork, JoinEdges as_is as_is [0; 2; 1]%N ends' gone' fork_original true fork with
      | Ok (m', _, _), Ok (m'', _, _) =>
          Cell1DOrigin 5 m' = Ok 0%N /\ Cell1DEnd 5 m' = Ok 3%N /\ RelRow R12 5 m' = Ok [0; 1]%N /\
          Cell1DOrigin 5 m'' = Ok 3%N /\ Cell1DEnd 5 m'' = Ok 0%N /\ RelRow R12 5 m'' = Ok [0; 1]%N
      | _, _ => False
      end
  | _, _ => False
  end.
Proof. vm_compute. repeat split. Qed.
Print Assumptions C96_direction_refuted.

(** Two polygons on the same side: the second replaces the first, without a complaint. *)
Theorem C96_sides_refuted : match JoinEdges as_is as_is [2; 3]%N [2; 4]%N [3]%N fork_original true fork with
  | Ok (m', c, _) => RelRow R12 2 fork = Ok [0; 1]%N /\ RelRow R12 3 fork = Ok [2; 1]%N /\ RelRow R12 c m' = Ok [2; 1]%N
  | _ => False
  end.
Proof. vm_compute. repeat split. Qed.
Print Assumptions C96_sides_refuted.
