(** * Property C89: chains of segments. *)
From Coq Require Import ZArith.
From Verif Require Import Base BaseProof ConcatModel ConcatSpec ConcatProof.
From Coq Require Import ZifyBool ZifyNat.

(** The loop ends; the result is a chain from the starting vertex which uses no segment twice and cannot be continued. *)
Theorem C89_chain : forall segments start fuel, S (length segments) * S (length segments) <= fuel ->
  exists l, MakeConcatenation fuel segments start = Ok l /\ longest segments start l.
Proof. intros segments start fuel. exact (concatenation_ok segments start fuel). Qed.
Print Assumptions C89_chain.

(** Curves: a chain from the first vertex of an open curve, or from any vertex of a closed one, has all the segments. *)
Theorem C89_curve : forall segments start fuel l, S (length segments) * S (length segments) <= fuel ->
  curves segments -> first_vertex segments start \/ closed_curves segments ->
  MakeConcatenation fuel segments start = Ok l -> forall i, connected segments start i -> i ∈ l.*2.
Proof.
  intros segments start fuel l F C S E. destruct (concatenation_ok segments start fuel F) as (l' & E' & H). rewrite E in E'. injection E' as <-.
  exact (chain_all segments start C l H S).
Qed.
Print Assumptions C89_curve.

(** The sides of a quadrilateral, in disorder. *)
Definition four_sides : list (Z * Z) := [(7, 3); (5, 4); (3, 4); (5, 7)]%Z.
Example C89_nonvacuous : MakeConcatenation 25 four_sides 5%Z = Ok [(5%Z, 1); (4%Z, 2); (3%Z, 0); (7%Z, 3)] /\ curves four_sides /\ closed_curves four_sides.
Proof.
  assert (T : forall i v, touches four_sides i v -> (i, v) ∈ [(0%nat, 7); (0%nat, 3); (1%nat, 5); (1%nat, 4); (2%nat, 3); (2%nat, 4); (3%nat, 5); (3%nat, 7)]%Z).
  { intros i v (w & [E|E]); (destruct i as [|[|[|[|i]]]]; [..|done]); injection E as <- <-; rewrite !elem_of_cons; tauto. }
  split; [vm_compute; reflexivity|]. split; [split|].
  - intros i v [E|E]; (destruct i as [|[|[|[|i]]]]; [..|done]); injection E; intros; congruence.
  - intros i j k v Hi%T Hj%T Hk%T. rewrite !elem_of_cons, elem_of_nil in Hi, Hj, Hk.
    destruct Hi as [[= -> ->]|[[= -> ->]|[[= -> ->]|[[= -> ->]|[[= -> ->]|[[= -> ->]|[[= -> ->]|[[= -> ->]|[]]]]]]]]];
    destruct Hj as [[= ->]|[[= ->]|[[= ->]|[[= ->]|[[= ->]|[[= ->]|[[= ->]|[[= ->]|[]]]]]]]]]; try tauto;
    destruct Hk as [[= ->]|[[= ->]|[[= ->]|[[= ->]|[[= ->]|[[= ->]|[[= ->]|[[= ->]|[]]]]]]]]]; tauto.
  - intros i v Hi%T. rewrite !elem_of_cons, elem_of_nil in Hi.
    destruct Hi as [[= -> ->]|[[= -> ->]|[[= -> ->]|[[= -> ->]|[[= -> ->]|[[= -> ->]|[[= -> ->]|[[= -> ->]|[]]]]]]]]].
    + exists 3. split; [done|]. exists 5%Z. by right.
    + exists 2. split; [done|]. exists 4%Z. by left.
    + exists 3. split; [done|]. exists 7%Z. by left.
    + exists 2. split; [done|]. exists 3%Z. by right.
    + exists 0. split; [done|]. exists 7%Z. by right.
    + exists 1. split; [done|]. exists 5%Z. by right.
    + exists 1. split; [done|]. exists 4%Z. by left.
    + exists 0. split; [done|]. exists 3%Z. by left.
Qed.

(** Where three or more segments meet, the chain may miss segments although another chain has all of them. *)
Theorem C89_branch_refuted : exists segments start fuel l k last, S (length segments) * S (length segments) <= fuel /\
  MakeConcatenation fuel segments start = Ok l /\ leads segments start k last /\ k.*2 ≡ₚ seq 0 (length segments) /\ length l < length segments.
Proof.
  exists [(0, 1); (1, 2); (1, 3); (3, 4); (4, 1)]%Z, 0%Z, 36, [(0, 0%nat); (1, 1%nat)]%Z, [(0, 0%nat); (1, 2%nat); (3, 3%nat); (4, 4%nat); (1, 1%nat)]%Z, 2%Z.
  split; [cbn; lia|]. split; [vm_compute; reflexivity|]. split; [|split; [|cbn; lia]].
  - cbn. repeat (split; [reflexivity|eexists; split; [by left|]]). done.
  - cbn. constructor. change [2; 3; 4; 1] with ([2; 3; 4] ++ [1]). rewrite Permutation_app_comm. done.
Qed.
Print Assumptions C89_branch_refuted.
