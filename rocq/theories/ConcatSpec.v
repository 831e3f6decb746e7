(** * What a chain of segments is. *)
From Coq Require Import ZArith.
From Verif Require Import Base.

Section segments.
Context (segments : list (Z * Z)).

(** Segment [i] has the ends [v] and [w]; it has the end [v]. *)
Definition between (i : nat) (v w : Z) : Prop := segments !! i = Some (v, w) \/ segments !! i = Some (w, v).
Definition touches (i : nat) (v : Z) : Prop := exists w, between i v w.

(** The columns lead from [start] to [last]: every segment leads from its vertex to the vertex of the next column. *)
Fixpoint leads (start : Z) (l : list (Z * nat)) (last : Z) : Prop :=
  match l with
  | [] => start = last
  | (v, i) :: l => v = start /\ exists w, between i v w /\ leads w l last
  end.

(** The chain uses no segment twice, and all segments at its last vertex. *)
Definition longest (start : Z) (l : list (Z * nat)) : Prop :=
  exists last, leads start l last /\ NoDup (l.*2) /\ forall i, touches i last -> i ∈ l.*2.

(** Segment [i] can be reached from the vertex. *)
Inductive connected (start : Z) : nat -> Prop :=
| connected_here i : touches i start -> connected start i
| connected_next i j v : connected start i -> touches i v -> touches j v -> connected start j.

(** The segments form curves: every segment has two different ends, and no vertex is an end of three segments. *)
Definition curves : Prop :=
  (forall i v, ~ between i v v) /\
  (forall i j k v, touches i v -> touches j v -> touches k v -> i = j \/ j = k \/ i = k).
(** At most one segment has the vertex; every vertex of a segment has another segment. *)
Definition first_vertex (v : Z) : Prop := forall i j, touches i v -> touches j v -> i = j.
Definition closed_curves : Prop := forall i v, touches i v -> exists j, j <> i /\ touches j v.
End segments.
