(** * Chains of segments: Geometry/GeometryUtilities_Point.cpp (GUP) 191-250. *)
From Coq Require Import ZArith.
From Verif Require Import Base.

(** The variables of the loop: the columns of the result so far, the flags of the segments, the current vertex, the number of
    segments looked at since the last one was taken, and the segment to look at. *)
Record chain_state := ChainState {
  cs_out : list (Z * nat);
  cs_taken : list bool;
  cs_next : Z;
  cs_visited : nat;
  cs_index : nat
}.

(** One pass of the loop, GUP 206-243. *)
Definition chain_step (segments : list (Z * Z)) (s : chain_state) : outcome chain_state :=
  let n := length segments in
  let i := cs_index s in
  let after := (i + 1) mod n in
  t ← vget (cs_taken s) i;
  if t : bool then Ok (ChainState (cs_out s) (cs_taken s) (cs_next s) (cs_visited s + 1) after)
  else
    g ← vget segments i;
    if (g.1 =? cs_next s)%Z then
      k ← vset (cs_taken s) i true;
      Ok (ChainState (cs_out s ++ [(cs_next s, i)]) k g.2 1 after)
    else if (g.2 =? cs_next s)%Z then
      k ← vset (cs_taken s) i true;
      Ok (ChainState (cs_out s ++ [(cs_next s, i)]) k g.1 1 after)
    else Ok (ChainState (cs_out s) (cs_taken s) (cs_next s) (cs_visited s + 1) after).

(** The loop, GUP 204-244. *)
Fixpoint chain_loop (fuel : nat) (segments : list (Z * Z)) (s : chain_state) : outcome chain_state :=
  if (cs_visited s <? length segments) && (length (cs_out s) <? length segments) then
    match fuel with
    | 0 => OutOfFuel
    | S fuel => s ← chain_step segments s; chain_loop fuel segments s
    end
  else Ok s.

(** MakeConcatenation, GUP 191-250: a column is a vertex and a segment.  The matrix has one column for every segment and the
    first ones are kept, here they are appended.  The conversion of the starting vertex from [unsigned int] to [int] is left
    to the caller. *)
Definition MakeConcatenation (fuel : nat) (segments : list (Z * Z)) (start : Z) : outcome (list (Z * nat)) :=
  match segments with
  | [] => Ok []
  | _ => s ← chain_loop fuel segments (ChainState [] (replicate (length segments) false) start 0 0); Ok (cs_out s)
  end.
