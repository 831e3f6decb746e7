(** * Common vocabulary of the models: outcomes of C++ calls, vectors, sentinels. *)
From stdpp Require Export base list list_numbers numbers option gmap strings.
From Coq Require Export ZArith NArith Lia.
From Coq Require Import ZifyBool ZifyNat ZifyN.

Global Open Scope nat_scope.
Global Set Default Goal Selector "!".

(** Outcome of a C++ call.
    [Abort]: [Output::Assert] failed, which calls [abort()] in every build type
    (GeDiM/src/IO/IOUtilities.hpp:126-130).
    [Throw]: a C++ exception leaves the function.
    [UB]: undefined behaviour (out-of-range [operator[]], invalid iterator range, ...).
    [OutOfFuel]: only used by fuelled models of recursive code; never a C++ outcome. *)
Inductive outcome (A : Type) : Type :=
| Ok (a : A)
| Abort
| Throw
| UB
| OutOfFuel.
Arguments Ok {_} _.
Arguments Abort {_}.
Arguments Throw {_}.
Arguments UB {_}.
Arguments OutOfFuel {_}.

Global Instance outcome_ret : MRet outcome := fun A a => Ok a.
Global Instance outcome_bind : MBind outcome := fun A B f x =>
  match x with
  | Ok a => f a
  | Abort => Abort
  | Throw => Throw
  | UB => UB
  | OutOfFuel => OutOfFuel
  end.
Global Instance outcome_fmap : FMap outcome := fun A B f x =>
  match x with
  | Ok a => Ok (f a)
  | Abort => Abort
  | Throw => Throw
  | UB => UB
  | OutOfFuel => OutOfFuel
  end.

Definition is_ok {A} (x : outcome A) : Prop := exists a, x = Ok a.

(** [Output::Assert(b)], GeDiM/src/IO/IOUtilities.hpp:126-130. *)
Definition require (b : bool) : outcome unit := if b then Ok tt else Abort.

(** [std::numeric_limits<unsigned int>::max()] on the supported platforms (32-bit unsigned int). *)
Definition UINT_MAX : N := 4294967295%N.

(** [v[i]] of a [std::vector]: undefined when out of range. *)
Definition vget {A} (l : list A) (i : nat) : outcome A :=
  match l !! i with Some a => Ok a | None => UB end.

(** [v.at(i)]: throws [std::out_of_range]. *)
Definition vat {A} (l : list A) (i : nat) : outcome A :=
  match l !! i with Some a => Ok a | None => Throw end.

(** [v[i] = a]. *)
Definition vset {A} (l : list A) (i : nat) (a : A) : outcome (list A) :=
  if decide (i < length l) then Ok (<[i := a]> l) else UB.

(** [v.erase(v.begin() + i)]. *)
Definition verase {A} (l : list A) (i : nat) : outcome (list A) :=
  if decide (i < length l) then Ok (take i l ++ drop (S i) l) else UB.

(** [v.erase(v.begin() + i, v.begin() + j)]. *)
Definition verase_range {A} (l : list A) (i j : nat) : outcome (list A) :=
  if decide (i <= j /\ j <= length l) then Ok (take i l ++ drop j l) else UB.

(** [std::rotate(v.begin() + first, v.begin() + middle, v.end())]. *)
Definition vrotate {A} (l : list A) (first middle : nat) : outcome (list A) :=
  if decide (first <= middle /\ middle <= length l) then
    Ok (take first l ++ drop middle l ++ drop first (take middle l))
  else UB.

(** [v.resize(n, d)]. *)
Definition vresize {A} (l : list A) (n : nat) (d : A) : list A :=
  take n l ++ replicate (n - length l) d.

(** A [for] loop over a list of iteration values with an early abort. *)
Fixpoint ofold {A B} (f : B -> A -> outcome B) (l : list A) (b : B) : outcome B :=
  match l with
  | [] => Ok b
  | a :: l' => f b a ≫= ofold f l'
  end.

(** Collecting results of a loop. *)
Fixpoint omapM {A B} (f : A -> outcome B) (l : list A) : outcome (list B) :=
  match l with
  | [] => Ok []
  | a :: l' => f a ≫= fun b => omapM f l' ≫= fun bs => Ok (b :: bs)
  end.
