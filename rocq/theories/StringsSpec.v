(** * Notions used in the statements about texts. *)
From Verif Require Import StringsModel.
Local Open Scope nat_scope.

Fixpoint join (separator : text) (tokens : list text) : text :=
  match tokens with
  | [] => []
  | [t] => t
  | t :: tokens' => t ++ separator ++ join separator tokens'
  end.

(** The tokens without the last one when it is empty. *)
Definition drop_trailing_empty (tokens : list text) : list text :=
  match last tokens with Some [] => removelast tokens | _ => tokens end.

(** The maximal non-empty runs of characters which are not separators; [word] is the run being read. *)
Fixpoint words (separators : list ascii) (word s : text) : list text :=
  match s with
  | [] => match word with [] => [] | _ => [word] end
  | x :: s' => if decide (x ∈ separators) then match word with [] => words separators [] s' | _ => word :: words separators [] s' end
               else words separators (word ++ [x]) s'
  end.

(** A gap between two numbers: at most one space, which comes first, then commas and semicolons. *)
Definition gap_ok (g : text) : Prop :=
  g <> [] /\ exists sp rest, g = sp ++ rest /\ (sp = [] \/ sp = txt " ") /\ Forall (fun c => c = ","%char \/ c = ";"%char) rest.

(** Elements of a vector separated by gaps. *)
Definition with_gaps {T} (show : T -> text) (x : T) (l : list (text * T)) : text :=
  show x ++ concat (map (fun p => p.1 ++ show p.2) l).

(** What [put] writes, [get] reads back, leaving what follows; also after spaces. *)
Definition reads_back {T} (put : T -> text) (get : text -> option (T * text)) (x : T) : Prop :=
  forall spaces rest, Forall (fun c => is_space c = true) spaces ->
    (exists rest', rest = ","%char :: rest' \/ rest = "}"%char :: rest') ->
    get (spaces ++ put x ++ rest) = Some (x, rest).

Definition well_formed {T} (m : matrix T) : Prop :=
  length (mcolumns m) = mcols m /\ Forall (fun c => length c = mrows m) (mcolumns m).
