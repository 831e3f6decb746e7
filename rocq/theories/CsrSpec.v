(** * Abstract view of a variable-length attribute: one list per cell. *)
From Verif Require Import Base CsrModel.

(** Prefix sums of the row lengths, starting at [o]. *)
Fixpoint row_ends (o : nat) {A} (rows : list (list A)) : list nat :=
  match rows with
  | [] => [o]
  | r :: rows' => o :: row_ends (o + length r) rows'
  end.

(** The arrays of [c] store exactly the rows [rows]: values are the concatenation, offsets the prefix
    sums of the lengths. *)
Definition csr_rep {A} (c : csr A) (rows : list (list A)) : Prop :=
  coff c = row_ends 0 rows /\ cval c = concat rows.

(** The sizes documented in MeshMatrices.hpp: one more offset than cells, first offset 0, non decreasing,
    last offset = number of values. *)
Definition csr_shape {A} (n : nat) (c : csr A) : Prop :=
  length (coff c) = n + 1 /\
  coff c !! 0 = Some 0 /\
  (forall i a b, coff c !! i = Some a -> coff c !! (i + 1) = Some b -> a <= b) /\
  coff c !! n = Some (length (cval c)).

(** Cutting a list into consecutive pieces of the given lengths. *)
Fixpoint pieces {A} (cnt : list nat) (l : list A) : list (list A) :=
  match cnt with
  | [] => []
  | n :: cnt' => take n l :: pieces cnt' (drop n l)
  end.

(** Applying a function to every entry of every row. *)
Definition map_rows {A B} (f : A -> B) (rows : list (list A)) : list (list B) :=
  fmap (M:=list) (fmap (M:=list) f) rows.
