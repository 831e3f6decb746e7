(** * Variable-length per-cell attributes stored as offsets + values.

    In [MeshMatrices] (GeDiM/src/Mesh/MeshMatrices.hpp:20-114) every variable-length attribute is a pair of
    vectors: [NumberXxx] of size N+1 with the offsets, and [Xxx] with the values of all cells one after the
    other.  We group such a pair in one record. *)
From Verif Require Import Base.

Record csr (A : Type) := Csr { coff : list nat; cval : list A }.
Arguments Csr {_} _ _.
Arguments coff {_} _.
Arguments cval {_} _.

(** Default member initialisers [NumberXxx = {0}], [Xxx = {}]  (MeshMatrices.hpp:26, 28, ...). *)
Definition csr_empty {A} : csr A := Csr [0] [].

(** [NumberXxx[i+1] - NumberXxx[i]], e.g. Mesh/IMeshDAO.hpp:1239-1243.
    The C++ subtraction is on [unsigned int] and wraps modulo 2^32 when the offsets decrease; the wrap is
    explicit (offsets themselves are below 2^32). *)
Definition csr_count {A} (c : csr A) (i : nat) : outcome N :=
  lo ← vget (coff c) i;
  hi ← vget (coff c) (i + 1);
  Ok (if lo <=? hi then N.of_nat (hi - lo) else (2 ^ 32 - N.of_nat (lo - hi))%N).

(** [Xxx[NumberXxx[i] + k]], unchecked access, e.g. Mesh/IMeshDAO.hpp:1244-1249 (last line). *)
Definition csr_get {A} (c : csr A) (i k : nat) : outcome A :=
  lo ← vget (coff c) i;
  vget (cval c) (lo + k).

(** [Xxx[NumberXxx[i] + k] = v], unchecked, e.g. Mesh/IMeshDAO.hpp:1237. *)
Definition csr_set {A} (c : csr A) (i k : nat) (v : A) : outcome (csr A) :=
  lo ← vget (coff c) i;
  vals ← vset (cval c) (lo + k) v;
  Ok (Csr (coff c) vals).

(** [NumberXxx.resize(n + 1, 0)] without touching the values: CellkDsInitialize,
    Mesh/MeshMatricesDAO.cpp:172-174, 508-509, 822-824, 829, 1184-1186. *)
Definition csr_grow {A} (c : csr A) (n : nat) : csr A :=
  Csr (vresize (coff c) (n + 1) 0) (cval c).

(** Offsets of consecutive blocks, the loop
    [for e: offs[e+1] = offs[e] + cnt[e]] started at offset [o]. *)
Fixpoint offsets_from (o : nat) (cnt : list nat) : list nat :=
  match cnt with
  | [] => [o]
  | n :: cnt' => o :: offsets_from (o + n) cnt'
  end.

(** First entry of a vector resized to a positive size with fill 0 (the loop never writes entry 0). *)
Definition first_offset (off : list nat) : nat :=
  match off with o :: _ => o | [] => 0 end.

(** InitializeNumberVector, Mesh/MeshMatricesDAO.cpp:35-51: the values are resized to the total, so the
    leading old values survive. *)
Definition csr_init {A} (c : csr A) (cnt : list nat) (d : A) : csr A :=
  Csr (offsets_from (first_offset (coff c)) cnt)
      (vresize (cval c) (sum_list cnt) d).

(** InitializeNuberVectorWithConstantElements, Mesh/MeshMatricesDAO.cpp:21-33. *)
Definition csr_init_const {A} (c : csr A) (n k : nat) (d : A) : csr A :=
  Csr (offsets_from (first_offset (coff c)) (replicate n k))
      (vresize (cval c) (n * k) d).

(** The offset loop of ResizeNumberVectorWithNewNumberElements, Mesh/MeshMatricesDAO.cpp:65-66:
    entries [i+1 .. N] are shifted by [new - orig].  [orig <= o] holds for every shifted entry when the
    offsets are monotone. *)
Definition shift_offsets (off : list nat) (N i new orig : nat) : list nat :=
  imap (fun k o => if (i <? k) && (k <=? N) then o + new - orig else o) off.

(** ResizeNumberVectorWithNewNumberElements, Mesh/MeshMatricesDAO.cpp:53-78.  [N] is the number of cells.
    When the stored offsets decrease the C++ goes on with wrapped values; the model says [UB] there (all
    theorems exclude it). *)
Definition csr_resize_row {A} (c : csr A) (N i new : nat) (d : A) : outcome (csr A) :=
  lo ← vget (coff c) i;
  hi ← vget (coff c) (i + 1);
  oldTotal ← vget (coff c) N;
  if hi <? lo then UB else
  let orig := hi - lo in
  let off' := shift_offsets (coff c) N i new orig in
  newTotal ← vget off' N;
  if orig <? new then
    vals ← vrotate (vresize (cval c) newTotal d) (lo + orig) oldTotal;
    Ok (Csr off' vals)
  else
    vals ← verase_range (cval c) (lo + new) (lo + orig);
    Ok (Csr off' vals).

(** The pair of statements in every CellkDRemove: resize the row to 0, then erase its offset, e.g.
    Mesh/MeshMatricesDAO.cpp:231-232. *)
Definition csr_remove_row {A} (c : csr A) (N i : nat) (d : A) : outcome (csr A) :=
  c' ← csr_resize_row c N i 0 d;
  off' ← verase (coff c') i;
  Ok (Csr off' (cval c')).

(** CellkDAppend on the offsets: [n] pushes of 0, then each new offset is set to the offset of the old
    end, e.g. Mesh/MeshMatricesDAO.cpp:192 and 199-200.  [N] is the old number of cells. *)
Definition csr_append {A} (c : csr A) (N n : nat) : outcome (csr A) :=
  let off1 := coff c ++ replicate n 0 in
  off' ← ofold (fun off k =>
                  o ← vget off N;
                  vset off (N + k + 1) o) (seq 0 n) off1;
  Ok (Csr off' (cval c)).

(** AlignContainerHigherElements on one element, Mesh/MeshMatricesDAO.cpp:117-127. *)
Definition align1 (minE newInit v : N) : N :=
  if (minE <? v)%N then (v - 1)%N
  else if (v =? minE)%N then newInit
  else v.

(** AlignContainerHigherElements, Mesh/MeshMatricesDAO.cpp:117-127. *)
Definition align (minE newInit : N) (l : list N) : list N := align1 minE newInit <$> l.

Definition csr_align (minE newInit : N) (c : csr N) : csr N :=
  Csr (coff c) (align minE newInit (cval c)).
