(** * Whether an edge of a polygon is to be split.
    File: RU2 = GeDiM/src/Mesh/RefinementUtilities2D.cpp. *)
From Coq Require Import QArith Qcanon.
From Verif Require Import Base QcTac FillModel GeoModel CsrModel MeshModel.
Local Open Scope nat_scope.

(** Cell1DToSplit::Types and Cell1DToSplit, GeDiM/src/Mesh/RefinementUtilities.hpp 82-110, with the initial values.  [IsToSplit] is set only
    with the type [ToSplit]; the index of the edge is a copy of an argument. *)
Inductive split_type := SUnknown | NotInside | EdgeLengthNotEnough | OnlyLocalQualityNotEnough | OnlyNeighQualityNotEnough | BothQualityNotEnough |
  OnlyLocalAlignedNotRespect | OnlyNeighAlignedNotRespect | BothAlignedNotRespect | ToSplit.
Record edge_check := EdgeCheck { ec_inside : bool; ec_length : bool; ec_local_quality : bool; ec_quality : bool; ec_neigh_quality : list bool;
  ec_local_aligned : bool; ec_aligned : bool; ec_neigh_aligned : list bool; ec_to_split : bool; ec_type : split_type }.

(** The state of one of the two loops over the neighbours: type, local flag, common flag, flags of the neighbours. *)
Record judged := Judged { ju_type : split_type; ju_local : bool; ju_all : bool; ju_flags : list bool }.
(** The loops over the neighbours, RU2 907-937 and 950-996, which differ in what is asked of a neighbour ([judge]) and in the three types. *)
Definition judge_step (judge : N -> outcome bool) (local neigh both : split_type) (e : nat) (own : N) (m : mesh) (st : judged) (k : nat) : outcome judged :=
  h ← RelHas R12 e k m;
  if negb h then Ok st
  else
    f ← RelGet R12 e k m;
    ok ← judge f;
    flags ← vset (ju_flags st) k ok;
    let '(t, l) := if bool_decide (f = own) && negb ok then (if negb (ju_all st) then both else local, false) else (ju_type st, ju_local st) in
    let '(t, a) := if negb ok then (if negb l then both else neigh, false) else (t, ju_all st) in
    Ok (Judged t l a flags).
Definition judge_neighbours (judge : N -> outcome bool) (local neigh both : split_type) (e : nat) (own : N) (m : mesh) (t : split_type) : outcome judged :=
  n ← RelNumber R12 e m;
  ofold (judge_step judge local neigh both e own m) (seq 0 (N.to_nat n)) (Judged t true true (replicate (N.to_nat n) true)).

(** The sum over the edges of a neighbour with the same alignment, RU2 957-969. *)
Definition aligned_step (lengths : list (list Qc)) (aligned : list N) (a : N) (f : N) (m : mesh) (st : nat * Qc) (k : nat) : outcome (nat * Qc) :=
  x ← RelGet E2 (N.to_nat f) k m;
  b ← vat aligned (N.to_nat x);
  if bool_decide (b = a) then
    ls ← vget lengths (N.to_nat f);
    l ← vget ls k;
    Ok (S st.1, (st.2 + l)%Qc)
  else Ok st.
Definition aligned_edges (lengths : list (list Qc)) (aligned : list N) (a : N) (m : mesh) (f : N) : outcome (nat * Qc) :=
  n ← RelNumber E2 (N.to_nat f) m;
  ofold (aligned_step lengths aligned a f m) (seq 0 (N.to_nat n)) (0, Q2Qc 0).

(** RefinePolygonCell_IsCell1DToSplit, RU2 866-1003: [inside] says whether the type of the intersection is [InsideEdge], [k] is its index. *)
Definition IsCell1DToSplit (g : geo_config) (e : nat) (own : N) (inside : bool) (k : nat) (lengths : list (list Qc)) (quality_weight aligned_weight : Qc)
  (quality : list Qc) (aligned : list N) (m : mesh) : outcome edge_check :=
  if negb inside then Ok (EdgeCheck false false false false [] false false [] false NotInside)
  else
    ls ← vget lengths (N.to_nat own);
    l ← vget ls k;
    let half_length := (Q2Qc (1 # 2) * l)%Qc in
    if IsValueZero g half_length (Tolerance1D g) then Ok (EdgeCheck true false false false [] false false [] false EdgeLengthNotEnough)
    else
      q ← judge_neighbours (fun f => x ← vget quality (N.to_nat f); Ok (IsValueGreaterOrEqual g half_length (quality_weight * x)%Qc (Tolerance1D g)))
            OnlyLocalQualityNotEnough OnlyNeighQualityNotEnough BothQualityNotEnough e own m SUnknown;
      if negb (ju_all q) then Ok (EdgeCheck true true (ju_local q) false (ju_flags q) false false [] false (ju_type q))
      else
        a ← vat aligned e;
        r ← judge_neighbours (fun f =>
                s ← aligned_edges lengths aligned a m f;
                Ok (IsValueGreaterOrEqual g half_length (aligned_weight * s.2 / Q2Qc (inject_Z (Z.of_nat (s.1 + 1))))%Qc (Tolerance1D g)))
              OnlyLocalAlignedNotRespect OnlyNeighAlignedNotRespect BothAlignedNotRespect e own m (ju_type q);
        if negb (ju_all r) then Ok (EdgeCheck true true (ju_local q) true (ju_flags q) (ju_local r) false (ju_flags r) false (ju_type r))
        else Ok (EdgeCheck true true (ju_local q) true (ju_flags q) (ju_local r) true (ju_flags r) true ToSplit).
