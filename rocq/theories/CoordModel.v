(** * Equispaced and random coordinates.
    File: GU = GeDiM/src/Geometry/GeometryUtilities.cpp.  Reals are exact rationals; sizes are natural numbers, so that [size + 2]
    does not wrap. *)
From stdpp Require Import sorting.
From Coq Require Import QArith Qcanon Qround.
From Verif Require Import Base QcTac GeoModel CommonModel.
Local Open Scope nat_scope.

Definition qn (n : nat) : Qc := Q2Qc (inject_Z (Z.of_nat n)).

(** Eigen's [VectorXd::LinSpaced], used in GU 94-95: one value is the upper end. *)
Definition lin_spaced (n : nat) (lo hi : Qc) : list Qc :=
  if n =? 1 then [hi] else (fun i => lo + qn i * ((hi - lo) / qn (n - 1)))%Qc <$> seq 0 n.

(** EquispaceCoordinates(size, origin, end, insertExtremes), GU 83-106. *)
Definition EquispaceCoordinates (size : nat) (origin end_ : Qc) (extremes : bool) : outcome (list Qc) :=
  if size =? 0 then Ok []
  else if (size =? 1) && extremes then Throw
  else
    let generated := if extremes then lin_spaced size origin end_ else lin_spaced (size + 2) origin end_ in
    let n := if extremes then length generated else length generated - 2 in
    omapM (fun c => vget generated (if extremes then c else c + 1)) (seq 0 n).

(** A real made an [unsigned int]: the fraction is dropped; too large a value is undefined behaviour. *)
Definition to_unsigned (x : Qc) : outcome N :=
  let z := Qfloor x in if (0 <=? z)%Z && (z <? 4294967296)%Z then Ok (Z.to_N z) else UB.

(** EquispaceCoordinates(step, insertExtremes), GU 75-81; [+ 1] and [- 1] wrap. *)
Definition EquispaceSteps (g : geo_config) (step : Qc) (extremes : bool) : outcome (list Qc) :=
  require (IsValuePositive g step (Tolerance1D g) && negb (bool_decide (CompareValues g step 1 (Tolerance1D g) = SecondBeforeFirst)));;
  n ← to_unsigned (1 / step + Q2Qc (1 # 2))%Qc;
  EquispaceCoordinates (N.to_nat ((if extremes then n + 1 else n + 4294967295) mod 4294967296)) 0 1 extremes.

(** The middle of the first and the second value put between them, and that of the last two, GU 147-157. *)
Definition fill_front (l : list Qc) : outcome (list Qc) :=
  match l with x :: y :: l => Ok (x :: (Q2Qc (1 # 2) * (x + y))%Qc :: y :: l) | _ => UB end.
Definition fill_back (l : list Qc) : outcome (list Qc) :=
  match rev l with y :: x :: l => Ok (rev l ++ [x; (Q2Qc (1 # 2) * (y + x))%Qc; y]) | _ => UB end.

(** RandomCoordinates, GU 108-160: [shuffle] is what [std::shuffle] does with the given seed. *)
Definition RandomCoordinates (g : geo_config) (shuffle : list nat -> list nat) (size : nat) (extremes : bool) (minDistance : Qc) : outcome (list Qc) :=
  if size =? 0 then Ok []
  else if (size =? 1) && extremes then Throw
  else
    require (IsValuePositive g minDistance (Tolerance1D g));;
    mx ← to_unsigned (1 / minDistance)%Qc;
    let max_value := N.to_nat mx in
    require (size <=? max_value);;
    let n := if extremes then size - 2 else size in
    r ← (if n =? 0 then Ok [] else RandomArrayNoRepetition shuffle n max_value);
    let inner := filter (fun p => ~ (extremes = true /\ (p = 0 \/ p = max_value))) (merge_sort le r) in
    let l := (if extremes then [0%Qc] else []) ++ ((fun p => qn p / qn max_value)%Qc <$> inner) ++ (if extremes then [1%Qc] else []) in
    l ← (if length l <? size then fill_front l else Ok l);
    if length l <? size then fill_back l else Ok l.
