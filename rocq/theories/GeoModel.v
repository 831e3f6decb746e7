(** * Model of the comparisons of GeDiM/src/Geometry/GeometryUtilities.{hpp,cpp}, in exact rational arithmetic. *)
From Verif Require Export QcTac.

(** GeometryUtilitiesConfig, GeometryUtilities.hpp:22-33; the 2D and 3D tolerances are not used by the modelled code. *)
Record geo_config := GeoConfig { MinTolerance : Qc; cfgTolerance1D : Qc }.

(** Tolerance1D, GeometryUtilities.hpp:797-800. *)
Definition Tolerance1D (g : geo_config) : Qc := qmax (MinTolerance g) (cfgTolerance1D g).

(** CompareTypes, GeometryUtilities.hpp:42-48 ([Unknown] is never the result of CompareValues). *)
Inductive compare_type := FirstBeforeSecond | Coincident | SecondBeforeFirst.

Global Instance compare_type_eq_dec : EqDecision compare_type.
Proof. solve_decision. Defined.

(** CompareValues, GeometryUtilities.cpp:161-173. *)
Definition CompareValues (g : geo_config) (first second tolerance : Qc) : compare_type :=
  let max_tolerance := qmax (qabs tolerance) (MinTolerance g) in
  let relativeValue := if qle (qabs first) max_tolerance || qle (qabs second) max_tolerance then 1%Qc else qabs first in
  let difference := (second - first)%Qc in
  if qle (qabs difference) (max_tolerance * relativeValue) then Coincident
  else if qlt difference (- max_tolerance * relativeValue) then SecondBeforeFirst
  else FirstBeforeSecond.

(** GeometryUtilities.hpp:842-894. *)
Definition AreValuesEqual g first second tol : bool := bool_decide (CompareValues g first second tol = Coincident).
Definition IsValueGreater g first second tol : bool := bool_decide (CompareValues g first second tol = SecondBeforeFirst).
Definition IsValueGreaterOrEqual g first second tol : bool :=
  match CompareValues g first second tol with SecondBeforeFirst | Coincident => true | _ => false end.
Definition IsValueLower g first second tol : bool := negb (IsValueGreaterOrEqual g first second tol).
Definition IsValueLowerOrEqual g first second tol : bool := negb (IsValueGreater g first second tol).
Definition IsValuePositive g value tol : bool := bool_decide (CompareValues g 0 value tol = FirstBeforeSecond).
Definition IsValueNegative g value tol : bool := bool_decide (CompareValues g 0 value tol = SecondBeforeFirst).
Definition IsValueZero g value tol : bool := bool_decide (CompareValues g 0 value tol = Coincident).
