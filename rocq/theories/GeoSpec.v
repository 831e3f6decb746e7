(** * Notions used in the statements about comparisons. *)
From Verif Require Import GeoModel.
Local Open Scope Qc_scope.

(** The difference under which [a] and [b] are equal: the tolerance (never below the minimum one), absolute when either
    value is within it, relative to the first value otherwise. *)
Definition allowed_difference (g : geo_config) (a b tol : Qc) : Qc :=
  let t := qmax (qabs tol) (MinTolerance g) in
  if bool_decide (qabs a <= t \/ qabs b <= t) then t else t * qabs a.

Definition exchanged (c : compare_type) : compare_type :=
  match c with FirstBeforeSecond => SecondBeforeFirst | SecondBeforeFirst => FirstBeforeSecond | Coincident => Coincident end.
