(** * Notions used in the statements about unions of segment meshes. *)
From Verif Require Import GeoModel UnionModel.
Local Open Scope Qc_scope.

(** The distance under which two points are considered the same. *)
Definition same_distance (g : geo_config) : Qc :=
  let t := qmax (MinTolerance g) (cfgTolerance1D g) in qmax (qabs t) (MinTolerance g).
Definition near (g : geo_config) (x y : Qc) : Prop := qabs (x - y) <= same_distance g.

(** Points in increasing order, each more than [d] after the previous one. *)
Definition spaced (d : Qc) (l : list Qc) : Prop :=
  forall i x y, l !! i = Some x -> l !! S i = Some y -> x + d < y.

Definition from_first (t : utype) : bool := match t with UFirst | UBoth => true | _ => false end.
Definition from_second (t : utype) : bool := match t with USecond | UBoth => true | _ => false end.

(** The interval [(x, y)] lies in segment [j] of the mesh [l], up to [d]. *)
Definition inside_segment (d : Qc) (l : list Qc) (j : nat) (x y : Qc) : Prop :=
  exists a b, l !! j = Some a /\ l !! S j = Some b /\ a - d <= x /\ y <= b + d.

(** The interval lies before the first or after the last point of the mesh, up to [d]. *)
Definition outside_mesh (d : Qc) (l : list Qc) (x y : Qc) : Prop :=
  (exists a, l !! 0%nat = Some a /\ y <= a + d) \/ (exists b, last l = Some b /\ b - d <= x).
