(** * The tangents of the edges of the faces of a polyhedron: what the callers expect. *)
From Coq Require Import QArith Qcanon.
From Verif Require Import Base FillModel MapModel.
Local Open Scope nat_scope.

(** Tangent [k] leads from point [k] to the next one, and back to the first one from the last. *)
Definition leads_round (points tangents : list vec3) : Prop := length tangents = length points /\
  forall k a b, points !! k = Some a -> points !! ((k + 1) mod length points) = Some b -> tangents !! k = Some (vsub b a).
Definition sum3 (l : list vec3) : vec3 := foldr vadd (0%Qc, 0%Qc, 0%Qc) l.
