(** * Notions used in the statements about the maps from reference elements *)
From Coq Require Import QArith Qcanon.
From Verif Require Import Base QcTac FillModel MapModel.
Local Open Scope Qc_scope.

(** The same third coordinate. *)
Definition level (u v : vec3) : Prop := u.2 = v.2.

(** Twice the signed area of a polygon in the plane of the first two coordinates: shoelace formula. *)
Definition shoelace_term (u v : vec3) : Qc := u.1.1 * v.1.2 - v.1.1 * u.1.2.
Fixpoint shoelace_from (first u : vec3) (vs : list vec3) : Qc :=
  match vs with
  | [] => shoelace_term u first
  | v :: vs => shoelace_term u v + shoelace_from first v vs
  end.
Definition twice_area (vs : list vec3) : Qc := match vs with [] => 0 | v :: vs => shoelace_from v v vs end.

(** The vector product; six times the signed volume of a tetrahedron. *)
Definition cross (u v : vec3) : vec3 :=
  (u.1.2 * v.2 - u.2 * v.1.2, u.2 * v.1.1 - u.1.1 * v.2, u.1.1 * v.1.2 - u.1.2 * v.1.1).
Definition six_volume (v0 v1 v2 v3 : vec3) : Qc := vdot (cross (vsub v1 v0) (vsub v2 v0)) (vsub v3 v0).

(** Convex combinations. *)
Definition convex_point (vs : list vec3) (p : vec3) : Prop :=
  exists ks, length ks = length vs /\ Forall (fun k => 0 <= k) ks /\ foldr Qcplus 0 ks = 1 /\
    p = foldr vadd (0, 0, 0) (zip_with vscale ks vs).

(** A map [f] with the constant differential [m]. *)
Definition has_differential (f : vec3 -> vec3) (m : mat3) : Prop := forall x h, f (vadd x h) = vadd (f x) (mapply m h).
(** [f] and [g] undo each other. *)
Definition undo (f g : vec3 -> vec3) : Prop := forall x, g (f x) = x /\ f (g x) = x.
(** Two matrices whose product is the identity. *)
Definition inverses (m n : mat3) : Prop := forall x, mapply m (mapply n x) = x /\ mapply n (mapply m x) = x.

(** The reference elements by their inequalities. *)
Definition in_reference_triangle (p : vec3) : Prop := 0 <= p.1.1 /\ 0 <= p.1.2 /\ p.1.1 + p.1.2 <= 1 /\ p.2 = 0.
Definition in_reference_square (p : vec3) : Prop := 0 <= p.1.1 <= 1 /\ 0 <= p.1.2 <= 1 /\ p.2 = 0.
Definition in_reference_tetrahedron (p : vec3) : Prop := 0 <= p.1.1 /\ 0 <= p.1.2 /\ 0 <= p.2 /\ p.1.1 + p.1.2 + p.2 <= 1.
Definition in_reference_cube (p : vec3) : Prop := 0 <= p.1.1 <= 1 /\ 0 <= p.1.2 <= 1 /\ 0 <= p.2 <= 1.

(** The parallelepiped with corner [o] and edges [u], [v], [w], the bottom face first. *)
Definition box_vertices (o u v w : vec3) : list vec3 :=
  [o; vadd o u; vadd (vadd o u) v; vadd o v;
   vadd o w; vadd (vadd o u) w; vadd (vadd (vadd o u) v) w; vadd (vadd o v) w].

Definition e1 : vec3 := (1, 0, 0).
Definition e2 : vec3 := (0, 1, 0).
Definition e3 : vec3 := (0, 0, 1).
(** [f] is affine along each of the coordinate directions, with the columns of [m x] as slopes at [x]. *)
Definition partials (f : vec3 -> vec3) (m : vec3 -> mat3) (es : list (vec3 * (mat3 -> vec3))) : Prop :=
  forall e, e ∈ es -> forall x h, f (vadd x (vscale h e.1)) = vadd (f x) (vscale h (e.2 (m x))).
Definition column1 (m : mat3) : vec3 := m.1.1.
Definition column2 (m : mat3) : vec3 := m.1.2.
Definition column3 (m : mat3) : vec3 := m.2.

(** Counter-clockwise strictly convex quadrilateral: every corner turns left. *)
Definition convex_quadrilateral (a b c d : vec3) : Prop :=
  0 < twice_area [d; a; b] /\ 0 < twice_area [a; b; c] /\ 0 < twice_area [b; c; d] /\ 0 < twice_area [c; d; a].

(** A correct affine map: the reference points [ref] go to [vs]; F and FInv undo each other on every matrix of points; the
    matrix returned by J for every point is the differential of F; all determinants are the given [measure]. *)
Definition good_affine (d : affine) (ref vs : list vec3) (measure : Qc) : Prop :=
  F d ref = vs /\ (forall xs, FInv d (F d xs) = xs /\ F d (FInv d xs) = xs) /\
  has_differential (F1 d) (af_matrix d) /\ (forall xs, J d xs = replicate (length xs) (af_matrix d)) /\
  mdet (af_matrix d) = measure /\ af_det d = measure /\ af_det_inverse d = / measure /\
  (forall xs, DetJ2 d xs = replicate (length xs) measure /\ DetJ3 d xs = replicate (length xs) measure).

(** The monomials of degree at most one in each variable. *)
Definition monomials (p : vec3) : list Qc :=
  let '(x, y, z) := p in [1; x; y; z; x * y; x * z; y * z; x * y * z].
