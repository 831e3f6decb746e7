(** * Positions of points with respect to convex polyhedra: what they mean. *)
From Coq Require Import QArith Qcanon.
From Verif Require Import Base QcTac FillModel GeoModel MapModel PointModel PointSpec SolidModel.
Local Open Scope Qc_scope.

(** First point of the face, normal pointing out of the polyhedron, and on which side of the face a point is: negative inside. *)
Definition first_point (c : face) : vec3 := nth 0 (fc_points c) (0, 0, 0).
Definition outward (c : face) : vec3 := if fc_out c then fc_normal c else vscale (- (1)) (fc_normal c).
Definition side (c : face) (p : vec3) : Qc := vdot (outward c) (vsub p (first_point c)).

(** The data of a face: the rotation is orthogonal and, with the translation, takes the plane of the face to the plane z = 0 and its
    points to a convex counterclockwise polygon; each point has a vertex and an edge. *)
Record proper_face (c : face) : Prop := {
  pf_rotation : forall x, mapply (fc_rotation c) (tapply (fc_rotation c) x) = x;
  pf_normal : exists k, k <> 0 /\ fc_normal c = vscale k (fc_rotation c).2;
  pf_points : Forall (fun a => vdot (fc_rotation c).2 (vsub a (fc_translation c)) = 0) (fc_points c);
  pf_plane : fc_plane c = to_plane (fc_rotation c) (fc_translation c) <$> fc_points c;
  pf_many : (2 < length (fc_points c))%nat;
  pf_turns : left_turning (fc_plane c);
  pf_convex : convex (fc_plane c);
  pf_columns : length (fc_columns c) = length (fc_points c)
}.
(** The point, which is in the plane of the face, is on the right of none of its edges. *)
Definition on_face (c : face) (p : vec3) : Prop :=
  side c p = 0 /\ forall k, 0 <= orient (corner (fc_plane c) k) (corner (fc_plane c) (S k)) (to_plane (fc_rotation c) (fc_translation c) p).
(** The convex polyhedron bounded by the faces. *)
Definition in_solid (fs : list face) (p : vec3) : Prop := forall c, c ∈ fs -> side c p <= 0.
(** Each face is what its plane has in common with the polyhedron. *)
Definition proper_solid (fs : list face) : Prop := Forall proper_face fs /\
  forall c p, c ∈ fs -> side c p = 0 -> on_face c p <-> in_solid fs p.

(** Meaning of a position. *)
Definition solid_position_spec (p : vec3) (fs : list face) (r : solid_position) : Prop :=
  match r with
  | SOutside => exists c, c ∈ fs /\ 0 < side c p
  | SBorderFace f => exists c, fs !! f = Some c /\ side c p = 0 /\
      forall k, 0 < orient (corner (fc_plane c) k) (corner (fc_plane c) (S k)) (to_plane (fc_rotation c) (fc_translation c) p)
  | SBorderEdge e => exists c k v a b t, c ∈ fs /\ fc_columns c !! k = Some (v, e) /\ fc_points c !! k = Some a /\
      fc_points c !! ((k + 1) mod length (fc_points c))%nat = Some b /\ 0 < t /\ t < 1 /\ on_line a b t p
  | SBorderVertex v => exists c k e, c ∈ fs /\ fc_columns c !! k = Some (v, e) /\ fc_points c !! k = Some p
  | SInside => forall c, c ∈ fs -> side c p < 0
  end.
