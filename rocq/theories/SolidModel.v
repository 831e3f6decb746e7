(** * The position of a point with respect to a convex polyhedron, and the polyhedra of a mesh in which it lies.
    Files: GUP = GeDiM/src/Geometry/GeometryUtilities_Point.cpp, MU3 = GeDiM/src/Mesh/MeshUtilities3D.cpp. *)
From Coq Require Import QArith Qcanon.
From Verif Require Import Base QcTac FillModel GeoModel MapModel PointModel.
Local Open Scope Qc_scope.

(** The arguments of PointPolyhedronPosition that belong to one face, GUP 436-444: the code has one vector for each of them, read at
    the same index.  [fc_columns]: the columns of the matrix of the face, vertex and edge. *)
Record face := Face { fc_columns : list (N * N); fc_points : list vec3; fc_plane : list vec3; fc_normal : vec3; fc_out : bool;
  fc_translation : vec3; fc_rotation : mat3 }.

(** PointPlanePositionTypes, GeometryUtilities.hpp. *)
Inductive plane_position := OnPlane | Negative | Positive.
(** PointPlanePosition of PointPlaneDistance, GUP 171-191: the distance is the quotient of [n . (p - o)] by the norm of [n]. *)
Definition PointPlanePosition (g : geo_config) (p n o : vec3) : plane_position :=
  let d := vsub p o in
  let t := Tolerance1D g in
  let x := vdot n d in
  if norm_zero g (norm2 d) t then OnPlane
  else if norm_zero g (x * x / norm2 n) t then OnPlane
  else if quotient_negative g x (norm2 n) t then Negative
  else Positive.

(** The transposed matrix times a vector. *)
Definition tapply (m : mat3) (x : vec3) : vec3 := (vdot m.1.1 x, vdot m.1.2 x, vdot m.2 x).
(** RotatePointsFrom3DTo2D with the transposed matrix, for one point, GeometryUtilities.hpp 1919-1927. *)
Definition to_plane (r : mat3) (t p : vec3) : vec3 := let q := tapply r (vsub p t) in (q.1.1, q.1.2, 0).

(** PointPolyhedronPositionResult, GeometryUtilities.hpp ([Unknown] is never a result of the first function; Internal_indices is not
    modelled). *)
Inductive solid_position := SOutside | SBorderFace (f : nat) | SBorderEdge (e : N) | SBorderVertex (v : N) | SInside.

(** PointPolyhedronPosition, GUP 436-511: the faces in turn; [total] is their number. *)
Fixpoint solid_loop (g : geo_config) (p : vec3) (total : nat) (fs : list face) (f count : nat) : outcome solid_position :=
  match fs with
  | [] => Ok (if (count =? total)%nat then SInside else SOutside)
  | c :: fs =>
      o ← vget (fc_points c) 0;
      match PointPlanePosition g p (vscale (if fc_out c then 1 else - (1)) (fc_normal c)) o with
      | Positive => solid_loop g p total fs (S f) count
      | Negative => solid_loop g p total fs (S f) (S count)
      | OnPlane =>
          r ← PointPolygonPosition g (to_plane (fc_rotation c) (fc_translation c) p) (fc_plane c);
          match r with
          | BorderVertex k => x ← vget (fc_columns c) k; Ok (SBorderVertex x.1)
          | BorderEdge k => x ← vget (fc_columns c) k; Ok (SBorderEdge x.2)
          | Inside => Ok (SBorderFace f)
          | Outside => solid_loop g p total fs (S f) count
          end
      end
  end.
Definition PointPolyhedronPosition (g : geo_config) (p : vec3) (fs : list face) : outcome solid_position :=
  solid_loop g p (length fs) fs 0 0.
