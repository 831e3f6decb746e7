(** * The tangents of the edges of the faces of a polyhedron.
    File: GPH = GeDiM/src/Geometry/GeometryUtilities_Polyhedron.cpp.  Coordinates are rational numbers. *)
From Coq Require Import QArith Qcanon.
From Verif Require Import Base FillModel MapModel FacetModel.
Local Open Scope nat_scope.

(** PolyhedronEdgeTangents, GPH 362-373, and SegmentTangent, GeDiM/src/Geometry/GeometryUtilities.hpp:1172-1175. *)
Definition PolyhedronEdgeTangents (vertices : list vec3) (edges : list (nat * nat)) : outcome (list vec3) :=
  omapM (fun e => a ← vget vertices e.1; b ← vget vertices e.2; Ok (vsub b a)) edges.
(** PolyhedronFaceVertices, GPH 375-390. *)
Definition PolyhedronFaceVertices (vertices : list vec3) (faces : list (list (nat * nat))) : outcome (list (list vec3)) :=
  omapM (omapM (fun x => vget vertices x.1)) faces.
(** PolyhedronFaceEdgeDirections, GPH 392-407. *)
Definition PolyhedronFaceEdgeDirections (edges : list (nat * nat)) (faces : list (list (nat * nat))) : outcome (list (list bool)) :=
  omapM (omapM (fun x => e ← vget edges x.2; Ok (e.1 =? x.1))) faces.
(** PolyhedronFaceEdgeTangents, GPH 409-428. *)
Definition PolyhedronFaceEdgeTangents (faces : list (list (nat * nat))) (directions : list (list bool)) (tangents : list vec3) : outcome (list (list vec3)) :=
  omapM (fun '(f, face) =>
    omapM (fun '(k, x) => d ← vget directions f; b ← vget d k; t ← vget tangents x.2; Ok (vscale (if b : bool then 1%Qc else (- (1))%Qc) t))
      (zip (seq 0 (length face)) face)) (zip (seq 0 (length faces)) faces).
