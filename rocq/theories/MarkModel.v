(** * Markers along a line, and the cells a mesh was refined from.
    Files: MU2 = GeDiM/src/Mesh/MeshUtilities2D.cpp; GUP = GeDiM/src/Geometry/GeometryUtilities_Point.cpp. *)
From Coq Require Import QArith Qcanon.
From Verif Require Import Base FillModel GeoModel MapModel PointModel PolyModel HullModel CsrModel MeshModel UtilModel RefineModel.
Local Open Scope nat_scope.

(** IsPointOnLine, GUP 99-111: [l] is the squared length of the tangent, given by the caller. *)
Definition IsPointOnLine (g : geo_config) (p o t : vec3) (l : Qc) : bool :=
  let d := vsub p o in
  let s := Tolerance1DSquared g in
  IsValueZero g (norm2 d) s || IsValueZero g (norm2 (vcross d t) / l)%Qc s.

(** The loop over the vertices, MU2 567-575, 597-626: the mesh and the vertices found; [on] is the test. *)
Definition mark_vertices (A : arith) (on : vec3 -> outcome bool) (marker : N) (m : mesh) : outcome (mesh * list bool) :=
  ofold (fun s v =>
    p ← Point A v (fst s);
    b ← on p;
    if b : bool then
      bits ← vset (snd s) v true;
      m' ← SetMarker D0 v marker (fst s);
      Ok (m', bits)
    else Ok s) (seq 0 (num D0 m)) (m, replicate (num D0 m) false).

(** The loop over the edges, MU2 578-586, 628-636: [operator[]] of [vertices_on_line] is not checked, and the second end is
    read only if the first one was found. *)
Definition mark_edges (bits : list bool) (marker : N) (m : mesh) : outcome mesh :=
  ofold (fun m s =>
    o ← Cell1DOrigin s m;
    t ← Cell1DEnd s m;
    b ← vget bits (N.to_nat o);
    if b : bool then
      c ← vget bits (N.to_nat t);
      if c : bool then SetMarker D1 s marker m else Ok m
    else Ok m) (seq 0 (num D1 m)) m.

(** SetMeshMarkersOnLine, MU2 559-587. *)
Definition SetMeshMarkersOnLine (A : arith) (o t : vec3) (l : Qc) (marker : N) (m : mesh) : outcome mesh :=
  r ← mark_vertices A (fun p => Ok (IsPointOnLine (geo A) p o t l)) marker m;
  mark_edges (snd r) marker (fst r).

(** The test of SetMeshMarkersOnSegment, MU2 602-622: positions beside the segment or on its line outside it are skipped. *)
Definition on_segment (g : geo_config) (o t : vec3) (l : Qc) (p : vec3) : outcome bool :=
  if IsPointOnLine g p o t l then
    r ← PointSegmentPosition g p o (vadd o t);
    Ok (match r with OnSegmentOrigin | OnSegmentEnd | InsideSegment => true | _ => false end)
  else Ok false.

(** SetMeshMarkersOnSegment, MU2 589-637. *)
Definition SetMeshMarkersOnSegment (A : arith) (o t : vec3) (l : Qc) (marker : N) (m : mesh) : outcome mesh :=
  r ← mark_vertices A (on_segment (geo A) o t l) marker m;
  mark_edges (snd r) marker (fst r).

(** MeshCell2DRoots, MU2 639-653.  The inner [while] loop has no bound in the code: [fuel] is one. *)
Fixpoint root_of (fuel : nat) (c : nat) (m : mesh) : outcome nat :=
  match fuel with
  | 0 => OutOfFuel
  | S fuel =>
      h ← HasOriginal D2 c m;
      if h : bool then
        o ← Original D2 c m;
        root_of fuel (N.to_nat o) m
      else Ok c
  end.
Definition MeshCell2DRoots (fuel : nat) (m : mesh) : outcome (list nat) :=
  omapM (fun c => root_of fuel c m) (seq 0 (num D2 m)).
