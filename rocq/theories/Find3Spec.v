(** * Where a point lies in a mesh of polyhedra: what the callers expect. *)
From Coq Require Import QArith Qcanon.
From Verif Require Import Base QcTac FillModel GeoModel MapModel PointModel PointSpec CsrModel MeshModel MeshSpec MeshHist OutlineSpec SolidModel SolidSpec.
Local Open Scope nat_scope.

(** The faces [fs] are those of the polyhedron [i]: face [f] is its polygon [f], whose vertices have the places of the points of the face;
    the columns of the face are the positions, among the vertices and edges of the polyhedron, of vertex [k] and of the edge from vertex
    [k] to the next one. *)
Definition faces_of (pos : N -> vec3) (m : mesh) (i : nat) (fs : list face) : Prop :=
  exists vs es polygons, RelRow V3 i m = Ok vs /\ RelRow E3 i m = Ok es /\ RelRow F3 i m = Ok polygons /\
    forall f c, fs !! f = Some c -> exists x row, polygons !! f = Some x /\ RelRow V2 (N.to_nat x) m = Ok row /\ fc_points c = pos <$> row /\
      forall k v e, fc_columns c !! k = Some (v, e) -> exists u w b, vs !! N.to_nat v = Some u /\ row !! k = Some u /\
        row !! ((k + 1) mod length row) = Some w /\ es !! N.to_nat e = Some b /\ joins m b u w.

(** The active polyhedra are convex, their boxes contain them. *)
Definition drawn_solids (pos : N -> vec3) (m : mesh) (solids : list (list face)) (boxes : list (vec3 * vec3)) : Prop :=
  forall i, IsActive D3 i m = Ok true -> exists fs lo hi, solids !! i = Some fs /\ boxes !! i = Some (lo, hi) /\
    proper_solid fs /\ faces_of pos m i fs /\ forall p, in_solid fs p -> in_box lo hi p.

(** The active polyhedron [i] contains the point. *)
Definition solid_contains (m : mesh) (solids : list (list face)) (p : vec3) (i : nat) : Prop :=
  IsActive D3 i m = Ok true /\ exists fs, solids !! i = Some fs /\ in_solid fs p.

(** The cell is part of polyhedron [i] and the point lies on it: it is the vertex, or between the ends of the edge, or in the plane of the
    polygon on the left of all its edges, or on the inner side of all faces. *)
Definition lies_on_part (pos : N -> vec3) (m : mesh) (solids : list (list face)) (p : vec3) (i : nat) (x : dim * N) : Prop :=
  match x.1 with
  | D0 => exists vs, RelRow V3 i m = Ok vs /\ x.2 ∈ vs /\ p = pos x.2
  | D1 => exists es u v t, RelRow E3 i m = Ok es /\ x.2 ∈ es /\ joins m x.2 u v /\ (0 < t)%Qc /\ (t < 1)%Qc /\ on_line (pos u) (pos v) t p
  | D2 => exists polygons row fs c, RelRow F3 i m = Ok polygons /\ x.2 ∈ polygons /\ RelRow V2 (N.to_nat x.2) m = Ok row /\
      solids !! i = Some fs /\ c ∈ fs /\ fc_points c = pos <$> row /\ side c p = Q2Qc 0 /\
      forall k, (0 < orient (corner (fc_plane c) k) (corner (fc_plane c) (S k)) (to_plane (fc_rotation c) (fc_translation c) p))%Qc
  | D3 => x.2 = N.of_nat i /\ exists fs, solids !! i = Some fs /\ forall c, c ∈ fs -> (side c p < 0)%Qc
  end.
