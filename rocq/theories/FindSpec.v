(** * Where a point lies in a mesh of polygons: what the callers expect. *)
From Coq Require Import QArith Qcanon.
From Verif Require Import Base QcTac FillModel GeoModel MapModel PointModel PointSpec CsrModel MeshModel MeshSpec MeshHist JoinSpec OutlineSpec.
Local Open Scope nat_scope.

(** [pos] is the place of each vertex.  The active polygons are convex and counterclockwise, with edge [k] between vertices [k] and
    [k+1]; the lists handed over are the places of their vertices and their boxes. *)
Definition drawn (pos : N -> vec3) (m : mesh) (vss : list (list vec3)) (boxes : list (vec3 * vec3)) : Prop :=
  forall i, IsActive D2 i m = Ok true -> exists row es b, RelRow V2 i m = Ok row /\ RelRow E2 i m = Ok es /\ closed_line m row es /\
    2 < length row /\ left_turning (pos <$> row) /\ convex (pos <$> row) /\
    vss !! i = Some (pos <$> row) /\ PointsBoundingBox (pos <$> row) = Ok b /\ boxes !! i = Some b.

(** The active polygon [i] contains the point: the point is on the right of none of its edges. *)
Definition contains (pos : N -> vec3) (m : mesh) (p : vec3) (i : nat) : Prop :=
  IsActive D2 i m = Ok true /\ exists row, RelRow V2 i m = Ok row /\
    forall k, (0 <= orient (corner (pos <$> row) k) (corner (pos <$> row) (S k)) p)%Qc.

(** The point is the vertex, or between the ends of the edge, or on the left of all the edges of the polygon. *)
Definition lies_on (pos : N -> vec3) (m : mesh) (p : vec3) (x : dim * N) : Prop :=
  match x.1 with
  | D0 => p = pos x.2
  | D1 => exists u v, joins m x.2 u v /\ exists c, (0 < c)%Qc /\ (c < 1)%Qc /\ on_line (pos u) (pos v) c p
  | D2 => exists row, RelRow V2 (N.to_nat x.2) m = Ok row /\ forall k, (0 < orient (corner (pos <$> row) k) (corner (pos <$> row) (S k)) p)%Qc
  | D3 => False
  end.
(** It is the polygon, or one of its edges or vertices. *)
Definition part_of (m : mesh) (i : nat) (x : dim * N) : Prop :=
  match x.1 with
  | D0 => exists row, RelRow V2 i m = Ok row /\ x.2 ∈ row
  | D1 => exists es, RelRow E2 i m = Ok es /\ x.2 ∈ es
  | D2 => x.2 = N.of_nat i
  | D3 => False
  end.

(** The polygons from number [start] on, and from the last one on to the first. *)
Definition from_polygon (start n : nat) : list nat := (fun c => (start + c) mod n) <$> seq 0 n.
