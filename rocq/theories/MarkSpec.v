(** * Marking the cells at a place; ancestors of polygons: what a caller expects. *)
From Coq Require Import QArith Qcanon.
From Verif Require Import Base FillModel GeoModel MapModel PointModel PolyModel HullModel CsrModel MeshModel MeshSpec MeshRep MeshHist RefineModel.
Local Open Scope nat_scope.

(** The ends of every edge are vertices of the mesh. *)
Definition edges_have_ends (m : mesh) : Prop :=
  forall e o t, Cell1DOrigin e m = Ok o -> Cell1DEnd e m = Ok t -> N.to_nat o < num D0 m /\ N.to_nat t < num D0 m.

(** [m'] is [m], but the vertices at the place [on] and the edges with both ends there have the marker [k]. *)
Record marked_at (A : arith) (on : vec3 -> Prop) (k : N) (m m' : mesh) : Prop := {
  ma_dim : mdim m' = mdim m;
  ma_num : forall d, num d m' = num d m;
  ma_vertex_on : forall v p, Point A v m = Ok p -> on p -> Marker D0 v m' = Ok k;
  ma_vertex_off : forall v p, Point A v m = Ok p -> ~ on p -> Marker D0 v m' = Marker D0 v m;
  ma_edge_on : forall e o t p q, Cell1DOrigin e m = Ok o -> Cell1DEnd e m = Ok t ->
    Point A (N.to_nat o) m = Ok p -> Point A (N.to_nat t) m = Ok q -> on p -> on q -> Marker D1 e m' = Ok k;
  ma_edge_off : forall e o t p q, Cell1DOrigin e m = Ok o -> Cell1DEnd e m = Ok t ->
    Point A (N.to_nat o) m = Ok p -> Point A (N.to_nat t) m = Ok q -> ~ (on p /\ on q) -> Marker D1 e m' = Marker D1 e m;
  ma_other : forall d i, d <> D0 -> d <> D1 -> Marker d i m' = Marker d i m;
  ma_active : forall d i, IsActive d i m' = IsActive d i m;
  ma_points : forall v, Cell0DCoordinates v m' = Cell0DCoordinates v m;
  ma_ends : forall e, Cell1DOrigin e m' = Cell1DOrigin e m /\ Cell1DEnd e m' = Cell1DEnd e m;
  ma_rows : forall r i, RelRow r i m' = RelRow r i m;
  ma_original : forall d i, d <> D0 -> Original d i m' = Original d i m;
  ma_replaced : forall d i j, replaced_by d m' i j <-> replaced_by d m i j
}.

(** The points [o + c * t], for every [c], and for [c] from 0 to 1. *)
Definition moved (o t : vec3) (c : Qc) : vec3 := vadd o (vscale c t).
Definition of_the_line (o t p : vec3) : Prop := exists c, p = moved o t c.
Definition of_the_segment (o t p : vec3) : Prop := exists c, (0 <= c /\ c <= 1)%Qc /\ p = moved o t c.

(** Polygon [c] was made from polygon [b]. *)
Definition made_from (m : mesh) (c b : nat) : Prop := Original D2 c m = Ok (N.of_nat b) /\ b < num D2 m.
(** [r] is the first ancestor of [c]. *)
Definition first_ancestor (m : mesh) (c r : nat) : Prop := rtc (made_from m) c r /\ forall b, ~ made_from m r b.
(** A polygon which is its own ancestor. *)
Definition own_ancestor (m : mesh) : Prop := exists c, tc (made_from m) c c.
