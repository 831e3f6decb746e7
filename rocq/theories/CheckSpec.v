(** * What a checked mesh is. *)
From Coq Require Import QArith Qcanon.
From Verif Require Import Base QcTac FillModel GeoModel MapModel PointModel PointSpec PolyModel PolySpec HullModel HullSpec CsrModel MeshModel
  UtilSpec RefineModel RefineSpec CheckModel.
Local Open Scope nat_scope.

(** Edge [e] goes from [o] to [t]. *)
Definition ends (m : mesh) (e : nat) (o t : N) : Prop := Cell1DOrigin e m = Ok o /\ Cell1DEnd e m = Ok t.
(** The reference [v] is a cell of dimension [d]. *)
Definition exists_in (d : dim) (m : mesh) (v : N) : Prop := (v < N.of_nat (num d m))%N.
(** The polygons of the mesh have as many edges as vertices. *)
Definition balanced (m : mesh) : Prop :=
  forall c vs es, RelRow V2 c m = Ok vs -> RelRow E2 c m = Ok es -> length vs = length es.

(** The edge joins two different existing vertices, which no other edge joins. *)
Definition good_edge (m : mesh) (e : nat) : Prop :=
  exists o t, ends m e o t /\ exists_in D0 m o /\ exists_in D0 m t /\ o <> t /\ forall f, f <> e -> ~ joins m (N.of_nat f) o t.
(** The edges of the polygon exist, are different, and each one joins the vertex at its position with the next one. *)
Definition good_sides (m : mesh) (c : nat) : Prop :=
  exists vs es, RelRow V2 c m = Ok vs /\ RelRow E2 c m = Ok es /\ NoDup es /\ Forall (exists_in D1 m) es /\
    forall k e v w, es !! k = Some e -> vs !! k = Some v -> vs !! ((k + 1) mod length es) = Some w -> joins m e v w.
(** The polygon has the edge: where the edge first occurs, it joins the vertex at that position with the next one. *)
Definition bordered_by (m : mesh) (c e : nat) : Prop :=
  exists vs es k v w, RelRow V2 c m = Ok vs /\ RelRow E2 c m = Ok es /\ Forall (exists_in D1 m) es /\
    es !! k = Some (N.of_nat e) /\ (forall j, j < k -> es !! j <> Some (N.of_nat e)) /\
    vs !! k = Some v /\ vs !! ((k + 1) mod length es) = Some w /\ joins m (N.of_nat e) v w.
(** The edge has room for neighbours, and all its neighbours have the edge. *)
Definition good_neighbours (m : mesh) (e : nat) : Prop :=
  exists ns, RelRow R12 e m = Ok ns /\ ns <> [] /\ forall c, N.of_nat c ∈ ns -> c < num D2 m -> bordered_by m c e.
(** Two polygons have neither the same vertices nor the same edges, in whatever order. *)
Definition different (m : mesh) (c d : nat) : Prop :=
  forall vs vs' es es', RelRow V2 c m = Ok vs -> RelRow V2 d m = Ok vs' -> RelRow E2 c m = Ok es -> RelRow E2 d m = Ok es' ->
    ~ vs ≡ₚ vs' /\ ~ es ≡ₚ es'.

(** ** Measures *)

(** Vertex [v] is at the point [p]. *)
Definition placed (A : arith) (m : mesh) (v : nat) (p : vec3) : Prop := exists x y z,
  Cell0DCoordinates v m = Ok (x, y, z) /\ p = (value A x, value A y, value A z).
(** The squared distance of two points; their distance is larger than both tolerances. *)
Definition distance2 (p q : vec3) : Qc :=
  ((q.1.1 - p.1.1) * (q.1.1 - p.1.1) + (q.1.2 - p.1.2) * (q.1.2 - p.1.2) + (q.2 - p.2) * (q.2 - p.2))%Qc.
Definition apart (g : geo_config) (p q : vec3) : Prop :=
  (MinTolerance g * MinTolerance g < distance2 p q /\ cfgTolerance1D g * cfgTolerance1D g < distance2 p q)%Qc.
(** [ps] are the points of the vertices of polygon [c], in turn. *)
Definition outline (A : arith) (m : mesh) (c : nat) (ps : list vec3) : Prop :=
  exists vs, RelRow V2 c m = Ok vs /\ Forall2 (fun v p => placed A m (N.to_nat v) p) vs ps.
(** The signed area of the polygon: the triangles between the origin and the sides. *)
Definition signed_area (ps : list vec3) : Qc := total_area (fan_closed (0, 0, 0)%Qc ps).

(** ** The mesh passes the checks which are not about convexity *)
Record plane_mesh (A : arith) (k : config2D) (m : mesh) : Prop := {
  pm_dimension : mdim m = 2;
  pm_flat : Cell0D_CheckCoordinates2D k = true ->
    0 < num D0 m /\ forall v p, placed A m v p -> (qabs p.2 <= cfgTolerance1D (geo A))%Qc;
  pm_points : Cell0D_CheckDuplications k = true ->
    forall v w p q, v <> w -> placed A m v p -> placed A m w q -> apart (geo A) p q;
  pm_edges : forall e, e < num D1 m -> good_edge m e;
  pm_neighbours : Cell1D_CheckNeighbours k = true -> forall e, e < num D1 m -> good_neighbours m e;
  pm_lengths : Cell1D_CheckMeasure k = true ->
    forall e o t p q, ends m e o t -> placed A m (N.to_nat o) p -> placed A m (N.to_nat t) q -> apart (geo A) p q;
  pm_sides : Cell2D_CheckEdges k = true -> forall c, c < num D2 m -> good_sides m c;
  pm_polygons : Cell2D_CheckDuplications k = true -> forall c d, c <> d -> different m c d;
  pm_areas : Cell2D_CheckMeasure k = true -> forall c, c < num D2 m -> exists ps, outline A m c ps /\ accepted (geo A) ps /\
    (MinTolerance (geo A) < signed_area ps /\ qabs (Tolerance2D A) < signed_area ps)%Qc
}.

(** ** Convexity *)

(** There is a line through [p] which has none of the points on its right. *)
Definition supported (ps : list vec3) (p : vec3) : Prop := exists q, q.1 <> p.1 /\ forall x, x ∈ ps -> (0 <= orient p q x)%Qc.
(** A flat polygon whose corners are different and not on one line. *)
Definition proper (vs : list vec3) : Prop := Forall flat vs /\ (2 < length vs)%nat /\ NoDup (corners vs) /\ ~ on_one_line (corners vs).

(** ** Solid meshes *)

(** The edges of the face exist, no two of them go from the same vertex to the same vertex, and each one joins the vertex at
    its position with the next one. *)
Definition good_border (m : mesh) (c : nat) : Prop :=
  exists vs es, RelRow V2 c m = Ok vs /\ RelRow E2 c m = Ok es /\ Forall (exists_in D1 m) es /\
    (forall j k e f o t, j <> k -> es !! j = Some e -> es !! k = Some f -> ends m (N.to_nat e) o t -> ~ ends m (N.to_nat f) o t) /\
    forall k e v w, es !! k = Some e -> vs !! k = Some v -> vs !! ((k + 1) mod length es) = Some w -> joins m e v w.
(** The edges of the polyhedron are different; they are the edges of its faces. *)
Definition closed_by_faces (m : mesh) (c : nat) : Prop :=
  exists es fs, RelRow E3 c m = Ok es /\ RelRow F3 c m = Ok fs /\
    NoDup es /\ Forall (exists_in D1 m) es /\ Forall (exists_in D2 m) fs /\
    forall e, e ∈ es <-> exists f fe, f ∈ fs /\ RelRow E2 (N.to_nat f) m = Ok fe /\ e ∈ fe.
(** The faces of the polyhedron are active; their vertices and edges are vertices and edges of the polyhedron. *)
Definition good_faces (m : mesh) (c : nat) : Prop :=
  exists vs es fs, RelRow V3 c m = Ok vs /\ RelRow E3 c m = Ok es /\ RelRow F3 c m = Ok fs /\
    forall f, f ∈ fs -> active D2 m (N.to_nat f) = true /\
      exists fv fe, RelRow V2 (N.to_nat f) m = Ok fv /\ RelRow E2 (N.to_nat f) m = Ok fe /\ fv ⊆ vs /\ fe ⊆ es.
(** Two cells differ in all the attributes of the list, in whatever order. *)
Definition different_in (rs : list rel) (m : mesh) (c d : nat) : Prop :=
  forall r l l', r ∈ rs -> RelRow r c m = Ok l -> RelRow r d m = Ok l' -> ~ l ≡ₚ l'.
(** A polyhedron with more edges than vertices. *)
Definition edgy (m : mesh) (c : nat) : Prop :=
  forall vs es, RelRow V3 c m = Ok vs -> RelRow E3 c m = Ok es -> length vs < length es.

(** The mesh passes the checks of the solid meshes. *)
Record solid_mesh (A : arith) (k : config3D) (m : mesh) : Prop := {
  sm_dimension : mdim m = 3;
  sm_points : Solid_Cell0D_CheckDuplications k = true -> forall v w p q, v <> w -> active D0 m v = true -> active D0 m w = true ->
    placed A m v p -> placed A m w q -> apart (geo A) p q;
  sm_edges : Solid_Cell1D_CheckDuplications k = true -> forall e, active D1 m e = true ->
    exists o t, ends m e o t /\ exists_in D0 m o /\ exists_in D0 m t /\
      (forall f, ~ ends m f t o) /\ forall f, f <> e -> active D1 m f = true \/ f < e -> ~ ends m f o t;
  sm_lengths : Solid_Cell1D_CheckMeasure k = true -> forall e, active D1 m e = true -> exists o t p q,
    ends m e o t /\ placed A m (N.to_nat o) p /\ placed A m (N.to_nat t) q /\ apart (geo A) p q;
  sm_sides : Solid_Cell2D_CheckEdges k = true -> forall c, active D2 m c = true -> good_border m c;
  sm_faces : Solid_Cell2D_CheckDuplications k = true -> forall c d, c <> d -> active D2 m c = true -> active D2 m d = true ->
    different_in [V2; E2] m c d;
  sm_cells : Solid_Cell3D_CheckDuplications k = true -> forall c d, c <> d -> active D3 m c = true -> active D3 m d = true ->
    different_in [V3; E3; F3] m c d;
  sm_active : Solid_Cell3D_CheckEdgesAreActive k = true -> forall c es, active D3 m c = true -> RelRow E3 c m = Ok es ->
    forall e, e ∈ es -> active D1 m (N.to_nat e) = true;
  sm_closed : Solid_Cell3D_CheckEdges k = true -> forall c, active D3 m c = true ->
    closed_by_faces m c;
  sm_inside : Solid_Cell3D_CheckFaces k = true -> forall c, active D3 m c = true -> good_faces m c
}.
