(** * The checks of plane and solid meshes.

    Files modelled: GeDiM/src/Mesh/MeshUtilities2D.cpp ("MU2"), GeDiM/src/Mesh/MeshUtilities3D_CheckMesh.cpp ("MC3"),
    GeDiM/src/Geometry/GeometryUtilities_Polygon.cpp.  The coordinates are read as exact rationals by [value] (RefineModel.v); lengths
    are compared through their squares. *)
From Coq Require Import QArith Qcanon.
From stdpp Require Import sorting.
From Verif Require Import Base QcTac FillModel GeoModel MapModel PointModel PolyModel HullModel CsrModel MeshModel RefineModel.
Local Open Scope nat_scope.

(** A [for] loop whose body only checks. *)
Definition each {X} (f : X -> outcome unit) (l : list X) : outcome unit := ofold (fun _ x => f x) l tt.
(** [for (j = i + 1; j < n; j++)]. *)
Definition above (i n : nat) : list nat := seq (S i) (n - S i).
(** [if (flag) ...]. *)
Definition when (b : bool) (x : outcome unit) : outcome unit := if b then x else Ok tt.

(** [std::sort] of a vector of indices. *)
Definition sorted (l : list N) : list N := merge_sort N.le l.
(** [a.size() != b.size() || !equal(a.begin(), a.end(), b.begin())]. *)
Definition differ (a b : list N) : bool := negb (bool_decide (a = b)).

(** [PointsAreCoincident], GeometryUtilities.hpp:1027-1030; the length of an edge is zero under the same condition, 1164-1167. *)
Definition PointsAreCoincident (g : geo_config) (p q : vec3) : bool := norm_zero g (norm2 (vsub q p)) (Tolerance1D g).

(** PolygonIsConvex, GeometryUtilities_Polygon.cpp:400-414. *)
Fixpoint on_border (g : geo_config) (hull vs : list vec3) : outcome bool :=
  match vs with
  | [] => Ok true
  | v :: vs =>
      r ← PointPolygonPosition g v hull;
      match r with BorderVertex _ | BorderEdge _ => on_border g hull vs | _ => Ok false end
  end.
Definition PolygonIsConvex (g : geo_config) (vs hull : list vec3) : outcome bool :=
  require_polygon_2D g vs;; on_border g hull vs.
(** The test of one polygon, MU2 394-401. *)
Definition IsCellConvex (g : geo_config) (vs : list vec3) : outcome bool :=
  un ← UnalignedPoints g vs;
  us ← ExtractPoints vs un;
  hull ← ConvexHull g us true;
  hs ← ExtractPoints us hull;
  PolygonIsConvex g us hs.

(** Cell0DsCoordinates, Cell2DVerticesCoordinates: MeshMatricesDAO.cpp:272-278, 1005-1011. *)
Definition Points (A : arith) (m : mesh) : outcome (list vec3) := omapM (fun v => Point A v m) (seq 0 (num D0 m)).
Definition CellPoints (A : arith) (c : nat) (m : mesh) : outcome (list vec3) :=
  n ← RelNumber V2 c m;
  omapM (fun k => v ← RelGet V2 c k m; Point A (N.to_nat v) m) (seq 0 (N.to_nat n)).

(** CheckMesh2DConfiguration, MeshUtilities.hpp:25-36. *)
Record config2D := Config2D {
  Cell0D_CheckCoordinates2D : bool;
  Cell0D_CheckDuplications : bool;
  Cell1D_CheckDuplications : bool;
  Cell1D_CheckNeighbours : bool;
  Cell1D_CheckMeasure : bool;
  Cell2D_CheckEdges : bool;
  Cell2D_CheckDuplications : bool;
  Cell2D_CheckConvexity : bool;
  Cell2D_CheckMeasure : bool
}.

(** MU2 280-290. *)
Definition check_points (A : arith) (m : mesh) : outcome unit :=
  each (fun v => each (fun w =>
    p ← Point A v m; q ← Point A w m; require (negb (PointsAreCoincident (geo A) p q))) (above v (num D0 m))) (seq 0 (num D0 m)).

(** MU2 292-308.  The second operand of [&&] is read only when the first one holds; both exist. *)
Definition check_two_edges (e f : nat) (m : mesh) : outcome unit :=
  o ← Cell1DOrigin e m; t ← Cell1DEnd e m; o' ← Cell1DOrigin f m; t' ← Cell1DEnd f m;
  require (negb ((o =? o')%N && (t =? t')%N));;
  require (negb ((t =? o')%N && (o =? t')%N)).
Definition check_edge (e : nat) (m : mesh) : outcome unit :=
  o ← Cell1DOrigin e m; t ← Cell1DEnd e m;
  x ← Cell1DByExtremes o t m; require (x =? e);;
  y ← Cell1DByExtremes t o m; require (y =? num D1 m);;
  each (fun f => check_two_edges e f m) (above e (num D1 m)).

(** MU2 316-333: one neighbour.  The remainder by zero is undefined. *)
Definition check_neighbour (e c : nat) (m : mesh) : outcome unit :=
  n ← RelNumber E2 c m;
  let n := N.to_nat n in
  k ← RelFind E2 c (N.of_nat e) m;
  o ← (if n =? 0 then UB else RelGet V2 c ((k + 1) mod n) m);
  t ← RelGet V2 c k m;
  x ← FindEdgeByExtremes E2 c o t m;
  if x =? k then
    y ← FindEdgeByExtremes E2 c t o m; require ((y =? n) || (x =? n) && (y =? k))
  else if x =? n then
    y ← FindEdgeByExtremes E2 c t o m; require (y =? k)
  else Abort.
(** MU2 310-335: one edge. *)
Definition check_neighbours (e : nat) (m : mesh) : outcome unit :=
  n ← RelNumber R12 e m;
  require (0 <? n)%N;;
  each (fun k =>
    b ← RelHas R12 e k m;
    if b : bool then c ← RelGet R12 e k m; check_neighbour e (N.to_nat c) m else Ok tt) (seq 0 (N.to_nat n)).

(** MU2 337-345: Cell1DOriginCoordinates and Cell1DEndCoordinates. *)
Definition check_length (A : arith) (e : nat) (m : mesh) : outcome unit :=
  o ← Cell1DOrigin e m; p ← Point A (N.to_nat o) m;
  t ← Cell1DEnd e m; q ← Point A (N.to_nat t) m;
  require (negb (PointsAreCoincident (geo A) p q)).

(** MU2 347-364: one side of a polygon. *)
Definition check_side (c n k : nat) (m : mesh) : outcome unit :=
  o ← RelGet V2 c k m;
  t ← RelGet V2 c ((k + 1) mod n) m;
  x ← FindEdgeByExtremes E2 c o t m;
  y ← FindEdgeByExtremes E2 c t o m;
  require ((x <? n) && (x =? k) || (y <? n) && (y =? k)).
Definition check_sides (c : nat) (m : mesh) : outcome unit :=
  n ← RelNumber E2 c m;
  each (fun k => check_side c (N.to_nat n) k m) (seq 0 (N.to_nat n)).

(** MU2 366-388: two polygons. *)
Definition check_two_cells (c d : nat) (m : mesh) : outcome unit :=
  v ← RelRow V2 c m; e ← RelRow E2 c m;
  v' ← RelRow V2 d m; e' ← RelRow E2 d m;
  require (differ (sorted v) (sorted v'));;
  require (differ (sorted e) (sorted e')).

(** MU2 390-403. *)
Definition check_convex (A : arith) (c : nat) (m : mesh) : outcome unit :=
  vs ← CellPoints A c m; b ← IsCellConvex (geo A) vs; require b.
(** MU2 405-412. *)
Definition check_area (A : arith) (c : nat) (m : mesh) : outcome unit :=
  vs ← CellPoints A c m; a ← PolygonArea (geo A) vs; require (IsValuePositive (geo A) a (Tolerance2D A)).

(** CheckMesh2D, MU2 269-413. *)
Definition CheckMesh2D (A : arith) (k : config2D) (m : mesh) : outcome unit :=
  require (mdim m =? 2);;
  when (Cell0D_CheckCoordinates2D k) (ps ← Points A m; b ← PointsAre2D (geo A) ps; require b);;
  when (Cell0D_CheckDuplications k) (check_points A m);;
  when (Cell1D_CheckDuplications k) (each (fun e => check_edge e m) (seq 0 (num D1 m)));;
  when (Cell1D_CheckNeighbours k) (each (fun e => check_neighbours e m) (seq 0 (num D1 m)));;
  when (Cell1D_CheckMeasure k) (each (fun e => check_length A e m) (seq 0 (num D1 m)));;
  when (Cell2D_CheckEdges k) (each (fun c => check_sides c m) (seq 0 (num D2 m)));;
  when (Cell2D_CheckDuplications k)
    (each (fun c => each (fun d => check_two_cells c d m) (above c (num D2 m))) (seq 0 (num D2 m)));;
  when (Cell2D_CheckConvexity k) (each (fun c => check_convex A c m) (seq 0 (num D2 m)));;
  when (Cell2D_CheckMeasure k) (each (fun c => check_area A c m) (seq 0 (num D2 m))).

(** ** The geometric data *)

(** CheckMeshGeometricData2DConfiguration, MeshUtilities.hpp:55-63; the quadratures of the two orders are their points and weights. *)
Record data_config := DataConfig {
  Data_Cell1D_CheckMeasure : bool;
  Data_Cell1D_CheckNormals : bool;
  Data_Cell2D_CheckMeasure : bool;
  Data_Cell2D_CheckTriangles : bool;
  edge_quadrature : list Qc * list Qc;
  cell_quadrature : list Qc
}.
(** The members of MeshGeometricData2D read by the check, MeshUtilities.hpp. *)
Record data2D := Data2D {
  Cell2DsVertices : list (list vec3);
  Cell2DsTriangulations : list (list triangle);
  Cell2DsAreas : list Qc;
  Cell2DsEdgeLengths : list (list Qc);
  Cell2DsEdgeTangents : list (list vec3);
  Cell2DsEdgeNormals : list (list vec3)
}.
(** [if (!mesh.Cell2DIsActive(cell2DIndex)) continue;] *)
Definition when_active (c : nat) (m : mesh) (x : outcome unit) : outcome unit := b ← IsActive D2 c m; when b x.

(** CheckMeshGeometricData2D, MU2 415-499.  The four loops run to [mesh.Cell3DTotalNumber()]. *)
Definition CheckMeshGeometricData2D (A : arith) (k : data_config) (m : mesh) (d : data2D) : outcome unit :=
  let cells := seq 0 (num D3 m) in
  when (Data_Cell1D_CheckMeasure k) (each (fun c => when_active c m (
    n ← RelNumber E2 c m;
    each (fun e => ls ← vget (Cell2DsEdgeLengths d) c; l ← vget ls e;
                   require (IsValuePositive (geo A) l (Tolerance1D (geo A)))) (seq 0 (N.to_nat n)))) cells);;
  when (Data_Cell1D_CheckNormals k) (each (fun c => when_active c m (
    vs ← vget (Cell2DsVertices d) c; ls ← vget (Cell2DsEdgeLengths d) c;
    ts ← vget (Cell2DsEdgeTangents d) c; ns ← vget (Cell2DsEdgeNormals d) c;
    area ← PolygonAreaByBoundaryIntegral vs ls ts ns (edge_quadrature k).1 (edge_quadrature k).2;
    a ← vget (Cell2DsAreas d) c;
    require (AreValuesEqual (geo A) a area (Tolerance2D A)))) cells);;
  when (Data_Cell2D_CheckMeasure k) (each (fun c => when_active c m (
    a ← vget (Cell2DsAreas d) c; require (IsValuePositive (geo A) a (Tolerance2D A)))) cells);;
  when (Data_Cell2D_CheckTriangles k) (each (fun c => when_active c m (
    ts ← vget (Cell2DsTriangulations d) c;
    let area := PolygonAreaByInternalIntegral ts (cell_quadrature k) in
    a ← vget (Cell2DsAreas d) c;
    require (AreValuesEqual (geo A) a area (Tolerance2D A)))) cells).

(** ** Solid meshes *)

(** [if (!b) throw std::runtime_error(...)]. *)
Definition accept (b : bool) : outcome unit := if b then Ok tt else Throw.
Definition if_active (d : dim) (i : nat) (m : mesh) (x : outcome unit) : outcome unit := b ← IsActive d i m; when b x.

(** CheckMesh3DConfiguration, MeshUtilities.hpp:38-53.  The four checks which involve the rotation of faces and the volume
    (Cell2D_CheckConvexity, Cell2D_CheckMeasure, Cell3D_CheckConvexity, Cell3D_CheckMeasure) are not modelled: they are off. *)
Record config3D := Config3D {
  Solid_Cell0D_CheckDuplications : bool;
  Solid_Cell1D_CheckDuplications : bool;
  Solid_Cell1D_CheckMeasure : bool;
  Solid_Cell2D_CheckEdges : bool;
  Solid_Cell2D_CheckDuplications : bool;
  Solid_Cell3D_CheckDuplications : bool;
  Solid_Cell3D_CheckEdgesAreActive : bool;
  Solid_Cell3D_CheckEdges : bool;
  Solid_Cell3D_CheckFaces : bool
}.

(** MC3 28-47. *)
Definition solid_points (A : arith) (m : mesh) : outcome unit :=
  each (fun v => if_active D0 v m (each (fun w => if_active D0 w m (
    p ← Point A v m; q ← Point A w m; accept (negb (PointsAreCoincident (geo A) p q)))) (above v (num D0 m)))) (seq 0 (num D0 m)).
(** MC3 49-81. *)
Definition solid_two_edges (e f : nat) (m : mesh) : outcome unit :=
  o ← Cell1DOrigin e m; t ← Cell1DEnd e m; o' ← Cell1DOrigin f m; t' ← Cell1DEnd f m;
  accept (negb ((o =? o')%N && (t =? t')%N));;
  accept (negb ((t =? o')%N && (o =? t')%N)).
Definition solid_edge (e : nat) (m : mesh) : outcome unit :=
  o ← Cell1DOrigin e m; t ← Cell1DEnd e m;
  x ← Cell1DByExtremes o t m; accept (x =? e);;
  y ← Cell1DByExtremes t o m; accept (y =? num D1 m);;
  each (fun f => if_active D1 f m (solid_two_edges e f m)) (above e (num D1 m)).
(** MC3 83-97. *)
Definition solid_length (A : arith) (e : nat) (m : mesh) : outcome unit :=
  o ← Cell1DOrigin e m; p ← Point A (N.to_nat o) m;
  t ← Cell1DEnd e m; q ← Point A (N.to_nat t) m;
  accept (negb (PointsAreCoincident (geo A) p q)).
(** MC3 99-130. *)
Definition solid_side (c nv n k : nat) (m : mesh) : outcome unit :=
  o ← RelGet V2 c k m;
  t ← RelGet V2 c ((k + 1) mod n) m;
  x ← FindEdgeByExtremes E2 c o t m;
  y ← FindEdgeByExtremes E2 c t o m;
  accept ((x <? n) && (x =? k) || (y <? n) && (y =? k));;
  i ← RelFind V2 c o m; accept (negb (i =? nv));;
  j ← RelFind V2 c t m; accept (negb (j =? nv)).
Definition solid_sides (c : nat) (m : mesh) : outcome unit :=
  nv ← RelNumber V2 c m;
  n ← RelNumber E2 c m;
  each (fun k => solid_side c (N.to_nat nv) (N.to_nat n) k m) (seq 0 (N.to_nat n)).
(** MC3 132-167, 223-268: two cells with the same vertices, edges (or faces). *)
Definition solid_two (rs : list rel) (c d : nat) (m : mesh) : outcome unit :=
  l ← omapM (fun r => RelRow r c m) rs;
  l' ← omapM (fun r => RelRow r d m) rs;
  each (fun p : list N * list N => accept (differ (sorted p.1) (sorted p.2))) (zip l l').
(** MC3 270-286. *)
Definition solid_edges_active (c : nat) (m : mesh) : outcome unit :=
  n ← RelNumber E3 c m;
  each (fun k => e ← RelGet E3 c k m; b ← IsActive D1 (N.to_nat e) m; accept b) (seq 0 (N.to_nat n)).
(** [std::set_intersection] of two sorted ranges. *)
Fixpoint set_intersection (a : list N) : list N -> list N :=
  fix inner (b : list N) :=
    match a, b with
    | x :: a', y :: b' => if (x <? y)%N then set_intersection a' b else if (y <? x)%N then inner b' else x :: set_intersection a' b'
    | _, _ => []
    end.
(** MC3 288-333.  The first loop compares a position among the vertices with the number of the edges. *)
Definition solid_edges (c : nat) (m : mesh) : outcome unit :=
  n ← RelNumber E3 c m;
  each (fun k =>
    e ← RelGet E3 c k m;
    o ← Cell1DOrigin (N.to_nat e) m; i ← RelFind V3 c o m; accept (negb (N.of_nat i =? n)%N);;
    t ← Cell1DEnd (N.to_nat e) m; j ← RelFind V3 c t m; accept (negb (N.of_nat j =? n)%N)) (seq 0 (N.to_nat n));;
  es ← RelRow E3 c m;
  nf ← RelNumber F3 c m;
  fs ← ofold (fun s k =>
    f ← RelGet F3 c k m;
    h ← RelNumber E2 (N.to_nat f) m;
    ofold (fun s i => e ← RelGet E2 (N.to_nat f) i m; Ok (set_insert e s)) (seq 0 (N.to_nat h)) s) (seq 0 (N.to_nat nf)) [];
  let common := set_intersection (sorted es) fs in
  accept ((length common =? length (sorted es)) && (length common =? length fs)).
(** MC3 428-460. *)
Definition solid_faces (c : nat) (m : mesh) : outcome unit :=
  nf ← RelNumber F3 c m;
  each (fun k =>
    f ← RelGet F3 c k m;
    b ← IsActive D2 (N.to_nat f) m; accept b;;
    nv ← RelNumber V3 c m;
    h ← RelNumber V2 (N.to_nat f) m;
    each (fun i => v ← RelGet V2 (N.to_nat f) i m; j ← RelFind V3 c v m; accept (negb (N.of_nat j =? nv)%N)) (seq 0 (N.to_nat h));;
    ne ← RelNumber E3 c m;
    h ← RelNumber E2 (N.to_nat f) m;
    each (fun i => e ← RelGet E2 (N.to_nat f) i m; j ← RelFind E3 c e m; accept (negb (N.of_nat j =? ne)%N)) (seq 0 (N.to_nat h)))
    (seq 0 (N.to_nat nf)).

Definition actives (d : dim) (m : mesh) (f : nat -> outcome unit) (l : list nat) : outcome unit :=
  each (fun i => if_active d i m (f i)) l.
(** CheckMesh3D, MC3 22-461. *)
Definition CheckMesh3D (A : arith) (k : config3D) (m : mesh) : outcome unit :=
  let all d := seq 0 (num d m) in
  require (mdim m =? 3);;
  when (Solid_Cell0D_CheckDuplications k) (solid_points A m);;
  when (Solid_Cell1D_CheckDuplications k) (actives D1 m (fun e => solid_edge e m) (all D1));;
  when (Solid_Cell1D_CheckMeasure k) (actives D1 m (fun e => solid_length A e m) (all D1));;
  when (Solid_Cell2D_CheckEdges k) (actives D2 m (fun c => solid_sides c m) (all D2));;
  when (Solid_Cell2D_CheckDuplications k)
    (actives D2 m (fun c => actives D2 m (fun d => solid_two [V2; E2] c d m) (above c (num D2 m))) (all D2));;
  when (Solid_Cell3D_CheckDuplications k)
    (actives D3 m (fun c => actives D3 m (fun d => solid_two [V3; E3; F3] c d m) (above c (num D3 m))) (all D3));;
  when (Solid_Cell3D_CheckEdgesAreActive k) (actives D3 m (fun c => solid_edges_active c m) (all D3));;
  when (Solid_Cell3D_CheckEdges k) (actives D3 m (fun c => solid_edges c m) (all D3));;
  when (Solid_Cell3D_CheckFaces k) (actives D3 m (fun c => solid_faces c m) (all D3)).
