(** * Joining triangles around a vertex into one polygon.
    Files: MU2 = GeDiM/src/Mesh/MeshUtilities2D.cpp; DAO = GeDiM/src/Mesh/MeshMatricesDAO.cpp. *)
From stdpp Require Import sorting.
From Coq Require Import QArith Qcanon.
From Verif Require Import Base FillModel GeoModel MapModel PointModel PolyModel HullModel CsrModel MeshModel RefineModel CheckModel.
Local Open Scope nat_scope.

(** What two polygons have in common: MU2 1326-1342, 1374-1390. *)
Definition common_of_two (r : rel) (t u : nat) (m : mesh) : outcome (list N) :=
  a ← RelRow r t m;
  b ← RelRow r u m;
  Ok (set_intersection (sorted a) (sorted b)).

(** FindCell2DsCommonVertices, MU2 1318-1367: [cell2DsIndex[0]] is not checked; from the fourth polygon on, only the first
    vertex found so far is looked for. *)
Definition FindCell2DsCommonVertices (ts : list nat) (m : mesh) : outcome (list N) :=
  match ts with
  | [] => UB
  | [t] => RelRow V2 t m
  | [t; u] => common_of_two V2 t u m
  | t :: u :: w :: rest =>
      c ← common_of_two V2 t u m;
      l ← RelRow V2 w m;
      match set_intersection c (sorted l) with
      | [] => Ok []
      | v :: s =>
          ofold (fun _ t => l ← RelRow V2 t m; require (bool_decide (v ∈ l))) rest tt;;
          Ok (v :: s)
      end
  end.

(** FindCell2DsCommonEdges, MU2 1369-1398. *)
Definition FindCell2DsCommonEdges (ts : list nat) (m : mesh) : outcome (list N) :=
  match ts with
  | [] => UB
  | [t] => RelRow E2 t m
  | t :: u :: rest =>
      c ← common_of_two E2 t u m;
      Ok (match rest with [] => c | _ => [] end)
  end.

(** AgglomerateTrianglesResult: VerticesIndex, EdgesIndex, RemovedEdges. *)
Record joined := Joined { j_vertices : list N; j_edges : list N; j_removed : list N }.

(** One pass of the loop over consecutive triangles: MU2 1424-1439. *)
Definition join_pair (m : mesh) (r : joined) (tu : nat * nat) : outcome joined :=
  ce ← FindCell2DsCommonEdges [tu.1; tu.2] m;
  match ce with
  | [c] =>
      k ← RelFind E2 tu.1 c m;
      let i := (k + 2) mod 3 in
      v ← RelGet V2 tu.1 i m;
      e ← RelGet E2 tu.1 i m;
      Ok (Joined (j_vertices r ++ [v]) (j_edges r ++ [e]) (j_removed r ++ [c]))
  | _ => Abort
  end.

(** AgglomerateTriangles, MU2 1401-1466.  [commonEdges.back()] of an empty list is undefined. *)
Definition AgglomerateTriangles (ts : list nat) (m : mesh) : outcome joined :=
  cv ← FindCell2DsCommonVertices ts m;
  match cv, ts, last ts with
  | [v], first :: _, Some final =>
      k ← RelFind V2 first v m;
      e ← RelGet E2 first k m;
      r ← ofold (join_pair m) (zip ts (tail ts)) (Joined [v] [e] []);
      match last (j_removed r) with
      | None => UB
      | Some c =>
          k ← RelFind E2 final c m;
          let i := (k + 2) mod 3 in
          k' ← RelFind V2 final v m;
          let j := (k' + 1) mod 3 in
          vj ← RelGet V2 final j m;
          vi ← RelGet V2 final i m;
          ej ← RelGet E2 final j m;
          ei ← RelGet E2 final i m;
          Ok (Joined (j_vertices r ++ [vj; vi]) (j_edges r ++ [ej; ei]) (j_removed r))
      end
  | _, _, _ => Abort
  end.

(** AgglomerateMeshFromTriangularMesh, MU2 1468-1525: one group of triangles (1478-1517). *)
Definition retire_triangle (c : nat) (m : mesh) (t : nat) : outcome mesh :=
  b ← IsActive D2 t m;
  require b;;
  m ← SetState D2 t false m;
  InsertUpdated D2 t c m.
Definition retire_edge (m : mesh) (e : N) : outcome mesh :=
  b ← IsActive D1 (N.to_nat e) m;
  require b;;
  SetState D1 (N.to_nat e) false m.
Definition join_group (ts : list nat) (m : mesh) : outcome (mesh * nat * list N) :=
  g ← AgglomerateTriangles ts m;
  ms ← CellAppend D2 1 m;
  let c := ms.2 in
  m ← RelAdd V2 c (j_vertices g) ms.1;
  m ← RelAdd E2 c (j_edges g) m;
  m ← SetMarker D2 c 0 m;
  m ← SetState D2 c true m;
  m ← ofold (retire_triangle c) ts m;
  m ← ofold retire_edge (j_removed g) m;
  Ok (m, c, j_removed g).

(** AgglomerateMeshFromTriangularMeshResult: ConcaveCell2Ds (Cell2DIndex, ConvexCell2DsIndex), RemovedCell1Ds,
    RemovedCell2Ds. *)
Record joined_mesh := JoinedMesh { jm_cells : list (nat * list nat); jm_edges : list N; jm_triangles : list N }.

(** MU2 1468-1525. *)
Definition AgglomerateMeshFromTriangularMesh (groups : list (list nat)) (m : mesh) : outcome (mesh * joined_mesh) :=
  r ← ofold (fun r ts =>
               g ← join_group ts r.1;
               Ok (g.1.1, JoinedMesh (jm_cells r.2 ++ [(g.1.2, ts)]) (jm_edges r.2 ++ g.2)
                                     (jm_triangles r.2 ++ (N.of_nat <$> ts))))
            groups (m, JoinedMesh [] [] []);
  Ok (r.1, JoinedMesh (jm_cells r.2) (sorted (jm_edges r.2)) (sorted (jm_triangles r.2))).
