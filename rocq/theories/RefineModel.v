(** * Refinement of plane meshes: splitting of polygons and update of their neighbours.

    Files modelled: GeDiM/src/Mesh/RefinementUtilities.cpp ("RU"), RefinementUtilities.hpp ("RUH"), RefinementUtilities2D.cpp ("RU2").

    The store keeps the coordinates as they are, so the arithmetic is a parameter: [value] reads a stored number, [store] is the
    number stored for a computed value (rounding included).  The rotation and the translation of the cells are not modelled: the
    mesh is in the plane, where the code uses the identity and zero (refine_triangles.cpp:129-130, 330-331).
    Sums of indices are not reduced modulo 2^32. *)
From Coq Require Import QArith Qcanon.
From Verif Require Import Base QcTac CsrModel MeshModel UtilModel FillModel GeoModel MapModel PointModel PolyModel.
Local Open Scope nat_scope.

Record arith := Arith {
  value : N -> Qc;
  store : Qc -> N;
  geo : geo_config;       (* Tolerance1D and the machine precision *)
  Tolerance2D : Qc        (* GeometryUtilities.hpp:808-812 *)
}.

(** Cell0DCoordinates, and as a point. *)
Definition point_of (A : arith) (c : N * N * N) : vec3 := (value A c.1.1, value A c.1.2, value A c.2).
Definition Point (A : arith) (v : nat) (m : mesh) : outcome vec3 := c ← Cell0DCoordinates v m; Ok (point_of A c).

(** SplitCell1D, RU 26-48: the index of the new vertex and of the new edges. *)
Definition RefineCell1D (e : nat) (x y z : N) (m : mesh) : outcome (mesh * (nat * list nat)) :=
  o ← Cell1DOrigin e m;
  t ← Cell1DEnd e m;
  ms ← CellAppend D0 1 m;
  let w := ms.2 in
  m ← Cell0DInsertCoordinates w x y z ms.1;
  k ← Marker D1 e m;
  m ← SetMarker D0 w k m;
  m ← SetState D0 w true m;
  r ← UtilModel.SplitCell1D e [(o, N.of_nat w); (N.of_nat w, t)] m;
  Ok (r.1, (w, r.2)).

(** SplitCell1D_MiddlePoint, RUH 317-323. *)
Definition SplitCell1D_MiddlePoint (A : arith) (e : nat) (m : mesh) : outcome (mesh * (nat * list nat)) :=
  o ← Cell1DOrigin e m;
  p ← Point A (N.to_nat o) m;
  t ← Cell1DEnd e m;
  q ← Point A (N.to_nat t) m;
  let c := vscale (Q2Qc (1 # 2)) (vadd p q) in
  RefineCell1D e (store A c.1.1) (store A c.1.2) (store A c.2) m.

(** [for (v = 0; ((from + v) % n) != to; v++) push_back((from + v) % n)]: RU2 220-223, 327-330, 447-450, 566-569.  [% 0] is
    undefined; the loop does not end when [to] is not below [n]. *)
Fixpoint walk_loop (n from to v fuel : nat) : outcome (list nat) :=
  match fuel with
  | 0 => OutOfFuel
  | S fuel =>
      let i := (from + v) mod n in
      if i =? to then Ok [] else l ← walk_loop n from to (S v) fuel; Ok (i :: l)
  end.
Definition walk (n from to : nat) : outcome (list nat) := if n =? 0 then UB else walk_loop n from to 0 (S n).

(** SplitPolygon_IsAreaPositive, RU2 176-203. *)
Definition IsAreaPositive (A : arith) (ids : list N) (m : mesh) : outcome bool :=
  ps ← omapM (fun v => Point A (N.to_nat v) m) ids;
  require (0 <? length ps);;
  let vs := (fun p : vec3 => (p.1.1, p.1.2, 0%Qc)) <$> ps in
  un ← UnalignedPoints (geo A) vs;
  us ← ExtractPoints vs un;
  tr ← PolygonTriangulationByFirstVertex (geo A) us;
  ts ← ExtractTriangulationPoints us tr;
  areas ← omapM (fun t : triangle => PolygonArea (geo A) [t.1.1; t.1.2; t.2]) ts;
  Ok (negb (IsValueZero (geo A) (foldl Qcplus 0%Qc areas) (Tolerance2D A))).

(** SplitPolygon_Result, RUH 54-66; the type Unknown is never returned. *)
Inductive split_result := NoSplit | Split (edge : nat) (cells : list nat).

(** The common part of the four functions: the checks, the new edge from [o] to [t], the new cells and the neighbours of the new
    edge.  [vs0], [vs1] read the vertices of the new cells, [es0], [es1] their edges.
    RU2 236-303, 337-424, 457-544, 576-669. *)
Definition split_by_edge (A : arith) (c : nat) (o t : mesh -> outcome N) (vs0 vs1 : mesh -> outcome (list N))
    (es0 es1 : N -> mesh -> outcome (list N)) (m : mesh) : outcome (mesh * split_result) :=
  v0 ← vs0 m;
  b0 ← IsAreaPositive A v0 m;
  if negb b0 then Ok (m, NoSplit) else
  v1 ← vs1 m;
  b1 ← IsAreaPositive A v1 m;
  if negb b1 then Ok (m, NoSplit) else
  a ← o m;
  p ← Point A (N.to_nat a) m;
  b ← t m;
  q ← Point A (N.to_nat b) m;
  if norm_zero (geo A) (norm2 (vsub q p)) (Tolerance1D (geo A)) then Ok (m, NoSplit) else
  ms ← CellAppend D1 1 m;
  let e := ms.2 in
  m ← Cell1DInsertExtremes e a b ms.1;
  m ← SetMarker D1 e 0%N m;
  m ← SetState D1 e true m;
  m ← RelInitOne R12 e 2 m;
  e0 ← es0 (N.of_nat e) m;
  e1 ← es1 (N.of_nat e) m;
  r ← SplitCell2D c [zip v0 e0; zip v1 e1] m;
  right ← vget r.2 1;
  m ← RelInsert R12 e 0 (N.of_nat right) r.1;
  left ← vget r.2 0;
  m ← RelInsert R12 e 1 (N.of_nat left) m;
  Ok (m, Split e r.2).

(** [mesh.Cell2DVertex(cell2DIndex, index)] and [mesh.Cell2DEdge(cell2DIndex, index)] for all the indices of a list. *)
Definition vertices_at (c : nat) (l : list nat) (m : mesh) : outcome (list N) := omapM (fun i => RelGet V2 c i m) l.
Definition edges_at (c : nat) (l : list nat) (m : mesh) : outcome (list N) := omapM (fun i => RelGet E2 c i m) l.

(** SplitPolygon_NoNewVertices, RU2 205-304. *)
Definition SplitPolygon_NoNewVertices (A : arith) (c n from to : nat) (m : mesh) : outcome (mesh * split_result) :=
  f ← walk n from to;
  s ← walk n to from;
  split_by_edge A c (RelGet V2 c to) (RelGet V2 c from)
    (fun m => l ← vertices_at c f m; v ← RelGet V2 c to m; Ok (l ++ [v]))
    (fun m => l ← vertices_at c s m; v ← RelGet V2 c from m; Ok (l ++ [v]))
    (fun e m => l ← edges_at c f m; Ok (l ++ [e]))
    (fun e m => l ← edges_at c s m; Ok (l ++ [e])) m.

(** [direction ? split[i] : split[1 - i]]. *)
Definition half (direction : bool) (split : list nat) (i : nat) : outcome N :=
  x ← vget split (if direction then i else 1 - i); Ok (N.of_nat x).

(** SplitPolygon_NewVertexFrom, RU2 306-425. *)
Definition SplitPolygon_NewVertexFrom (A : arith) (c n from_edge to new : nat) (split : list nat) (direction : bool) (m : mesh)
  : outcome (mesh * split_result) :=
  f ← walk n (from_edge + 1) to;
  s ← walk n to from_edge;
  split_by_edge A c (RelGet V2 c to) (fun _ => Ok (N.of_nat new))
    (fun m => l ← vertices_at c f m; v ← RelGet V2 c to m; Ok (N.of_nat new :: l ++ [v]))
    (fun m => l ← vertices_at c s m; v ← RelGet V2 c from_edge m; Ok (l ++ [v; N.of_nat new]))
    (fun e m => h ← half direction split 1; l ← edges_at c f m; Ok (h :: l ++ [e]))
    (fun e m => l ← edges_at c s m; h ← half direction split 0; Ok (l ++ [h; e])) m.

(** SplitPolygon_NewVertexTo, RU2 427-545. *)
Definition SplitPolygon_NewVertexTo (A : arith) (c n from to_edge new : nat) (split : list nat) (direction : bool) (m : mesh)
  : outcome (mesh * split_result) :=
  f ← walk n from to_edge;
  s ← walk n (to_edge + 1) from;
  split_by_edge A c (fun _ => Ok (N.of_nat new)) (RelGet V2 c from)
    (fun m => l ← vertices_at c f m; v ← RelGet V2 c to_edge m; Ok (l ++ [v; N.of_nat new]))
    (fun m => l ← vertices_at c s m; v ← RelGet V2 c from m; Ok (N.of_nat new :: l ++ [v]))
    (fun e m => l ← edges_at c f m; h ← half direction split 0; Ok (l ++ [h; e]))
    (fun e m => h ← half direction split 1; l ← edges_at c s m; Ok (h :: l ++ [e])) m.

(** SplitPolygon_NewVertices, RU2 547-670. *)
Definition SplitPolygon_NewVertices (A : arith) (c n from_edge to_edge new_from new_to : nat) (split_from split_to : list nat)
    (direction_from direction_to : bool) (m : mesh) : outcome (mesh * split_result) :=
  f ← walk n (from_edge + 1) to_edge;
  s ← walk n (to_edge + 1) from_edge;
  split_by_edge A c (fun _ => Ok (N.of_nat new_to)) (fun _ => Ok (N.of_nat new_from))
    (fun m => l ← vertices_at c f m; v ← RelGet V2 c to_edge m; Ok (N.of_nat new_from :: l ++ [v; N.of_nat new_to]))
    (fun m => l ← vertices_at c s m; v ← RelGet V2 c from_edge m; Ok (N.of_nat new_to :: l ++ [v; N.of_nat new_from]))
    (fun e m => h ← half direction_from split_from 1; l ← edges_at c f m; k ← half direction_to split_to 0; Ok (h :: l ++ [k; e]))
    (fun e m => h ← half direction_to split_to 1; l ← edges_at c s m; k ← half direction_from split_from 0; Ok (h :: l ++ [k; e])) m.

(** ** Results *)

(** The updated edges of RefinePolygon_Result, RUH 196-218. *)
Record refined_edge := RefinedEdge {
  re_children : list nat;   (* NewCell1DsIndex *)
  re_original : nat;        (* OriginalCell1DIndex *)
  re_vertex : nat;          (* NewCell0DIndex *)
  re_position : nat         (* OriginalCell2DEdgeIndex *)
}.
Inductive split_type := NoNewVertices | NewVertexFrom | NewVertexTo | NewVertices.
(** RefinePolygon_Result, RUH 184-230.  [SplitType] is set by RefinePolygonCell_ByDirection only. *)
Inductive refine_result :=
| AlreadySplitted | SplitUnderTolerance | DirectionNotInside | QualityCheckFailed
| Successfull (type : option split_type) (vertices : list nat) (updated : list refined_edge) (new_edge : nat) (cells : list nat).

(** The edges created for a split which did not take place are removed: RU2 1112-1117, 1504-1512, 1594-1602, 1651-1664. *)
Definition remove_split (e : nat) (s : nat * list nat) (m : mesh) : outcome mesh :=
  s1 ← vget s.2 1;
  m ← CellRemove D1 s1 m;
  s0 ← vget s.2 0;
  m ← CellRemove D1 s0 m;
  m ← CellRemove D0 s.1 m;
  SetState D1 e true m.

(** ** Triangles *)

(** RefineTriangleCell_ByEdge, RU2 1067-1134. *)
Definition RefineTriangleCell_ByEdge (A : arith) (c edge opposite : nat) (directions : list bool) (area : Qc) (lengths : list Qc) (m : mesh)
  : outcome (mesh * refine_result) :=
  h ← HasUpdateds D2 c m;
  if h : bool then Ok (m, AlreadySplitted) else
  len ← vget lengths edge;
  if IsValueZero (geo A) (Q2Qc (1 # 2) * area) (Tolerance2D A) || IsValueZero (geo A) (Q2Qc (1 # 2) * len) (Tolerance1D (geo A))
  then Ok (m, SplitUnderTolerance) else
  e ← RelGet E2 c edge m;
  d ← vget directions edge;
  s ← SplitCell1D_MiddlePoint A (N.to_nat e) m;
  r ← SplitPolygon_NewVertexTo A c 3 opposite edge s.2.1 s.2.2 d s.1;
  match r.2 with
  | NoSplit => m ← remove_split (N.to_nat e) s.2 r.1; Ok (m, SplitUnderTolerance)
  | Split f cells => Ok (r.1, Successfull None [s.2.1] [RefinedEdge s.2.2 (N.to_nat e) s.2.1 edge] f cells)
  end.

(** RefineTriangleCell_UpdateNeighbours, RU2 1136-1206; the pairs (original cell, new cell). *)
Definition RefineTriangleCell_UpdateNeighbours (A : arith) (c e new : nat) (split : list nat) (direction : bool) (m : mesh)
  : outcome (mesh * list (nat * nat)) :=
  n ← RelNumber R12 e m;
  ofold (fun s k =>
           h ← RelHas R12 e k s.1;
           if negb h then Ok s else
           x ← RelGet R12 e k s.1;
           if (x =? N.of_nat c)%N then Ok s else
           let x := N.to_nat x in
           u ← HasUpdateds D2 x s.1;
           if u : bool then Ok s else
           p ← RelFind E2 x (N.of_nat e) s.1;
           r ← SplitPolygon_NewVertexTo A x 3 ((p + 2) mod 3) p new split (negb direction) s.1;
           Ok (r.1, s.2 ++ match r.2 with NoSplit => [] | Split _ cells => (fun y => (x, y)) <$> cells end))
        (seq 0 (N.to_nat n)) (m, []).

(** ** Polygons *)

(** RefinePolygonCell_UpdateNeighbours, RU2 1686-1763. *)
Definition RefinePolygonCell_UpdateNeighbours (c e new : nat) (split : list nat) (directions : list (list bool)) (m : mesh)
  : outcome (mesh * list (nat * nat)) :=
  n ← RelNumber R12 e m;
  ofold (fun s k =>
           h ← RelHas R12 e k s.1;
           if negb h then Ok s else
           x ← RelGet R12 e k s.1;
           if (x =? N.of_nat c)%N then Ok s else
           let x := N.to_nat x in
           u ← HasUpdateds D2 x s.1;
           if u : bool then Ok s else
           nv ← RelNumber V2 x s.1;
           let nv := N.to_nat nv in
           p ← RelFind E2 x (N.of_nat e) s.1;
           ds ← vget directions x;
           d ← vget ds p;
           v0 ← vertices_at x (seq 0 p) s.1;
           e0 ← edges_at x (seq 0 p) s.1;
           v ← RelGet V2 x p s.1;
           h0 ← half d split 0;
           h1 ← half d split 1;
           v1 ← vertices_at x (seq (p + 1) (nv - (p + 1))) s.1;
           e1 ← edges_at x (seq (p + 1) (nv - (p + 1))) s.1;
           r ← SplitCell2D x [zip v0 e0 ++ (v, h0) :: (N.of_nat new, h1) :: zip v1 e1] s.1;
           Ok (r.1, s.2 ++ ((fun y => (x, y)) <$> r.2)))
        (seq 0 (N.to_nat n)) (m, []).

(** LinePolygonPositionResult::EdgeIntersection, GeometryUtilities.hpp:620-635. *)
Inductive intersection_type := OnEdgeOrigin | InsideEdge | OnEdgeEnd | Parallel.
Record edge_intersection := EdgeIntersection { ei_type : intersection_type; ei_index : nat; ei_coordinate : Qc }.
(** RefinePolygon_CheckResult::Cell1DToSplit, RUH 79-107: the two fields which are read. *)
Inductive to_split :=
| NotInside | EdgeLengthNotEnough | OnlyLocalQuality | OnlyNeighQuality | BothQuality | OnlyLocalAligned | OnlyNeighAligned
| BothAligned | ToSplit.
Global Instance to_split_eq_dec : EqDecision to_split.
Proof. solve_decision. Defined.
(** IsToSplit is set together with the type ToSplit only, RU2 994-996. *)
Definition IsToSplit (t : to_split) : bool := bool_decide (t = ToSplit).
(** RefinePolygon_CheckResult with two edges, RUH 109-115. *)
Record check_result := CheckResult {
  cr_one : nat; cr_two : nat;                            (* Cell1DsIndex *)
  cr_inter_one : edge_intersection; cr_inter_two : edge_intersection;
  cr_split_one : to_split; cr_split_two : to_split
}.

(** AreVerticesAligned, RU 86-108. *)
Definition AreVerticesAligned (A : arith) (vs : list vec3) (from to : nat) : outcome bool :=
  let n := length vs in
  if n =? 0 then UB else
  if ((from + 1) mod n =? to) || ((to + 1) mod n =? from) then Ok true else
  p ← vget vs from;
  q ← vget vs to;
  r ← vget vs ((from + 1) mod n);
  if PointIsAligned (geo A) p q r then Ok true else
  s ← vget vs ((to + 1) mod n);
  Ok (PointIsAligned (geo A) p q s).

(** The end of the edge which is nearer to the intersection: RU2 57-64, 1445-1448, 1536-1539. *)
Definition nearest_end (A : arith) (n : nat) (i : edge_intersection) : nat :=
  if IsValueGreaterOrEqual (geo A) (Q2Qc (1 # 2)) (ei_coordinate i) (Tolerance1D (geo A)) then ei_index i else (ei_index i + 1) mod n.
(** [v == i.Index ? (i.Index + 1) % n : i.Index]. *)
Definition flip (n v : nat) (i : edge_intersection) : nat := if v =? ei_index i then (ei_index i + 1) mod n else ei_index i.

(** SplitPolygon_CheckSplitType, RU2 18-137; [None] is the type Unknown. *)
Definition CheckSplitType (A : arith) (is_triangle is_unaligned_triangle : bool) (vs : list vec3) (k : check_result)
  : outcome (option (split_type * (nat * nat))) :=
  let n := length vs in
  let one := cr_split_one k in
  let two := cr_split_two k in
  if is_triangle && bool_decide (two = NotInside) then Ok (Some (NewVertexFrom, (0, 0)))
  else if is_triangle && bool_decide (one = NotInside) then Ok (Some (NewVertexTo, (0, 0)))
  else if negb is_triangle && negb (IsToSplit one) && negb (IsToSplit two) then
    let from := nearest_end A n (cr_inter_one k) in
    let to := nearest_end A n (cr_inter_two k) in
    a ← AreVerticesAligned A vs from to;
    if negb a then Ok (Some (NoNewVertices, (from, to))) else
    let '(from, to) :=
      if bool_decide (two <> NotInside) then (from, flip n to (cr_inter_two k))
      else if bool_decide (one <> NotInside) then (flip n from (cr_inter_one k), to)
      else (from, to) in
    a ← AreVerticesAligned A vs from to;
    if a && is_unaligned_triangle then
      if bool_decide (one <> NotInside) && bool_decide (two = NotInside) then Ok (Some (NewVertexFrom, (0, 0)))
      else if bool_decide (one = NotInside) && bool_decide (two <> NotInside) then Ok (Some (NewVertexTo, (0, 0)))
      else Ok None
    else Ok (Some (NoNewVertices, (from, to)))
  else if IsToSplit one && negb (IsToSplit two) then Ok (Some (NewVertexFrom, (0, 0)))
  else if negb (IsToSplit one) && IsToSplit two then Ok (Some (NewVertexTo, (0, 0)))
  else if negb is_triangle then Ok (Some (NewVertices, (0, 0)))
  else Ok None.

(** SplitPolygon_CheckIsNotToExtend, RU2 139-160. *)
Definition is_neigh (t : to_split) : bool := match t with OnlyNeighQuality | OnlyNeighAligned => true | _ => false end.
Definition is_local (t : to_split) : bool :=
  match t with BothQuality | OnlyLocalQuality | BothAligned | OnlyLocalAligned => true | _ => false end.
Definition CheckIsNotToExtend (one two : to_split) : bool :=
  if is_neigh one && negb (is_local two) then false else if is_neigh two && negb (is_local one) then false else true.
(** SplitPolygon_CheckIsToSplit_Relaxed, RU2 162-174. *)
Definition CheckIsToSplit_Relaxed (one two : to_split) : bool :=
  if is_neigh one then false else if is_neigh two then false else true.

(** The middle of the edge with index [i] is aligned with the vertex [v] and one of its ends, RU2 1450-1474, 1541-1565; the order
    of the points differs between the two cases ([first]: the vertex comes first). *)
Definition middle_aligned (A : arith) (first : bool) (vs : list vec3) (i v : nat) : outcome bool :=
  let n := length vs in
  p ← vget vs i;
  q ← vget vs ((i + 1) mod n);
  w ← vget vs v;
  let mid := vscale (Q2Qc (1 # 2)) (vadd p q) in
  Ok (if first then PointIsAligned (geo A) w p mid || PointIsAligned (geo A) w q mid
      else PointIsAligned (geo A) p w mid || PointIsAligned (geo A) q w mid).

(** RefinePolygonCell_ByDirection on a cell to be split, RU2 1333-1684. *)
Definition RefinePolygonCell_ByDirection (A : arith) (c : nat) (is_triangle is_unaligned_triangle : bool) (vs : list vec3) (k : check_result)
    (directions : list bool) (extend : bool) (m : mesh) : outcome (mesh * refine_result) :=
  let n := length vs in
  let one := cr_inter_one k in
  let two := cr_inter_two k in
  if extend && negb is_unaligned_triangle && negb (CheckIsNotToExtend (cr_split_one k) (cr_split_two k)) then Ok (m, QualityCheckFailed) else
  st ← CheckSplitType A is_triangle is_unaligned_triangle vs k;
  match st with
  | None => Throw
  | Some (NoNewVertices, (from, to)) =>
      a ← AreVerticesAligned A vs from to;
      if a : bool then
        if extend && negb (CheckIsToSplit_Relaxed (cr_split_one k) (cr_split_two k)) then Ok (m, QualityCheckFailed) else Throw
      else
      r ← SplitPolygon_NoNewVertices A c n from to m;
      match r.2 with
      | NoSplit => Ok (r.1, SplitUnderTolerance)
      | Split f cells => Ok (r.1, Successfull (Some NoNewVertices) [] [] f cells)
      end
  | Some (NewVertexFrom, _) =>
      if bool_decide (cr_split_one k = EdgeLengthNotEnough) then Ok (m, SplitUnderTolerance) else
      match ei_type one with
      | InsideEdge =>
          let to := nearest_end A n two in
          a ← middle_aligned A false vs (ei_index one) to;
          let to' := if (a : bool) && bool_decide (cr_split_two k <> NotInside) then flip n to two else to in
          b ← if a : bool then middle_aligned A false vs (ei_index one) to' else Ok false;
          if b : bool then Throw else
          s ← SplitCell1D_MiddlePoint A (cr_one k) m;
          d ← vat directions (ei_index one);
          r ← SplitPolygon_NewVertexFrom A c n (ei_index one) to' s.2.1 s.2.2 d s.1;
          match r.2 with
          | NoSplit => m ← remove_split (cr_one k) s.2 r.1; Ok (m, SplitUnderTolerance)
          | Split f cells =>
              Ok (r.1, Successfull (Some NewVertexFrom) [s.2.1] [RefinedEdge s.2.2 (cr_one k) s.2.1 (ei_index one)] f cells)
          end
      | _ => Abort
      end
  | Some (NewVertexTo, _) =>
      if bool_decide (cr_split_two k = EdgeLengthNotEnough) then Ok (m, SplitUnderTolerance) else
      match ei_type two with
      | InsideEdge =>
          let from := nearest_end A n one in
          a ← middle_aligned A true vs (ei_index two) from;
          let from' := if (a : bool) && bool_decide (cr_split_one k <> NotInside) then flip n from one else from in
          b ← if a : bool then middle_aligned A true vs (ei_index two) from' else Ok false;
          if b : bool then Throw else
          s ← SplitCell1D_MiddlePoint A (cr_two k) m;
          d ← vat directions (ei_index two);
          r ← SplitPolygon_NewVertexTo A c n from' (ei_index two) s.2.1 s.2.2 d s.1;
          match r.2 with
          | NoSplit => m ← remove_split (cr_two k) s.2 r.1; Ok (m, SplitUnderTolerance)
          | Split f cells =>
              Ok (r.1, Successfull (Some NewVertexTo) [s.2.1] [RefinedEdge s.2.2 (cr_two k) s.2.1 (ei_index two)] f cells)
          end
      | _ => Abort
      end
  | Some (NewVertices, _) =>
      match ei_type one, ei_type two with
      | InsideEdge, InsideEdge =>
          s ← SplitCell1D_MiddlePoint A (cr_one k) m;
          t ← SplitCell1D_MiddlePoint A (cr_two k) s.1;
          d1 ← vat directions (ei_index one);
          d2 ← vat directions (ei_index two);
          r ← SplitPolygon_NewVertices A c n (ei_index one) (ei_index two) s.2.1 t.2.1 s.2.2 t.2.2 d1 d2 t.1;
          match r.2 with
          | NoSplit =>
              t1 ← vget t.2.2 1; m ← CellRemove D1 t1 r.1;
              t0 ← vget t.2.2 0; m ← CellRemove D1 t0 m;
              s1 ← vget s.2.2 1; m ← CellRemove D1 s1 m;
              s0 ← vget s.2.2 0; m ← CellRemove D1 s0 m;
              m ← CellRemove D0 t.2.1 m;
              m ← CellRemove D0 s.2.1 m;
              m ← SetState D1 (cr_two k) true m;
              m ← SetState D1 (cr_one k) true m;
              Ok (m, SplitUnderTolerance)
          | Split f cells =>
              Ok (r.1, Successfull (Some NewVertices) [s.2.1; t.2.1]
                    [RefinedEdge s.2.2 (cr_one k) s.2.1 (ei_index one); RefinedEdge t.2.2 (cr_two k) t.2.1 (ei_index two)] f cells)
          end
      | _, _ => Abort
      end
  end.

(** The directions of the edges of a cell, RU2 836-843. *)
Definition EdgesDirection (c : nat) (m : mesh) : outcome (list bool) :=
  n ← RelNumber E2 c m;
  omapM (fun e =>
           o ← RelGet V2 c e m;
           t ← RelGet V2 c ((e + 1) mod N.to_nat n) m;
           f ← FindEdgeByExtremes E2 c o t m;
           Ok (f =? e)) (seq 0 (N.to_nat n)).

(** One cell of RefineMesh2D, refine_triangles.cpp:367-403: the split and the update of the neighbours of the updated edges. *)
Definition UpdateAll (c : nat) (updated : list refined_edge) (directions : list (list bool)) (m : mesh) : outcome (mesh * list (nat * nat)) :=
  ofold (fun s r =>
           t ← RefinePolygonCell_UpdateNeighbours c (re_original r) (re_vertex r) (re_children r) directions s.1;
           Ok (t.1, s.2 ++ t.2)) updated (m, []).
