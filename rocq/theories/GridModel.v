(** * Structured meshes: Mesh/MeshUtilities_MeshGenerators.cpp (MG).

    Coordinates are exact ([Qc]).  The loops that create the cells of one dimension share a running index, which is the
    position in the list of the cells in the order of the loops.  Lists of coordinates are assumed not to be empty: the
    code computes [numBasePoints - 1] in unsigned arithmetic. *)
From Coq Require Import QArith Qcanon.
From Verif Require Import Base CsrModel MeshModel UtilModel FillModel.
Local Open Scope nat_scope.

(** [k * (condition)] *)
Definition flag (k : N) (b : bool) : N := if b then k else 0%N.
(** [x == 0], [x == n - 1], [x != 0 && x != n - 1]. *)
Definition first (x : nat) : bool := x =? 0.
Definition final (n x : nat) : bool := x =? n - 1.
Definition inner (n x : nat) : bool := negb (x =? 0) && negb (x =? n - 1).

(** [for h < nh: for b < nb] and [for w < nw: for h < nh: for l < nl]. *)
Definition grid2 (nh nb : nat) : list (nat * nat) := seq 0 nh ≫= fun h => (fun b => (h, b)) <$> seq 0 nb.
Definition grid3 (nw nh nl : nat) : list (nat * nat * nat) :=
  seq 0 nw ≫= fun w => seq 0 nh ≫= fun h => (fun l => (w, h, l)) <$> seq 0 nl.

(** Bodies of the loops: MG 64-67, 86-88, 131-135. *)
Definition put_point (m : mesh) (ip : nat * (N * N * N * N)) : outcome mesh :=
  m ← SetState D0 ip.1 true m;
  m ← Cell0DInsertCoordinates ip.1 ip.2.1.1.1 ip.2.1.1.2 ip.2.1.2 m;
  SetMarker D0 ip.1 ip.2.2 m.
Definition put_edge (m : mesh) (ie : nat * (N * N * N)) : outcome mesh :=
  m ← Cell1DInsertExtremes ie.1 ie.2.1.1 ie.2.1.2 m;
  m ← SetState D1 ie.1 true m;
  SetMarker D1 ie.1 ie.2.2 m.
Definition put_polygon (m : mesh) (ic : nat * (list N * list N * N)) : outcome mesh :=
  m ← RelInsertList V2 ic.1 ic.2.1.1 m;
  m ← RelInsertList E2 ic.1 ic.2.1.2 m;
  m ← SetState D2 ic.1 true m;
  SetMarker D2 ic.1 ic.2.2 m.

(** ** CreateRectangleMesh, MG 27-140 *)

(** [origin + x * baseTangent + y * heightTangent]. *)
Definition rect_coordinate (o tb th : vec3) (x y : Qc) : vec3 := along (along o tb x) th y.

(** MG 55-62; the list of the points with their markers, in the order of the loops of MG 49-69. *)
Definition rect_point_mark (nB nH h b : nat) : N :=
  (flag 1 (first b && first h) + flag 2 (final nB b && first h) + flag 4 (first b && final nH h) +
   flag 3 (final nB b && final nH h) + flag 5 (first h && inner nB b) + flag 7 (final nH h && inner nB b) +
   flag 8 (first b && inner nH h) + flag 6 (final nB b && inner nH h))%N.
Definition rect_points (o tb th : vec3) (bs hs : list Qc) : list (N * N * N * N) :=
  imap pair hs ≫= fun hy =>
    (fun bx => (dbl3 (rect_coordinate o tb th bx.2 hy.2), rect_point_mark (length bs) (length hs) hy.1 bx.1)) <$> imap pair bs.

(** MG 75-91. *)
Definition rect_horizontal (nB nH : nat) : list (N * N * N) :=
  (fun hb : nat * nat => let (h, b) := hb in
     let v := b + h * nB in
     (N.of_nat v, N.of_nat (v + 1), (flag 5 (first h) + flag 7 (final nH h))%N)) <$> grid2 nH (nB - 1).
(** MG 94-110. *)
Definition rect_vertical (nB nH : nat) : list (N * N * N) :=
  (fun hb : nat * nat => let (h, b) := hb in
     let v := b + h * nB in
     (N.of_nat v, N.of_nat (v + nB), (flag 8 (first b) + flag 6 (final nB b))%N)) <$> grid2 (nH - 1) nB.
(** MG 116-138. *)
Definition rect_cells (nB nH : nat) : list (list N * list N * N) :=
  (fun hb : nat * nat => let (h, b) := hb in
     let v := b + h * nB in
     let eh := b + h * (nB - 1) in
     let ev := v + nH * (nB - 1) in
     (N.of_nat <$> [v; v + 1; v + nB + 1; v + nB],
      N.of_nat <$> [eh; ev + 1; eh + (nB - 1); ev], 0%N)) <$> grid2 (nH - 1) (nB - 1).

Definition CreateRectangleMesh (o tb th : vec3) (bs hs : list Qc) (m : mesh) : outcome mesh :=
  let nB := length bs in
  let nH := length hs in
  let m := InitializeDimension 2 m in
  let m := CellsInitialize D0 (nB * nH) m in
  let m := CellsInitialize D1 (nH * (nB - 1) + nB * (nH - 1)) m in
  let m := CellsInitialize D2 ((nB - 1) * (nH - 1)) m in
  m ← ofold put_point (imap pair (rect_points o tb th bs hs)) m;
  m ← ofold put_edge (imap pair (rect_horizontal nB nH ++ rect_vertical nB nH)) m;
  m ← RelInitConst V2 4 m;
  m ← RelInitConst E2 4 m;
  ofold put_polygon (imap pair (rect_cells nB nH)) m.

(** ** CreateStructuredTriangularMesh, MG 142-284: points, horizontal and vertical edges as above *)

(** MG 229-243. *)
Definition tri_oblique (nB nH : nat) : list (N * N * N) :=
  (fun hb : nat * nat => let (h, b) := hb in
     let v := b + h * nB in
     (N.of_nat v, N.of_nat (v + nB + 1), 0%N)) <$> grid2 (nH - 1) (nB - 1).
(** MG 249-282: two triangles in each pass. *)
Definition tri_cells (nB nH : nat) : list (list N * list N * N) :=
  grid2 (nH - 1) (nB - 1) ≫= fun hb : nat * nat => let (h, b) := hb in
     let v := b + h * nB in
     let eh := b + h * (nB - 1) in
     let ev := v + nH * (nB - 1) in
     let eo := nH * (nB - 1) + (nH - 1) * nB + b + h * (nB - 1) in
     [(N.of_nat <$> [v; v + 1; v + nB + 1], N.of_nat <$> [eh; ev + 1; eo], 0%N);
      (N.of_nat <$> [v; v + nB + 1; v + nB], N.of_nat <$> [eo; eh + (nB - 1); ev], 0%N)].

Definition CreateStructuredTriangularMesh (o tb th : vec3) (bs hs : list Qc) (m : mesh) : outcome mesh :=
  let nB := length bs in
  let nH := length hs in
  let m := InitializeDimension 2 m in
  let m := CellsInitialize D0 (nB * nH) m in
  let m := CellsInitialize D1 (nH * (nB - 1) + nB * (nH - 1) + (nB - 1) * (nH - 1)) m in
  let m := CellsInitialize D2 ((nB - 1) * (nH - 1) * 2) m in
  m ← ofold put_point (imap pair (rect_points o tb th bs hs)) m;
  m ← ofold put_edge (imap pair (rect_horizontal nB nH ++ rect_vertical nB nH ++ tri_oblique nB nH)) m;
  m ← RelInitConst V2 3 m;
  m ← RelInitConst E2 3 m;
  ofold put_polygon (imap pair (tri_cells nB nH)) m.

(** ** CreateParallelepipedMesh, MG 1826-2174 *)

(** Cell2DAddVertices, Cell2DAddEdges, Cell3DAdd...: MG 2013-2020, 2161-2169. *)
Definition add_polygon (m : mesh) (ic : nat * (list N * list N * N)) : outcome mesh :=
  m ← RelAdd V2 ic.1 ic.2.1.1 m;
  m ← RelAdd E2 ic.1 ic.2.1.2 m;
  m ← SetState D2 ic.1 true m;
  SetMarker D2 ic.1 ic.2.2 m.
Definition add_polyhedron (m : mesh) (ic : nat * (polyhedron * N)) : outcome mesh :=
  m ← RelAdd V3 ic.1 (ph_v ic.2.1) m;
  m ← RelAdd E3 ic.1 (ph_e ic.2.1) m;
  m ← RelAdd F3 ic.1 (ph_f ic.2.1) m;
  m ← SetState D3 ic.1 true m;
  SetMarker D3 ic.1 ic.2.2 m.

(** MG 1869-1895; markers of the points. *)
Definition box_point_mark (nL nH nW w h l : nat) : N :=
  let fl := first l in let fh := first h in let fw := first w in
  let ll := final nL l in let lh := final nH h in let lw := final nW w in
  let il := inner nL l in let ih := inner nH h in let iw := inner nW w in
  (flag 1 (fl && fh && fw) + flag 2 (ll && fh && fw) + flag 3 (ll && lh && fw) + flag 4 (fl && lh && fw) +
   flag 5 (fl && fh && lw) + flag 6 (ll && fh && lw) + flag 7 (ll && lh && lw) + flag 8 (fl && lh && lw) +
   flag 9 (il && fh && fw) + flag 10 (ll && ih && fw) + flag 11 (il && lh && fw) + flag 12 (fl && ih && fw) +
   flag 13 (il && fh && lw) + flag 14 (ll && ih && lw) + flag 15 (il && lh && lw) + flag 16 (fl && ih && lw) +
   flag 17 (fl && fh && iw) + flag 18 (ll && fh && iw) + flag 19 (ll && lh && iw) + flag 20 (fl && lh && iw) +
   flag 21 (il && ih && fw) + flag 22 (il && ih && lw) + flag 23 (fl && ih && iw) + flag 24 (ll && ih && iw) +
   flag 25 (il && fh && iw) + flag 26 (il && lh && iw))%N.
Definition box_coordinate (o tl th tw : vec3) (x y z : Qc) : vec3 := along (along (along o tl x) th y) tw z.
(** MG 1858-1904. *)
Definition box_points (o tl th tw : vec3) (ls hs ws : list Qc) : list (N * N * N * N) :=
  imap pair ws ≫= fun wz => imap pair hs ≫= fun hy =>
    (fun lx => (dbl3 (box_coordinate o tl th tw lx.2 hy.2 wz.2),
                box_point_mark (length ls) (length hs) (length ws) wz.1 hy.1 lx.1)) <$> imap pair ls.

Section box.
  Context (nL nH nW : nat).
  Definition box_vertex (w h l : nat) : nat := l + h * nL + w * nL * nH.

  (** MG 1910-1935, 1938-1963, 1966-1991. *)
  Definition box_length_edges : list (N * N * N) :=
    (fun whl : nat * nat * nat => let '(w, h, l) := whl in
       let v := box_vertex w h l in
       (N.of_nat v, N.of_nat (v + 1),
        (flag 9 (first h && first w) + flag 11 (final nH h && first w) + flag 13 (first h && final nW w) +
         flag 15 (final nH h && final nW w) + flag 21 (inner nH h && first w) + flag 22 (inner nH h && final nW w) +
         flag 25 (first h && inner nW w) + flag 26 (final nH h && inner nW w))%N)) <$> grid3 nW nH (nL - 1).
  Definition box_height_edges : list (N * N * N) :=
    (fun whl : nat * nat * nat => let '(w, h, l) := whl in
       let v := box_vertex w h l in
       (N.of_nat v, N.of_nat (v + nL),
        (flag 10 (final nL l && first w) + flag 12 (first l && first w) + flag 14 (final nL l && final nW w) +
         flag 16 (first l && final nW w) + flag 21 (inner nL l && first w) + flag 22 (inner nL l && final nW w) +
         flag 23 (first l && inner nW w) + flag 24 (final nL l && inner nW w))%N)) <$> grid3 nW (nH - 1) nL.
  Definition box_width_edges : list (N * N * N) :=
    (fun whl : nat * nat * nat => let '(w, h, l) := whl in
       let v := box_vertex w h l in
       (N.of_nat v, N.of_nat (v + nL * nH),
        (flag 17 (first l && first h) + flag 18 (final nL l && first h) + flag 19 (final nL l && final nH h) +
         flag 20 (first l && final nH h) + flag 23 (first l && inner nH h) + flag 24 (final nL l && inner nH h) +
         flag 25 (inner nL l && first h) + flag 26 (inner nL l && final nH h))%N)) <$> grid3 (nW - 1) nH nL.

  (** Indices of edges: MG 2002-2004, 2034-2036, 2071-2076. *)
  Definition box_e1 (w h l : nat) : nat := l + h * (nL - 1) + w * (nL - 1) * nH.
  Definition box_e2 (w h l : nat) : nat := l + h * nL + w * nL * (nH - 1) + nH * nW * (nL - 1).
  Definition box_e3 (w h l : nat) : nat := box_vertex w h l + nH * nW * (nL - 1) + nL * nW * (nH - 1).

  (** MG 1995-2024, 2027-2060, 2063-2100. *)
  Definition box_lh_faces : list (list N * list N * N) :=
    (fun whl : nat * nat * nat => let '(w, h, l) := whl in
       let v := box_vertex w h l in
       (N.of_nat <$> [v; v + 1; v + nL + 1; v + nL],
        N.of_nat <$> [box_e1 w h l; box_e2 w h l + 1; box_e1 w h l + (nL - 1); box_e2 w h l],
        (flag 21 (first w) + flag 22 (final nW w))%N)) <$> grid3 nW (nH - 1) (nL - 1).
  Definition box_lw_faces : list (list N * list N * N) :=
    (fun whl : nat * nat * nat => let '(w, h, l) := whl in
       let v := box_vertex w h l in
       (N.of_nat <$> [v; v + 1; v + nL * nH + 1; v + nL * nH],
        N.of_nat <$> [box_e1 w h l; box_e3 w h l + 1; box_e1 w h l + (nL - 1) * nH; box_e3 w h l],
        (flag 25 (first h) + flag 26 (final nH h))%N)) <$> grid3 (nW - 1) nH (nL - 1).
  Definition box_hw_faces : list (list N * list N * N) :=
    (fun whl : nat * nat * nat => let '(w, h, l) := whl in
       let v := box_vertex w h l in
       (N.of_nat <$> [v; v + nL; v + nL * nH + nL; v + nL * nH],
        N.of_nat <$> [box_e2 w h l; box_e3 w h l + nL; box_e2 w h l + nL * (nH - 1); box_e3 w h l],
        (flag 23 (first l) + flag 24 (final nL l))%N)) <$> grid3 (nW - 1) (nH - 1) nL.

  (** Indices of faces: MG 2121-2129. *)
  Definition box_f1 (w h l : nat) : nat := l + h * (nL - 1) + w * (nL - 1) * (nH - 1).
  Definition box_f2 (w h l : nat) : nat := l + h * (nL - 1) + w * (nL - 1) * nH + (nH - 1) * nW * (nL - 1).
  Definition box_f3 (w h l : nat) : nat :=
    l + h * nL + w * nL * (nH - 1) + (nH - 1) * nW * (nL - 1) + (nL - 1) * (nW - 1) * nH.

  (** MG 2104-2173. *)
  Definition box_cells : list (polyhedron * N) :=
    (fun whl : nat * nat * nat => let '(w, h, l) := whl in
       let v := box_vertex w h l in
       let e1 := box_e1 w h l in let e2 := box_e2 w h l in let e3 := box_e3 w h l in
       let f1 := box_f1 w h l in let f2 := box_f2 w h l in let f3 := box_f3 w h l in
       (Polyhedron
          (N.of_nat <$> [v; v + 1; v + nL + 1; v + nL;
                         v + nL * nH; v + 1 + nL * nH; v + nL + 1 + nL * nH; v + nL + nL * nH])
          (N.of_nat <$> [e1; e1 + (nL - 1); e1 + (nL - 1) * nH; e1 + (nL - 1) + (nL - 1) * nH;
                         e2; e2 + 1; e2 + nL * (nH - 1); e2 + nL * (nH - 1) + 1;
                         e3; e3 + 1; e3 + nL; e3 + nL + 1])
          (N.of_nat <$> [f1; f1 + (nL - 1) * (nH - 1); f2; f2 + (nL - 1); f3; f3 + 1]), 0%N))
    <$> grid3 (nW - 1) (nH - 1) (nL - 1).
End box.

Definition CreateParallelepipedMesh (o tl th tw : vec3) (ls hs ws : list Qc) (m : mesh) : outcome mesh :=
  let nL := length ls in
  let nH := length hs in
  let nW := length ws in
  let m := InitializeDimension 3 m in
  let m := CellsInitialize D0 (nL * nH * nW) m in
  let m := CellsInitialize D1 (nH * nW * (nL - 1) + nL * nW * (nH - 1) + nL * nH * (nW - 1)) m in
  let m := CellsInitialize D2 (nW * (nL - 1) * (nH - 1) + nL * (nW - 1) * (nH - 1) + nH * (nW - 1) * (nL - 1)) m in
  let m := CellsInitialize D3 ((nL - 1) * (nH - 1) * (nW - 1)) m in
  m ← ofold put_point (imap pair (box_points o tl th tw ls hs ws)) m;
  m ← ofold put_edge (imap pair (box_length_edges nL nH nW ++ box_height_edges nL nH nW ++ box_width_edges nL nH nW)) m;
  m ← ofold add_polygon (imap pair (box_lh_faces nL nH nW ++ box_lw_faces nL nH nW ++ box_hw_faces nL nH nW)) m;
  ofold add_polyhedron (imap pair (box_cells nL nH nW)) m.
