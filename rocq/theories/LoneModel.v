(** * The mesh of one polygon: Mesh/MeshUtilities2D.cpp (MU2) 500-557. *)
From Verif Require Import Base CsrModel MeshModel.

(** Additions of [unsigned int] wrap. *)
Definition uint (v : nat) : N := (N.of_nat v mod (UINT_MAX + 1))%N.

(** Mesh2DFromPolygon, MU2 500-557.  The matrix is a list of columns, so it has three rows by typing. *)
Definition Mesh2DFromPolygon (pts : list (N * N * N)) (vertexMarkers edgeMarkers : list N) (m : mesh) : outcome mesh :=
  let n := length pts in
  let m := InitializeDimension 2 m in
  _ ← require (2 <? n);
  let m := CellsInitialize D0 n m in
  m ← ofold (fun m vp =>
               m ← SetState D0 vp.1 true m;
               m ← Cell0DInsertCoordinates vp.1 vp.2.1.1 vp.2.1.2 vp.2.2 m;
               k ← (if length vertexMarkers =? n then vget vertexMarkers vp.1 else Ok (uint (vp.1 + 1)));
               SetMarker D0 vp.1 k m)
            (imap pair pts) m;
  let m := CellsInitialize D1 n m in
  m ← ofold (fun m e =>
               m ← Cell1DInsertExtremes e (N.of_nat e) (N.of_nat ((e + 1) mod n)) m;
               m ← SetState D1 e true m;
               k ← (if length edgeMarkers =? n then vget edgeMarkers e else Ok (uint (n + e + 1)));
               SetMarker D1 e k m)
            (seq 0 n) m;
  let m := CellsInitialize D2 1 m in
  m ← RelInitOne V2 0 n m;
  m ← RelInitOne E2 0 n m;
  m ← ofold (fun m v => RelInsert V2 0 v (N.of_nat v) m) (seq 0 n) m;
  m ← ofold (fun m e => RelInsert E2 0 e (N.of_nat e) m) (seq 0 n) m;
  m ← SetState D2 0 true m;
  m ← SetMarker D2 0 0 m;
  m ← RelInitConst R12 2 m;
  ofold (fun m e => RelInsert R12 e 1 0 m) (seq 0 n) m.
