(** * Building meshes: Mesh/MeshUtilities{1D,2D,3D}.cpp (MU1, MU2, MU3).

    Matrices are lists of columns, so the assertions on the number of rows hold by typing.  Entries of integer matrices
    are already converted to [unsigned int].  Floating-point arithmetic is exact ([Qc]); a coordinate is stored through
    the injective code [dbl] because the storage model keeps coordinates opaque. *)
From Coq Require Import QArith Qcanon.
From Verif Require Import Base CsrModel MeshModel UtilModel.
Local Open Scope nat_scope.

Definition dbl (q : Qc) : N := Npos (encode q).
Definition vec3 : Type := Qc * Qc * Qc.
Definition dbl3 (v : vec3) : N * N * N := (dbl v.1.1, dbl v.1.2, dbl v.2).

(** [origin + c * tangent]. *)
Definition along (o t : vec3) (c : Qc) : vec3 :=
  ((o.1.1 + c * t.1.1)%Qc, (o.1.2 + c * t.1.2)%Qc, (o.2 + c * t.2)%Qc).

(** FillMesh1D, MU1 22-50. *)
Definition FillMesh1D (o t : vec3) (cs : list Qc) (m : mesh) : outcome mesh :=
  match cs with
  | [] => Ok m
  | _ =>
      let n := length cs in
      let m := CellsInitialize D0 n (InitializeDimension 1 m) in
      m ← ofold (fun m ic =>
                   m ← SetState D0 ic.1 true m;
                   let p := dbl3 (along o t ic.2) in
                   Cell0DInsertCoordinates ic.1 p.1.1 p.1.2 p.2 m)
                (imap pair cs) m;
      m ← SetMarker D0 0 1 m;
      m ← SetMarker D0 (n - 1) 2 m;
      let m := CellsInitialize D1 (n - 1) m in
      ofold (fun m e =>
               m ← Cell1DInsertExtremes e (N.of_nat e) (N.of_nat (e + 1)) m;
               m ← SetState D1 e true m;
               SetMarker D1 e 0 m)
            (seq 0 (n - 1)) m
  end.

(** Mesh1DFromSegment, MU1 133-143; [v0], [v1]: the two columns of segmentVertices. *)
Definition Mesh1DFromSegment (v0 v1 : vec3) (markers : list N) (m : mesh) : outcome mesh :=
  m ← FillMesh1D v0 v1 [0%Qc; 1%Qc] m;
  k0 ← vget markers 0;
  m ← SetMarker D0 0 k0 m;
  k1 ← vget markers 1;
  SetMarker D0 (num D0 m - 1) k1 m.

(** [for i: mesh.CellkDSetState(i, true)]. *)
Definition activate (d : dim) (n : nat) (m : mesh) : outcome mesh :=
  ofold (fun m i => SetState d i true m) (seq 0 n) m.

(** Cell0Ds part, MU2 31-37, MU3 35-40, 138-143. *)
Definition fill_points (c0 : list (N * N * N)) (m : mesh) : outcome mesh :=
  let m := CellsInitialize D0 (length c0) m in
  m ← Cell0DsInsertCoordinates c0 m;
  activate D0 (length c0) m.

(** Cell1Ds part, MU2 39-45, MU3 46-51. *)
Definition fill_edges (c1 : list (N * N)) (m : mesh) : outcome mesh :=
  let m := CellsInitialize D1 (length c1) m in
  m ← Cell1DsInsertExtremes c1 m;
  activate D1 (length c1) m.

(** Cell2Ds part, MU2 47-73, MU3 57-85. *)
Definition fill_polygons (c2 : list (list (N * N))) (m : mesh) : outcome mesh :=
  let m := CellsInitialize D2 (length c2) m in
  m ← RelInitAll V2 (length <$> c2) m;
  m ← RelInitAll E2 (length <$> c2) m;
  ofold (fun m fp =>
           m ← RelInsertList V2 fp.1 (fp.2.*1) m;
           m ← RelInsertList E2 fp.1 (fp.2.*2) m;
           SetState D2 fp.1 true m)
        (imap pair c2) m.

(** FillMesh2D, MU2 23-73. *)
Definition FillMesh2D (c0 : list (N * N * N)) (c1 : list (N * N)) (c2 : list (list (N * N))) (m : mesh) : outcome mesh :=
  let m := InitializeDimension 2 m in
  m ← fill_points c0 m;
  m ← fill_edges c1 m;
  fill_polygons c2 m.

(** Mesh3DPolyhedron: VerticesIndex, EdgesIndex, FacesIndex. *)
Record polyhedron := Polyhedron { ph_v : list N; ph_e : list N; ph_f : list N }.

(** Cell3Ds part, MU3 88-118, 189-218. *)
Definition fill_polyhedra (c3 : list polyhedron) (m : mesh) : outcome mesh :=
  let m := CellsInitialize D3 (length c3) m in
  m ← RelInitAll V3 (length ∘ ph_v <$> c3) m;
  m ← RelInitAll E3 (length ∘ ph_e <$> c3) m;
  m ← RelInitAll F3 (length ∘ ph_f <$> c3) m;
  ofold (fun m cp =>
           m ← RelInsertList V3 cp.1 (ph_v cp.2) m;
           m ← RelInsertList E3 cp.1 (ph_e cp.2) m;
           m ← RelInsertList F3 cp.1 (ph_f cp.2) m;
           SetState D3 cp.1 true m)
        (imap pair c3) m.

(** [if (l.size() > 0) ...] *)
Definition unless_empty {A} (f : list A -> mesh -> outcome mesh) (l : list A) (m : mesh) : outcome mesh :=
  match l with [] => Ok m | _ => f l m end.

(** FillMesh3D, first overload, MU3 23-119. *)
Definition FillMesh3D (c0 : list (N * N * N)) (c1 : list (N * N)) (c2 : list (list (N * N))) (c3 : list polyhedron)
  (m : mesh) : outcome mesh :=
  let m := InitializeDimension 3 m in
  m ← unless_empty fill_points c0 m;
  m ← unless_empty fill_edges c1 m;
  m ← unless_empty fill_polygons c2 m;
  unless_empty fill_polyhedra c3 m.

(** ** Sub-meshes *)

(** [std::set] of numbers: its elements in increasing order. *)
Fixpoint set_insert (v : N) (l : list N) : list N :=
  match l with
  | [] => [v]
  | w :: l' => if (v <? w)%N then v :: w :: l' else if (v =? w)%N then l else w :: set_insert v l'
  end.

(** FilterMesh1D, MU1 53-80; the result is (Cell0Ds, Cell1Ds). *)
Definition FilterMesh1D (f1 : list N) (m : mesh) : outcome (list N * list N) :=
  ofold (fun s c =>
           let i := N.to_nat c in
           b ← IsActive D1 i m;
           if b : bool then
             vs ← omapM (fun v => Cell1DVertex i v m) [0; 1];
             Ok (foldl (fun l v => set_insert v l) s.1 vs, s.2 ++ [c])
           else Ok s)
        f1 ([], []).

(** FilterMesh2D, MU2 76-110; the result is (Cell0Ds, Cell1Ds, Cell2Ds).  Vertices and edges are read in one loop over
    the number of vertices. *)
Definition FilterMesh2D (f2 : list N) (m : mesh) : outcome (list N * list N * list N) :=
  ofold (fun s c =>
           let i := N.to_nat c in
           b ← IsActive D2 i m;
           if b : bool then
             n ← RelNumber V2 i m;
             s ← ofold (fun s v =>
                          p ← RelGet V2 i v m;
                          e ← RelGet E2 i v m;
                          Ok (set_insert p s.1.1, set_insert e s.1.2, s.2))
                       (seq 0 (N.to_nat n)) s;
             Ok (s.1, s.2 ++ [c])
           else Ok s)
        f2 ([], [], []).

(** FilterMesh3D, MU3 2840-2886; the result is (Cell0Ds, Cell1Ds, Cell2Ds, Cell3Ds). *)
Definition FilterMesh3D (f3 : list N) (m : mesh) : outcome (list N * list N * list N * list N) :=
  ofold (fun s c =>
           let i := N.to_nat c in
           b ← IsActive D3 i m;
           if b : bool then
             vs ← read_row V3 i m;
             es ← read_row E3 i m;
             fs ← read_row F3 i m;
             let ins := foldl (fun l v => set_insert v l) in
             Ok (ins s.1.1.1 vs, ins s.1.1.2 es, ins s.1.2 fs, s.2 ++ [c])
           else Ok s)
        f3 ([], [], [], []).

(** First statements of each loop of ExtractMesh*: [NewToOld[v] = old; OldToNew[old] = v] ([operator[]]), then reading the
    cell.  The loop returns OldToNew and the list of what was read; NewToOld is the filter. *)
Definition renumber_cells {A} (total : nat) (flt : list N) (read : nat -> outcome A) : outcome (list N * list A) :=
  ofold (fun s vo =>
           t ← vset s.1 (N.to_nat vo.2) (N.of_nat vo.1);
           x ← read (N.to_nat vo.2);
           Ok (t, s.2 ++ [x]))
        (imap pair flt) (replicate total UINT_MAX, []).

(** [OldToNew.at(v)]. *)
Definition new_of (t : list N) (v : N) : outcome N := vat t (N.to_nat v).

(** Cell1DExtremes of an old edge, renamed: MU1 110-113, MU2 146-149. *)
Definition read_edge (t0 : list N) (m : mesh) (e : nat) : outcome (N * N) :=
  o ← Cell1DOrigin e m; t ← Cell1DEnd e m;
  o' ← new_of t0 o; t' ← new_of t0 t;
  Ok (o', t').

(** An old polygon, renamed: MU2 159-170. *)
Definition read_polygon (t0 t1 : list N) (m : mesh) (c : nat) : outcome (list (N * N)) :=
  vs ← RelRow V2 c m;
  es ← RelRow E2 c m;
  require (length vs =? length es);;
  omapM (fun ve => v ← new_of t0 ve.1; e ← new_of t1 ve.2; Ok (v, e)) (zip vs es).

(** An old polyhedron, renamed: MU3 2951-2969. *)
Definition read_polyhedron (t0 t1 t2 : list N) (m : mesh) (c : nat) : outcome polyhedron :=
  vs ← RelRow V3 c m;
  es ← RelRow E3 c m;
  fs ← RelRow F3 c m;
  vs' ← omapM (new_of t0) vs;
  es' ← omapM (new_of t1) es;
  fs' ← omapM (new_of t2) fs;
  Ok (Polyhedron vs' es' fs').

(** ExtractMesh1D, MU1 83-131; the result is the mesh and the OldToNew tables. *)
Definition ExtractMesh1D (f0 f1 : list N) (old : mesh) (m : mesh) : outcome (mesh * (list N * list N)) :=
  r0 ← renumber_cells (num D0 old) f0 (fun i => Cell0DCoordinates i old);
  r1 ← renumber_cells (num D1 old) f1 (read_edge r0.1 old);
  let m := InitializeDimension 1 m in
  m ← fill_points r0.2 m;
  m ← fill_edges r1.2 m;
  Ok (m, (r0.1, r1.1)).

(** Copying markers and states, MU2 173-192, MU3 2974-3001. *)
Definition copy_marks (d : dim) (flt : list N) (old : mesh) (m : mesh) : outcome mesh :=
  ofold (fun m vo =>
           k ← Marker d (N.to_nat vo.2) old;
           m ← SetMarker d vo.1 k m;
           b ← IsActive d (N.to_nat vo.2) old;
           SetState d vo.1 b m)
        (imap pair flt) m.

(** ExtractMesh2D, MU2 112-192. *)
Definition ExtractMesh2D (f0 f1 f2 : list N) (old : mesh) (m : mesh) : outcome (mesh * (list N * list N * list N)) :=
  r0 ← renumber_cells (num D0 old) f0 (fun i => Cell0DCoordinates i old);
  r1 ← renumber_cells (num D1 old) f1 (read_edge r0.1 old);
  r2 ← renumber_cells (num D2 old) f2 (read_polygon r0.1 r1.1 old);
  m ← FillMesh2D r0.2 r1.2 r2.2 m;
  m ← copy_marks D0 f0 old m;
  m ← copy_marks D1 f1 old m;
  m ← copy_marks D2 f2 old m;
  Ok (m, (r0.1, r1.1, r2.1)).

(** ExtractMesh3D, MU3 2888-3003. *)
Definition ExtractMesh3D (f0 f1 f2 f3 : list N) (old : mesh) (m : mesh)
  : outcome (mesh * (list N * list N * list N * list N)) :=
  r0 ← renumber_cells (num D0 old) f0 (fun i => Cell0DCoordinates i old);
  r1 ← renumber_cells (num D1 old) f1 (read_edge r0.1 old);
  r2 ← renumber_cells (num D2 old) f2 (read_polygon r0.1 r1.1 old);
  r3 ← renumber_cells (num D3 old) f3 (read_polyhedron r0.1 r1.1 r2.1 old);
  m ← FillMesh3D r0.2 r1.2 r2.2 r3.2 m;
  m ← copy_marks D0 f0 old m;
  m ← copy_marks D1 f1 old m;
  m ← copy_marks D2 f2 old m;
  m ← copy_marks D3 f3 old m;
  Ok (m, (r0.1, r1.1, r2.1, r3.1)).
