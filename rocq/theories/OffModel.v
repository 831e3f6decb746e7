(** * Meshes of polygons in the Object File Format.

    File modelled: GeDiM/src/Mesh/ObjectFileFormatInterface.cpp ("OFF"); the reader of lines is that of CsvModel.v.

    Simplifications.  The file system maps paths to contents; opening a file for writing always works.  When a number cannot
    be read the code goes on with memory that was never assigned (the numbers of cells, the coordinates, the entries of a
    polygon): the outcome is [UB].  The exception is the number of vertices of a polygon, which is set to zero before. *)
From Verif Require Import Base StringsModel CsvModel FillModel EdgesModel CsrModel MeshModel.
From Coq Require Import Ascii.

(** OFFMesh, ObjectFileFormatInterface.hpp:23-31: the numbers are those of the first line and need not agree with the
    tables. *)
Record off_mesh := OffMesh {
  NumCell0Ds : N;
  NumCell1Ds : N;
  NumCell2Ds : N;
  Points : list (N * N * N);
  Polygons : list (list Z)
}.

(** Conversions between [unsigned int] and [int]. *)
Definition to_int (v : N) : Z := if (v <? 2147483648)%N then Z.of_N v else (Z.of_N v - 4294967296)%Z.
Definition to_uint (z : Z) : N := Z.to_N (z `mod` 4294967296).

(** MeshDAOToOFFMesh, OFF 104-124. *)
Definition MeshDAOToOFFMesh (m : mesh) : outcome off_mesh :=
  points ← omapM (fun v => Cell0DCoordinates v m) (seq 0 (num D0 m));
  polygons ← omapM (fun f => vs ← RelRow V2 f m; Ok (map to_int vs)) (seq 0 (num D2 m));
  Ok (OffMesh (N.of_nat (num D0 m)) (N.of_nat (num D1 m)) (N.of_nat (num D2 m)) points polygons).

(** OFFMeshToStrings, OFF 72-102: the lines, each as its fields. *)
Definition blank_char : ascii := " "%char.
Definition off_rows (k : codec) (o : off_mesh) : outcome (list (list text)) :=
  points ← omapM (fun v => '(x, y, z) ← vget (Points o) v;
                           Ok [put_double k x; put_double k y; put_double k z]) (seq 0 (N.to_nat (NumCell0Ds o)));
  polygons ← omapM (fun f => vs ← vget (Polygons o) f;
                             Ok (show_nat (length vs) :: map show_Z vs)) (seq 0 (N.to_nat (NumCell2Ds o)));
  Ok ([txt "OFF"] :: [show_N (NumCell0Ds o); show_N (NumCell2Ds o); show_N (NumCell1Ds o)] :: points ++ polygons).
Definition OFFMeshToStrings (k : codec) (o : off_mesh) : outcome (list text) :=
  rows ← off_rows k o;
  Ok (map (join blank_char) rows).

(** A line of coordinates, OFF 49-51. *)
Definition get_point (k : codec) (s : text) : outcome (N * N * N) :=
  '(x, s) ← get_real k s;
  '(y, s) ← get_real k s;
  '(z, s) ← get_real k s;
  Ok (x, y, z).

(** A line with a polygon, OFF 60-66. *)
Fixpoint get_ints (n : nat) (s : text) : outcome (list Z) :=
  match n with
  | 0 => Ok []
  | S n => match get_int s with
           | Some (z, s) => zs ← get_ints n s; Ok (z :: zs)
           | None => UB
           end
  end.
Definition get_polygon (s : text) : outcome (list Z) :=
  match strtol s with
  | None => Ok []
  | Some _ => '(n, s) ← get_uint s; get_ints (N.to_nat n) s
  end.

(** StringsToOFFMesh, OFF 28-70.  The number of lines is compared with sums of [unsigned int]. *)
Definition StringsToOFFMesh (k : codec) (lines : list text) : outcome off_mesh :=
  let size := N.of_nat (length lines) in
  require (1 <=? size)%N;;
  first ← vget lines 1;
  '(n0, s) ← get_uint first;
  '(n2, s) ← get_uint s;
  '(n1, s) ← get_uint s;
  require (u32 (2 + n0) <=? size)%N;;
  points ← omapM (fun v => l ← vget lines (2 + v); get_point k l) (seq 0 (N.to_nat n0));
  require (u32 (2 + n0 + n2) <=? size)%N;;
  polygons ← omapM (fun f => l ← vget lines (2 + N.to_nat n0 + f); get_polygon l) (seq 0 (N.to_nat n2));
  Ok (OffMesh n0 n1 n2 points polygons).

(** OFFMeshToMeshDAO, OFF 126-172.  The vertices and the edges of a polygon are different arrays: we insert all vertices,
    then all edges. *)
Definition OFFMeshToMeshDAO (o : off_mesh) (m : mesh) : outcome mesh :=
  let m := CellsInitialize D0 (N.to_nat (NumCell0Ds o)) (InitializeDimension 2 m) in
  m ← Cell0DsInsertCoordinates (Points o) m;
  m ← activate D0 (N.to_nat (NumCell0Ds o)) m;
  '(edges, rows) ← ComputeMesh2DCell1Ds (length (Points o)) (map (map to_uint) (Polygons o));
  m ← fill_edges edges m;
  polygons ← omapM (fun f => vget rows f) (seq 0 (N.to_nat (NumCell2Ds o)));
  fill_polygons polygons m.

(** ImportMeshFromFile, OFF 174-190. *)
Definition ImportMeshFromFile (k : codec) (file : text) (fs : files) (m : mesh) : outcome mesh :=
  match fs !! file with
  | None => Throw
  | Some t => o ← StringsToOFFMesh k (Split t newline); OFFMeshToMeshDAO o m
  end.

(** ExportMeshToFile, OFF 192-204. *)
Definition ExportMeshToFile (k : codec) (m : mesh) (file : text) (fs : files) : outcome files :=
  o ← MeshDAOToOFFMesh m;
  lines ← OFFMeshToStrings k o;
  Ok (<[file := concat (map (fun l => l ++ [newline]) lines)]> fs).
