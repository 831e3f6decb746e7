(** * Writing a mesh to CSV files and reading it back.

    Files modelled: GeDiM/src/Mesh/MeshFromCsvUtilities.hpp, MeshFromCsvUtilities.cpp ("CSV"),
    MeshDAOExporterToCsv.cpp, MeshDAOImporterFromCsv.cpp (Import), GeDiM/src/IO/FileTextReader.cpp,
    GeDiM/src/IO/IOUtilities.cpp:109-155.

    Simplifications.  The file system maps paths to contents; opening a file for writing always works (the code throws
    otherwise) and the files are complete when the export ends.  When a number cannot be read the code goes on with fields
    that were never assigned: the outcome is [UB].  Where the C++ repeats the same text for several dimensions or
    attributes we write it once, with the dimension or the attributes as arguments. *)
From Verif Require Import Base StringsModel CsrModel MeshModel.
From Coq Require Import Ascii.

(** What the streams of the platform do with a [double]: writing it ([precision(16)] and [scientific]), and reading one at
    the beginning of a text without leading spaces. *)
Record codec := Codec { put_double : N -> text; get_double : text -> option (N * text) }.

(** Configuration, MeshFromCsvUtilities.hpp:27-48.  There is no file of neighbours for dimension 3. *)
Record configuration := Configuration {
  Folder : text;
  FileCells : dim -> text;
  FileNeighbours : dim -> text;
  FileProperties : dim -> text;
  FileSubDivisions : text;
  FileUpdated : dim -> text;
  Separator : ascii;
  Extension : text
}.

Definition digit_of (d : dim) : text := txt match d with D0 => "0" | D1 => "1" | D2 => "2" | D3 => "3" end.
Definition default_configuration : configuration :=
  Configuration (txt "./") (fun d => txt "Cell" ++ digit_of d ++ txt "Ds")
    (fun d => txt "Cell" ++ digit_of d ++ txt "DNeighbours") (fun d => txt "Cell" ++ digit_of d ++ txt "DProperties")
    (txt "Cell2DSubDivisions") (fun d => txt "Cell" ++ digit_of d ++ txt "DUpdatedCells") ";"%char (txt "csv").

Definition newline : ascii := ascii_of_N 10.
Definition files := gmap text text.

(** [configuration.Folder + "/" + name + "." + configuration.FileExtension]. *)
Definition path (c : configuration) (name : text) : text := Folder c ++ txt "/" ++ name ++ txt "." ++ Extension c.

(** The double properties: CellkDNumberDoubleProperties and CellkDDoublePropertyId, IM 1393-1400, 1664-1671, 1916-1923,
    2162-2169. *)
Definition PropertyIds (d : dim) (m : mesh) : list string := pids (cprops (mcells m d)).

(** ** Export *)

(** A line of a file: the fields, separated. *)
Fixpoint join (sep : ascii) (fields : list text) : text :=
  match fields with
  | [] => []
  | [x] => x
  | x :: fields' => x ++ [sep] ++ join sep fields'
  end.
Definition content (sep : ascii) (rows : list (list text)) : text :=
  concat (map (fun fields => join sep fields ++ [newline]) rows).

Definition show_nat (n : nat) : text := show_N (N.of_nat n).
Definition show_bool (b : bool) : text := if b then txt "1" else txt "0".

(** The number of entries of an attribute of a cell, then the entries: CSV 1362-1370, 1403-1416, 1691-1704, ... *)
Definition entry_fields (r : rel) (i : nat) (m : mesh) : outcome (list text) :=
  n ← RelNumber r i m;
  vs ← omapM (fun k => RelGet r i k m) (seq 0 (N.to_nat n));
  Ok (show_N n :: map show_N vs).
Definition entries_fields (rs : list rel) (i : nat) (m : mesh) : outcome (list text) :=
  l ← omapM (fun r => entry_fields r i m) rs;
  Ok (concat l).

(** ExportCell0Ds, CSV 1280-1308. *)
Definition ExportCell0Ds (k : codec) (sep : ascii) (m : mesh) : outcome text :=
  rows ← omapM (fun v =>
           mk ← Marker D0 v m;
           ac ← IsActive D0 v m;
           '(x, y, z) ← Cell0DCoordinates v m;
           Ok [show_nat v; show_N mk; show_bool ac; put_double k x; put_double k y; put_double k z]) (seq 0 (num D0 m));
  Ok (content sep (map txt ["Id"; "Marker"; "Active"; "X"; "Y"; "Z"] :: rows)).

(** ExportCell1Ds, CSV 1311-1337. *)
Definition ExportCell1Ds (sep : ascii) (m : mesh) : outcome text :=
  rows ← omapM (fun e =>
           mk ← Marker D1 e m;
           ac ← IsActive D1 e m;
           o ← Cell1DOrigin e m;
           t ← Cell1DEnd e m;
           Ok [show_nat e; show_N mk; show_bool ac; show_N o; show_N t]) (seq 0 (num D1 m));
  Ok (content sep (map txt ["Id"; "Marker"; "Active"; "Origin"; "End"] :: rows)).

(** The loops of ExportCell2Ds and ExportCell3Ds over the cells. *)
Definition export_lists (d : dim) (rs : list rel) (sep : ascii) (header : list string) (m : mesh) : outcome text :=
  rows ← omapM (fun f =>
           mk ← Marker d f m;
           ac ← IsActive d f m;
           l ← entries_fields rs f m;
           Ok ([show_nat f; show_N mk; show_bool ac] ++ l)) (seq 0 (num d m));
  Ok (content sep (map txt header :: rows)).
(** ExportCell2Ds, CSV 1340-1376. *)
Definition ExportCell2Ds (sep : ascii) (m : mesh) : outcome text :=
  export_lists D2 [V2; E2] sep ["Id"; "Marker"; "Active"; "NumVertices"; "Vertices"; "NumEdges"; "Edges"] m.
(** ExportCell3Ds, CSV 1379-1422. *)
Definition ExportCell3Ds (sep : ascii) (m : mesh) : outcome text :=
  export_lists D3 [V3; E3; F3] sep ["Id"; "Marker"; "Active"; "NumVertices"; "Vertices"; "NumEdges"; "Edges"; "NumFaces"; "Faces"] m.

(** ExportCellkDProperty, CSV 1455-1482, 1516-1543, 1577-1604, 1638-1666. *)
Definition ExportCellProperty (k : codec) (sep : ascii) (d : dim) (p : nat) (m : mesh) : outcome text :=
  rows ← omapM (fun v =>
           n ← PropSize d v p m;
           xs ← omapM (fun j => PropValue d v p j m) (seq 0 (N.to_nat n));
           Ok ([show_nat v; show_N n] ++ map (put_double k) xs)) (seq 0 (num d m));
  Ok (content sep (map txt ["Id"; "PropertySize"; "PropertyValues"] :: rows)).

(** [propertyFileName + "_" + propertyId + "." + propertyFileExtension], CSV 1444, 1505, 1566, 1627. *)
Definition property_file (c : configuration) (d : dim) (id : string) : text :=
  FileProperties c d ++ txt "_" ++ txt id ++ txt "." ++ Extension c.

(** ExportCellkDProperties, CSV 1424-1453, 1485-1514, 1546-1575, 1607-1636: the files it writes. *)
Definition ExportCellProperties (k : codec) (c : configuration) (d : dim) (m : mesh) : outcome (list (text * text)) :=
  let ids := PropertyIds d m in
  values ← omapM (fun pid => t ← ExportCellProperty k (Separator c) d pid.1 m;
                             Ok (Folder c ++ txt "/" ++ property_file c d pid.2, t)) (imap pair ids);
  Ok ((path c (FileProperties c d),
       content (Separator c) (map txt ["Id"; "FilePath"] :: map (fun id => [txt id; property_file c d id]) ids)) :: values).

(** ExportCell0DNeighbours, ExportCell1DNeighbours, ExportCell2DNeighbours and ExportCell2DSubDivisions, CSV 1668-1795. *)
Definition export_entries (d : dim) (rs : list rel) (sep : ascii) (header : list string) (m : mesh) : outcome text :=
  rows ← omapM (fun f => l ← entries_fields rs f m; Ok (show_nat f :: l)) (seq 0 (num d m));
  Ok (content sep (map txt header :: rows)).
Definition ExportCell0DNeighbours (sep : ascii) (m : mesh) : outcome text :=
  export_entries D0 [R01; R02; R03] sep
    ["Id"; "Num1DNeighbours"; "1DNeighbours"; "Num2DNeighbours"; "2DNeighbours"; "Num3DNeighbours"; "3DNeighbours"] m.
Definition ExportCell1DNeighbours (sep : ascii) (m : mesh) : outcome text :=
  export_entries D1 [R12; R13] sep ["Id"; "Num2DNeighbours"; "2DNeighbours"; "Num3DNeighbours"; "3DNeighbours"] m.
Definition ExportCell2DNeighbours (sep : ascii) (m : mesh) : outcome text :=
  export_entries D2 [R23] sep ["Id"; "Num3DNeighbours"; "3DNeighbours"] m.
Definition ExportCell2DSubDivisions (sep : ascii) (m : mesh) : outcome text :=
  export_entries D2 [S2] sep ["Id"; "NumSubDivision"; "SubDivisions"] m.

(** ExportCellkDUpdatedCells, CSV 1797-1831, 1833-1867, 1869-1903, 1905-1939: the cells written are those of
    CellkDUpdatedCellkDs, which descends to the cells that were not replaced ([fuel]: as many generations). *)
Definition ExportCellUpdatedCells (fuel : nat) (sep : ascii) (d : dim) (m : mesh) : outcome text :=
  rows ← omapM (fun f =>
           has ← HasUpdateds d f m;
           if has : bool then
             bl ← UpdatedQuery fuel d (N.of_nat f) m;
             Ok ([show_nat f; show_nat (length bl.2)] ++ map show_N bl.2)
           else Ok [show_nat f; show_N 0]) (seq 0 (num d m));
  Ok (content sep (map txt ["Id"; "NumUpdatedCells"; "UpdatedCells"] :: rows)).

Definition write (fs : files) (l : list (text * text)) : files := fold_left (fun fs w => <[w.1 := w.2]> fs) l fs.

(** Export, MeshDAOExporterToCsv.cpp:26-96. *)
Definition exported (k : codec) (fuel : nat) (c : configuration) (m : mesh) : outcome (list (text * text)) :=
  let sep := Separator c in
  c0 ← ExportCell0Ds k sep m;
  c1 ← ExportCell1Ds sep m;
  c2 ← ExportCell2Ds sep m;
  c3 ← ExportCell3Ds sep m;
  p0 ← ExportCellProperties k c D0 m;
  p1 ← ExportCellProperties k c D1 m;
  p2 ← ExportCellProperties k c D2 m;
  p3 ← ExportCellProperties k c D3 m;
  n0 ← ExportCell0DNeighbours sep m;
  n1 ← ExportCell1DNeighbours sep m;
  n2 ← ExportCell2DNeighbours sep m;
  s2 ← ExportCell2DSubDivisions sep m;
  u0 ← ExportCellUpdatedCells fuel sep D0 m;
  u1 ← ExportCellUpdatedCells fuel sep D1 m;
  u2 ← ExportCellUpdatedCells fuel sep D2 m;
  u3 ← ExportCellUpdatedCells fuel sep D3 m;
  Ok ([(path c (FileCells c D0), c0); (path c (FileCells c D1), c1); (path c (FileCells c D2), c2); (path c (FileCells c D3), c3)]
      ++ p0 ++ p1 ++ p2 ++ p3 ++
      [(path c (FileNeighbours c D0), n0); (path c (FileNeighbours c D1), n1); (path c (FileNeighbours c D2), n2);
       (path c (FileSubDivisions c), s2);
       (path c (FileUpdated c D0), u0); (path c (FileUpdated c D1), u1); (path c (FileUpdated c D2), u2);
       (path c (FileUpdated c D3), u3)]).
Definition Export (k : codec) (fuel : nat) (c : configuration) (m : mesh) (fs : files) : outcome files :=
  l ← exported k fuel c m;
  Ok (write fs l).

(** ** Import *)

(** [converter >> x] for an [unsigned int]; also for a [bool], written 0 or 1. *)
Definition get_uint (s : text) : outcome (N * text) :=
  match strtol s with
  | Some (z, rest) => if (Z.abs z <=? 4294967295)%Z then Ok (Z.to_N (z `mod` 4294967296), rest) else UB
  | None => UB
  end.
Definition get_bool (s : text) : outcome (bool * text) :=
  '(n, s) ← get_uint s;
  if (n =? 0)%N then Ok (false, s) else if (n =? 1)%N then Ok (true, s) else UB.
Definition get_real (k : codec) (s : text) : outcome (N * text) :=
  match get_double k (skip_spaces s) with Some r => Ok r | None => UB end.

(** [if (separator != ' ') converter >> temp;]: any character is accepted, after the spaces. *)
Definition skip_sep (sep : ascii) (s : text) : text :=
  if decide (sep = " "%char) then s else match skip_spaces s with [] => [] | _ :: s' => s' end.

(** A number of entries, then so many entries, each followed by a separator: CSV 762-787, 833-873, 958-974, ... *)
Fixpoint get_entries (sep : ascii) (n : nat) (s : text) : outcome (list N * text) :=
  match n with
  | 0 => Ok ([], s)
  | S n => '(v, s) ← get_uint s;
           '(vs, s) ← get_entries sep n (skip_sep sep s);
           Ok (v :: vs, s)
  end.
Definition get_list (sep : ascii) (s : text) : outcome (list N * text) :=
  '(n, s) ← get_uint s;
  get_entries sep (N.to_nat n) (skip_sep sep s).
Fixpoint get_lists (sep : ascii) (n : nat) (s : text) : outcome (list (list N) * text) :=
  match n with
  | 0 => Ok ([], s)
  | S n => '(l, s) ← get_list sep s;
           '(ls, s) ← get_lists sep n s;
           Ok (l :: ls, s)
  end.

(** The lines of a file without the first: [lines.size() - 1] is huge for an empty file.  A file that cannot be opened has
    no rows. *)
Definition import_rows {A} (parse : text -> outcome A) (file : option text) : outcome (list A) :=
  match file with
  | None => Ok []
  | Some t => match Split t newline with [] => UB | _ :: rows => omapM parse rows end
  end.

(** ImportCell0Ds, CSV 631-677: identifier, marker, state, coordinates. *)
Definition ImportCell0Ds (k : codec) (sep : ascii) : option text -> outcome (list (N * N * bool * (N * N * N))) :=
  import_rows (fun s =>
    '(id, s) ← get_uint s;
    '(mk, s) ← get_uint (skip_sep sep s);
    '(ac, s) ← get_bool (skip_sep sep s);
    '(x, s) ← get_real k (skip_sep sep s);
    '(y, s) ← get_real k (skip_sep sep s);
    '(z, s) ← get_real k (skip_sep sep s);
    Ok (id, mk, ac, (x, y, z))).

(** ImportCell1Ds, CSV 680-723. *)
Definition ImportCell1Ds (sep : ascii) : option text -> outcome (list (N * N * bool * (N * N))) :=
  import_rows (fun s =>
    '(id, s) ← get_uint s;
    '(mk, s) ← get_uint (skip_sep sep s);
    '(ac, s) ← get_bool (skip_sep sep s);
    '(o, s) ← get_uint (skip_sep sep s);
    '(t, s) ← get_uint (skip_sep sep s);
    Ok (id, mk, ac, (o, t))).

(** ImportCell2Ds (two lists) and ImportCell3Ds (three lists), CSV 726-793, 796-876. *)
Definition ImportLists (sep : ascii) (n : nat) : option text -> outcome (list (N * N * bool * list (list N))) :=
  import_rows (fun s =>
    '(id, s) ← get_uint s;
    '(mk, s) ← get_uint (skip_sep sep s);
    '(ac, s) ← get_bool (skip_sep sep s);
    '(ls, s) ← get_lists sep n (skip_sep sep s);
    Ok (id, mk, ac, ls)).

(** ImportCell0DNeighbours (three lists), ImportCell1DNeighbours (two), ImportCell2DNeighbours and ImportCell2DSubDivision
    (one), CSV 1033-1278, and ImportCellUpdatedCells (one), 936-983: identifier and lists. *)
Definition ImportEntries (sep : ascii) (n : nat) : option text -> outcome (list (N * list (list N))) :=
  import_rows (fun s =>
    '(id, s) ← get_uint s;
    '(ls, s) ← get_lists sep n (skip_sep sep s);
    Ok (id, ls)).

(** ImportCellProperty, CSV 986-1030: throws without the file. *)
Fixpoint get_values (k : codec) (sep : ascii) (n : nat) (s : text) : outcome (list N * text) :=
  match n with
  | 0 => Ok ([], s)
  | S n => '(x, s) ← get_real k (skip_sep sep s);
           '(xs, s) ← get_values k sep n s;
           Ok (x :: xs, s)
  end.
Definition ImportCellProperty (k : codec) (sep : ascii) (file : option text) : outcome (list (N * list N)) :=
  match file with
  | None => Throw
  | Some t => import_rows (fun s =>
                '(id, s) ← get_uint s;
                '(n, s) ← get_uint (skip_sep sep s);
                '(xs, s) ← get_values k sep (N.to_nat n) s;
                Ok (id, xs)) (Some t)
  end.

(** The folder given by Output::GetFilePath, IOUtilities.cpp:136-155: all up to the last slash or backslash. *)
Definition is_slash (c : ascii) : bool := bool_decide (c = "/"%char \/ c = "\"%char).
Fixpoint folder_of (s : text) : text :=
  match s with
  | [] => []
  | c :: s' => match folder_of s' with
               | [] => if is_slash c then [c] else []
               | r => c :: r
               end
  end.

(** [converter >> word]. *)
Fixpoint take_word (s : text) : text :=
  match s with
  | [] => []
  | c :: s' => if is_space c then [] else c :: take_word s'
  end.
Fixpoint drop_word (s : text) : text :=
  match s with
  | [] => []
  | c :: s' => if is_space c then s else drop_word s'
  end.

(** ImportCellDoubleProperties, CSV 879-933; [file] is the path of the list of properties. *)
Definition ImportCellDoubleProperties (k : codec) (sep : ascii) (fs : files) (file : text)
  : outcome (list (string * list (N * list N))) :=
  import_rows (fun s =>
    idpath ← (if decide (sep = " "%char)
              then let s1 := skip_spaces s in Ok (take_word s1, take_word (skip_spaces (drop_word s1)))
              else match Split (take_word (skip_spaces s)) sep with
                   | [id; name] => Ok (id, name)
                   | _ => Abort
                   end);
    values ← ImportCellProperty k sep (fs !! (folder_of file ++ idpath.2));
    Ok (String.string_of_list_ascii idpath.1, values)) (fs !! file).

(** ConvertCell0Ds, CSV 98-113. *)
Definition ConvertCell0Ds (rows : list (N * N * bool * (N * N * N))) (m : mesh) : outcome mesh :=
  match rows with
  | [] => Ok m
  | _ => ofold (fun m irow =>
           let '(v, (_, mk, ac, (x, y, z))) := irow in
           m ← SetMarker D0 v mk m;
           m ← SetState D0 v ac m;
           Cell0DInsertCoordinates v x y z m) (imap pair rows) (CellsInitialize D0 (length rows) m)
  end.

(** ConvertCell1Ds, CSV 116-131. *)
Definition ConvertCell1Ds (rows : list (N * N * bool * (N * N))) (m : mesh) : outcome mesh :=
  match rows with
  | [] => Ok m
  | _ => ofold (fun m irow =>
           let '(e, (_, mk, ac, (o, t))) := irow in
           m ← SetMarker D1 e mk m;
           m ← SetState D1 e ac m;
           Cell1DInsertExtremes e o t m) (imap pair rows) (CellsInitialize D1 (length rows) m)
  end.

(** The bulk initialisation of the [n]-th list, and the loops which insert the values. *)
Definition init_lists (rs : list rel) (rows : list (list (list N))) (m : mesh) : outcome mesh :=
  ofold (fun m nr => RelInitAll nr.2 (map (fun ls : list (list N) => length (nth nr.1 ls [])) rows) m) (imap pair rs) m.
Definition insert_lists (rs : list rel) (i : nat) (ls : list (list N)) (m : mesh) : outcome mesh :=
  ofold (fun m nr => ofold (fun m kv => RelInsert nr.2 i kv.1 kv.2 m) (imap pair (nth nr.1 ls [])) m) (imap pair rs) m.

(** ConvertCell2Ds, CSV 134-169. *)
Definition ConvertCell2Ds (rows : list (N * N * bool * list (list N))) (m : mesh) : outcome mesh :=
  match rows with
  | [] => Ok m
  | _ => m ← init_lists [V2; E2] (map snd rows) (CellsInitialize D2 (length rows) m);
         ofold (fun m irow =>
           let '(f, (_, mk, ac, ls)) := irow in
           m ← SetMarker D2 f mk m;
           m ← SetState D2 f ac m;
           require (length (nth 0 ls []) =? length (nth 1 ls []));;
           insert_lists [V2; E2] f ls m) (imap pair rows) m
  end.

(** ConvertCell3Ds, CSV 172-215. *)
Definition ConvertCell3Ds (rows : list (N * N * bool * list (list N))) (m : mesh) : outcome mesh :=
  match rows with
  | [] => Ok m
  | _ => m ← init_lists [V3; E3; F3] (map snd rows) (CellsInitialize D3 (length rows) m);
         ofold (fun m irow =>
           let '(c, (_, mk, ac, ls)) := irow in
           m ← SetMarker D3 c mk m;
           m ← SetState D3 c ac m;
           insert_lists [V3; E3; F3] c ls m) (imap pair rows) m
  end.

(** ConvertCell0DNeighbours, ConvertCell1DNeighbours, ConvertCell2DNeighbours, CSV 218-349: entries that are not cells are
    left out. *)
Definition insert_neighbours (rs : list rel) (i : nat) (ls : list (list N)) (m : mesh) : outcome mesh :=
  ofold (fun m nr => ofold (fun m kv => if (N.of_nat (num (tgt nr.2) m) <=? kv.2)%N then Ok m else RelInsert nr.2 i kv.1 kv.2 m)
                           (imap pair (nth nr.1 ls [])) m) (imap pair rs) m.
Definition ConvertNeighbours (rs : list rel) (rows : list (N * list (list N))) (m : mesh) : outcome mesh :=
  match rows with
  | [] => Ok m
  | _ => m ← init_lists rs (map snd rows) m;
         ofold (fun m irow => insert_neighbours rs irow.1 irow.2.2 m) (imap pair rows) m
  end.

(** ConvertCell2DSubDivisions, CSV 352-372. *)
Definition ConvertCell2DSubDivisions (rows : list (N * list (list N))) (m : mesh) : outcome mesh :=
  match rows with
  | [] => Ok m
  | _ => m ← init_lists [S2] (map snd rows) m;
         ofold (fun m irow => insert_lists [S2] irow.1 irow.2.2 m) (imap pair rows) m
  end.

(** ConvertCellkDDoubleProperties, CSV 375-413, 416-454, 457-495, 498-536. *)
Definition ConvertCellDoubleProperties (d : dim) (props : list (string * list (N * list N))) (m : mesh) : outcome mesh :=
  ofold (fun m idrows =>
    match idrows.2 with
    | [] => Ok m
    | _ => '(m, p) ← AddDoubleProperty d idrows.1 m;
           m ← PropInitAll d p (map (fun row : N * list N => length row.2) idrows.2) m;
           ofold (fun m row => ofold (fun m kx => PropInsert d (N.to_nat row.1) p kx.1 kx.2 m) (imap pair row.2) m) idrows.2 m
    end) props m.

(** ConvertCellkDUpdatedCells, CSV 539-559, 562-582, 585-605, 608-628: one row for each cell of the mesh is needed. *)
Definition ConvertCellUpdatedCells (d : dim) (rows : list (N * list (list N))) (m : mesh) : outcome mesh :=
  match rows with
  | [] => Ok m
  | _ => ofold (fun m c =>
           row ← vget rows c;
           ofold (fun m u => InsertUpdated d (N.to_nat row.1) (N.to_nat u) m) (nth 0 row.2 []) m) (seq 0 (num d m)) m
  end.

(** The dimension found from the numbers of cells, MeshDAOImporterFromCsv.cpp:89-103. *)
Definition FindDimension (m : mesh) : outcome nat :=
  let some d := 0 <? num d m in
  if some D0 && some D1 && negb (some D2) && negb (some D3) then Ok 1
  else if some D0 && some D1 && some D2 && negb (some D3) then Ok 2
  else if some D0 && some D1 && some D2 && some D3 then Ok 3
  else Throw.

(** Import, MeshDAOImporterFromCsv.cpp:27-175. *)
Definition Import (k : codec) (c : configuration) (fs : files) (m : mesh) : outcome mesh :=
  let sep := Separator c in
  cell0Ds ← ImportCell0Ds k sep (fs !! path c (FileCells c D0));
  cell1Ds ← ImportCell1Ds sep (fs !! path c (FileCells c D1));
  cell2Ds ← ImportLists sep 2 (fs !! path c (FileCells c D2));
  cell3Ds ← ImportLists sep 3 (fs !! path c (FileCells c D3));
  m ← ConvertCell0Ds cell0Ds m;
  m ← ConvertCell1Ds cell1Ds m;
  m ← ConvertCell2Ds cell2Ds m;
  m ← ConvertCell3Ds cell3Ds m;
  dimension ← FindDimension m;
  let m := InitializeDimension dimension m in
  p0 ← ImportCellDoubleProperties k sep fs (path c (FileProperties c D0));
  p1 ← ImportCellDoubleProperties k sep fs (path c (FileProperties c D1));
  p2 ← ImportCellDoubleProperties k sep fs (path c (FileProperties c D2));
  p3 ← ImportCellDoubleProperties k sep fs (path c (FileProperties c D3));
  m ← ConvertCellDoubleProperties D0 p0 m;
  m ← ConvertCellDoubleProperties D1 p1 m;
  m ← ConvertCellDoubleProperties D2 p2 m;
  m ← ConvertCellDoubleProperties D3 p3 m;
  n0 ← ImportEntries sep 3 (fs !! path c (FileNeighbours c D0));
  n1 ← ImportEntries sep 2 (fs !! path c (FileNeighbours c D1));
  n2 ← ImportEntries sep 1 (fs !! path c (FileNeighbours c D2));
  m ← ConvertNeighbours [R01; R02; R03] n0 m;
  m ← ConvertNeighbours [R12; R13] n1 m;
  m ← ConvertNeighbours [R23] n2 m;
  s2 ← ImportEntries sep 1 (fs !! path c (FileSubDivisions c));
  m ← ConvertCell2DSubDivisions s2 m;
  u0 ← ImportEntries sep 1 (fs !! path c (FileUpdated c D0));
  u1 ← ImportEntries sep 1 (fs !! path c (FileUpdated c D1));
  u2 ← ImportEntries sep 1 (fs !! path c (FileUpdated c D2));
  u3 ← ImportEntries sep 1 (fs !! path c (FileUpdated c D3));
  m ← ConvertCellUpdatedCells D0 u0 m;
  m ← ConvertCellUpdatedCells D1 u1 m;
  m ← ConvertCellUpdatedCells D2 u2 m;
  m ← ConvertCellUpdatedCells D3 u3 m;
  Ok (Compress m).
