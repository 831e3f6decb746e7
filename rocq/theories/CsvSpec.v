(** * What it means that a mesh is read back from its files. *)
From Verif Require Import Base StringsModel CsrModel MeshModel MeshSpec MeshHist CsvModel.
From Coq Require Import Ascii.

(** The number of the cells fits an [unsigned int]. *)
Definition fits (v : N) : Prop := (v <= UINT_MAX)%N.

(** ** The text *)

(** A separator that is not part of a number: no digit, no white space except the blank. *)
Definition separator_ok (sep : ascii) : Prop := is_digit sep = false /\ (sep = " "%char \/ is_space sep = false).

(** The streams read back the [finite] doubles they wrote, up to the separator or the end of the line. *)
Record codec_ok (k : codec) (sep : ascii) (finite : N -> Prop) : Prop := {
  co_read : forall x rest, finite x -> rest = [] \/ (exists r, rest = sep :: r) ->
              get_double k (put_double k x ++ rest) = Some (x, rest);
  co_start : forall x, finite x -> exists c r, put_double k x = c :: r /\ is_space c = false;
  co_line : forall x, finite x -> newline ∉ put_double k x
}.

(** A text without white space and without the separator. *)
Definition plain (sep : ascii) (t : text) : Prop := Forall (fun x => is_space x = false /\ x <> sep) t.

(** The file with the values of a property, next to the list of properties of its dimension. *)
Definition values_name (c : configuration) (d : dim) (id : string) : text :=
  FileProperties c d ++ txt "_" ++ txt id ++ txt "." ++ Extension c.
(** The files of a mesh. *)
Definition property_paths (c : configuration) (d : dim) (m : mesh) : list text :=
  path c (FileProperties c d) :: map (fun id => Folder c ++ txt "/" ++ values_name c d id) (PropertyIds d m).
Definition paths (c : configuration) (m : mesh) : list text :=
  map (fun d => path c (FileCells c d)) [D0; D1; D2; D3]
  ++ property_paths c D0 m ++ property_paths c D1 m ++ property_paths c D2 m ++ property_paths c D3 m
  ++ map (fun d => path c (FileNeighbours c d)) [D0; D1; D2] ++ [path c (FileSubDivisions c)]
  ++ map (fun d => path c (FileUpdated c d)) [D0; D1; D2; D3].

(** The configuration suits the mesh: different files, and names of properties that can be read as words. *)
Record suits (c : configuration) (m : mesh) : Prop := {
  su_separator : separator_ok (Separator c);
  su_paths : NoDup (paths c m);
  su_folder : forall d, Forall (fun x => is_slash x = false) (FileProperties c d ++ txt "." ++ Extension c);
  su_ids : forall d id, id ∈ PropertyIds d m ->
             id <> ""%string /\ plain (Separator c) (txt id) /\ plain (Separator c) (values_name c d id)
}.

(** ** The mesh *)

(** The dimension is the one of the largest cells, and there are cells of all smaller dimensions. *)
Definition regular (m : mesh) : Prop :=
  num D0 m <> 0 /\ num D1 m <> 0 /\
  (mdim m = 1 /\ num D2 m = 0 /\ num D3 m = 0 \/
   mdim m = 2 /\ num D2 m <> 0 /\ num D3 m = 0 \/
   mdim m = 3 /\ num D2 m <> 0 /\ num D3 m <> 0).

(** A mesh that can be written: the numbers fit, the cells are described completely, the doubles are finite, every property
    belongs to some cell; [fuel] bounds the number of generations of replaced cells. *)
Record complete (finite : N -> Prop) (fuel : nat) (m : mesh) : Prop := {
  cp_num : forall d, fits (N.of_nat (num d m));
  cp_marker : forall d i v, Marker d i m = Ok v -> fits v;
  cp_origin : forall e v, Cell1DOrigin e m = Ok v -> fits v;
  cp_end : forall e v, Cell1DEnd e m = Ok v -> fits v;
  cp_entries : forall r i l, RelRow r i m = Ok l -> fits (N.of_nat (length l)) /\ Forall fits l;
  cp_cells : forall r i l v, is_neighbour r = false -> RelRow r i m = Ok l -> v ∈ l -> (v < N.of_nat (num (tgt r) m))%N;
  cp_polygons : forall i vs es, RelRow V2 i m = Ok vs -> RelRow E2 i m = Ok es -> length vs = length es;
  cp_coordinates : forall i x y z, Cell0DCoordinates i m = Ok (x, y, z) -> finite x /\ finite y /\ finite z;
  cp_sizes : forall d i p n, PropSize d i p m = Ok n -> fits n;
  cp_values : forall d i p k x, PropValue d i p k m = Ok x -> finite x;
  cp_properties : forall d, PropertyIds d m <> [] -> num d m <> 0;
  cp_history : forall d i, i < num d m -> exists b l, UpdatedQuery fuel d (N.of_nat i) m = Ok (b, l) /\ fits (N.of_nat (length l))
}.

(** A neighbour which is no cell of the mesh is the "no cell" marker. *)
Definition known (n : nat) (v : N) : N := if (v <? N.of_nat n)%N then v else UINT_MAX.

(** [m'] holds what [m] holds.  Of the history, it holds for every cell the current cells it was finally replaced by; the
    generations in between are not kept. *)
Record read_back (fuel : nat) (m m' : mesh) : Prop := {
  rb_dim : mdim m' = mdim m;
  rb_num : forall d, num d m' = num d m;
  rb_coordinates : forall i, Cell0DCoordinates i m' = Cell0DCoordinates i m;
  rb_extremes : forall e, Cell1DOrigin e m' = Cell1DOrigin e m /\ Cell1DEnd e m' = Cell1DEnd e m;
  rb_cells : forall d i, Marker d i m' = Marker d i m /\ IsActive d i m' = IsActive d i m;
  rb_entries : forall r i, is_neighbour r = false -> RelRow r i m' = RelRow r i m;
  rb_neighbours : forall r i, is_neighbour r = true -> RelRow r i m' = map (known (num (tgt r) m)) <$> RelRow r i m;
  rb_ids : forall d, PropertyIds d m' = PropertyIds d m;
  rb_properties : same_props m m';
  rb_replaced : forall d i, HasUpdateds d i m' = HasUpdateds d i m;
  rb_current : forall d i b l, i < num d m -> UpdatedQuery fuel d (N.of_nat i) m = Ok (b, l) ->
                 (exists l', UpdatedQuery 2 d (N.of_nat i) m' = Ok (b, l') /\ forall v, v ∈ l' <-> v ∈ l) /\
                 (forall j, replaced_by d m' i j <-> b = false /\ N.of_nat j ∈ l);
  rb_origin : forall d j, d <> D0 -> j < num d m ->
                (forall i, replaced_by d m' i j -> (forall i', replaced_by d m' i' j -> i' <= i) ->
                   Original d j m' = Ok (N.of_nat i)) /\
                ((forall i, ~ replaced_by d m' i j) -> Original d j m' = Ok UINT_MAX)
}.

(** A history of one generation: no cell that replaces another was replaced itself, and every cell remembers the only one it
    replaced. *)
Record one_generation (m : mesh) : Prop := {
  og_leaf : forall d i j, replaced_by d m i j -> HasUpdateds d j m = Ok false;
  og_origin : forall d i j, d <> D0 -> j < num d m -> Original d j m = Ok (N.of_nat i) -> i < num d m -> replaced_by d m i j;
  og_replaced : forall d i j, d <> D0 -> replaced_by d m i j -> Original d j m = Ok (N.of_nat i);
  og_none : forall d j v, d <> D0 -> Original d j m = Ok v -> (v < N.of_nat (num d m))%N \/ v = UINT_MAX
}.
