(** * The mesh store: [MeshMatrices] and [MeshMatricesDAO].

    Files modelled: GeDiM/src/Mesh/MeshMatrices.hpp, GeDiM/src/Mesh/MeshMatricesDAO.cpp,
    GeDiM/src/Mesh/IMeshDAO.hpp:1067-2203.  Line numbers below refer to MeshMatricesDAO.cpp ("DAO") and
    IMeshDAO.hpp ("IM").

    Simplification of presentation: the C++ repeats the same code for the four cell dimensions and for the
    twelve variable-length attributes.  Where the bodies are textually the same up to the container names we
    write one definition indexed by the dimension [dim] or by the attribute [rel] and cite every copy; where
    they differ (initialise, append, remove, insertion of extremes, sub-divisions, ...) we write each copy. *)
From Verif Require Import Base CsrModel.

Inductive dim := D0 | D1 | D2 | D3.
Global Instance dim_eq_dec : EqDecision dim.
Proof. solve_decision. Defined.

(** The variable-length attributes of MeshMatrices.hpp, each an offset vector plus a value vector:
    [R01] Cell0DNeighbourCell1Ds, [R02] Cell0DNeighbourCell2Ds, [R03] Cell0DNeighbourCell3Ds,
    [R12] Cell1DNeighbourCell2Ds, [R13] Cell1DNeighbourCell3Ds, [R23] Cell2DNeighbourCell3Ds,
    [V2] Cell2DVertices, [E2] Cell2DEdges, [S2] Cell2DSubdivision,
    [V3] Cell3DVertices, [E3] Cell3DEdges, [F3] Cell3DFaces. *)
Inductive rel := R01 | R02 | R03 | R12 | R13 | R23 | V2 | E2 | S2 | V3 | E3 | F3.
Global Instance rel_eq_dec : EqDecision rel.
Proof. solve_decision. Defined.

(** Dimension of the cells carrying the attribute. *)
Definition src (r : rel) : dim :=
  match r with
  | R01 | R02 | R03 => D0
  | R12 | R13 => D1
  | R23 | V2 | E2 | S2 => D2
  | V3 | E3 | F3 => D3
  end.

(** Dimension of the cells the attribute refers to. *)
Definition tgt (r : rel) : dim :=
  match r with
  | R01 => D1 | R02 => D2 | R03 => D3
  | R12 => D2 | R13 => D3 | R23 => D3
  | V2 => D0 | E2 => D1 | S2 => D0
  | V3 => D0 | E3 => D1 | F3 => D2
  end.

(** Double properties of one dimension (MeshMatrices.hpp:41-45, 63-67, 89-93, 109-113): the ids, the index of
    each id, and for each property its sizes (offsets) and values. *)
Record props := Props {
  pids : list string;
  pindex : gmap string nat;
  pvals : list (csr N)
}.

(** The per-dimension part of [MeshMatrices].  [corig] is CellkDOriginalCellkDs and does not exist for
    dimension 0 (kept empty there). *)
Record cells := Cells {
  cnum : nat;                   (* NumberCellkD *)
  cmark : list N;               (* CellkDMarkers *)
  cact : list bool;             (* ActiveCellkD *)
  corig : list N;               (* CellkDOriginalCellkDs *)
  cupd : gmap N (gset N);       (* UpdatedCellkDs *)
  cprops : props                (* CellkDDoubleProperty... *)
}.

Record mesh := Mesh {
  mdim : nat;                   (* Dimension *)
  mcells : dim -> cells;
  mrel : rel -> csr N;
  mcoord : list N;              (* Cell0DCoordinates, 3 doubles per 0D cell *)
  mext : list N                 (* Cell1DVertices, 2 indices per 1D cell *)
}.

Definition no_props : props := Props [] ∅ [].
Definition no_cells : cells := Cells 0 [] [] [] ∅ no_props.

(** A default-constructed [MeshMatrices], MeshMatrices.hpp:20-114. *)
Definition empty_mesh : mesh := Mesh 0 (fun _ => no_cells) (fun _ => csr_empty) [] [].

Definition num (d : dim) (m : mesh) : nat := cnum (mcells m d).

Definition upd_fun {A B} `{EqDecision A} (f : A -> B) (a : A) (b : B) : A -> B :=
  fun a' => if decide (a = a') then b else f a'.

Definition set_cells (d : dim) (c : cells) (m : mesh) : mesh :=
  Mesh (mdim m) (upd_fun (mcells m) d c) (mrel m) (mcoord m) (mext m).
Definition set_rel (r : rel) (c : csr N) (m : mesh) : mesh :=
  Mesh (mdim m) (mcells m) (upd_fun (mrel m) r c) (mcoord m) (mext m).
Definition set_coord (l : list N) (m : mesh) : mesh :=
  Mesh (mdim m) (mcells m) (mrel m) l (mext m).
Definition set_ext (l : list N) (m : mesh) : mesh :=
  Mesh (mdim m) (mcells m) (mrel m) (mcoord m) l.

(** InitializeDimension, IM 1137-1140. *)
Definition InitializeDimension (n : nat) (m : mesh) : mesh :=
  Mesh n (mcells m) (mrel m) (mcoord m) (mext m).

(** [for p: CellkDDoublePropertySizes[p].resize(n + 1, 0)], DAO 176-177, 510-511, 829-830, 1191-1192. *)
Definition grow_props (n : nat) (p : props) : props :=
  Props (pids p) (pindex p) ((fun c => csr_grow c n) <$> pvals p).

(** Markers, states, origins and properties part of CellkDsInitialize.  [hasOrig] is false for dimension 0. *)
Definition init_cells (hasOrig : bool) (n : nat) (c : cells) : cells :=
  Cells n (vresize (cmark c) n 0%N) (vresize (cact c) n false)
        (if hasOrig then vresize (corig c) n UINT_MAX else corig c)
        (cupd c) (grow_props n (cprops c)).

Definition grow_rel (r : rel) (n : nat) (m : mesh) : mesh := set_rel r (csr_grow (mrel m r) n) m.

(** Cell0DsInitialize, DAO 167-178. *)
Definition Cell0DsInitialize (n : nat) (m : mesh) : mesh :=
  let m := set_cells D0 (init_cells false n (mcells m D0)) m in
  let m := set_coord (vresize (mcoord m) (3 * n) 0%N) m in
  grow_rel R03 n (grow_rel R02 n (grow_rel R01 n m)).

(** Cell1DsInitialize, DAO 501-512. *)
Definition Cell1DsInitialize (n : nat) (m : mesh) : mesh :=
  let m := set_cells D1 (init_cells true n (mcells m D1)) m in
  let m := set_ext (vresize (mext m) (2 * n) 0%N) m in
  grow_rel R13 n (grow_rel R12 n m).

(** Cell2DsInitialize, DAO 819-831. *)
Definition Cell2DsInitialize (n : nat) (m : mesh) : mesh :=
  let m := grow_rel S2 n (grow_rel E2 n (grow_rel V2 n m)) in
  let m := set_cells D2 (init_cells true n (mcells m D2)) m in
  grow_rel R23 n m.

(** Cell3DsInitialize, DAO 1182-1193. *)
Definition Cell3DsInitialize (n : nat) (m : mesh) : mesh :=
  let m := grow_rel F3 n (grow_rel E3 n (grow_rel V3 n m)) in
  set_cells D3 (init_cells true n (mcells m D3)) m.

(** Property part of CellkDAppend: DAO 197-198 and 208-212, 528-529 and 538-542, ... *)
Definition append_props (old n : nat) (p : props) : outcome props :=
  vals ← omapM (fun c => csr_append c old n) (pvals p);
  Ok (Props (pids p) (pindex p) vals).

(** Markers, states, origins, properties part of CellkDAppend. *)
Definition append_cells (hasOrig : bool) (n : nat) (c : cells) : outcome cells :=
  p ← append_props (cnum c) n (cprops c);
  Ok (Cells (cnum c + n) (cmark c ++ replicate n 0%N) (cact c ++ replicate n false)
            (if hasOrig then corig c ++ replicate n UINT_MAX else corig c)
            (cupd c) p).

Definition append_rel (r : rel) (old n : nat) (m : mesh) : outcome mesh :=
  c ← csr_append (mrel m r) old n;
  Ok (set_rel r c m).

(** Cell0DAppend, DAO 180-215.  Returns the old number of cells. *)
Definition Cell0DAppend (n : nat) (m : mesh) : outcome (mesh * nat) :=
  let old := num D0 m in
  c ← append_cells false n (mcells m D0);
  let m := set_cells D0 c m in
  let m := set_coord (mcoord m ++ replicate (3 * n) 0%N) m in
  m ← append_rel R01 old n m;
  m ← append_rel R02 old n m;
  m ← append_rel R03 old n m;
  Ok (m, old).

(** Cell1DAppend, DAO 514-545. *)
Definition Cell1DAppend (n : nat) (m : mesh) : outcome (mesh * nat) :=
  let old := num D1 m in
  c ← append_cells true n (mcells m D1);
  let m := set_cells D1 c m in
  let m := set_ext (mext m ++ replicate (2 * n) 0%N) m in
  m ← append_rel R12 old n m;
  m ← append_rel R13 old n m;
  Ok (m, old).

(** Cell2DAppend, DAO 833-868. *)
Definition Cell2DAppend (n : nat) (m : mesh) : outcome (mesh * nat) :=
  let old := num D2 m in
  c ← append_cells true n (mcells m D2);
  let m := set_cells D2 c m in
  m ← append_rel V2 old n m;
  m ← append_rel E2 old n m;
  m ← append_rel S2 old n m;
  m ← append_rel R23 old n m;
  Ok (m, old).

(** Cell3DAppend, DAO 1195-1227. *)
Definition Cell3DAppend (n : nat) (m : mesh) : outcome (mesh * nat) :=
  let old := num D3 m in
  c ← append_cells true n (mcells m D3);
  let m := set_cells D3 c m in
  m ← append_rel V3 old n m;
  m ← append_rel E3 old n m;
  m ← append_rel F3 old n m;
  Ok (m, old).

(** AlignMapContainerHigherElements on one set, DAO 92-100: align the members, drop those equal to the new
    initialisation value. *)
Definition align_set (minE newInit : N) (s : gset N) : gset N :=
  list_to_set (filter (fun v => v <> newInit) (align minE newInit (elements s))).

(** AlignMapContainerHigherElements, DAO 80-115.  Keys equal to [minE], keys whose set became empty and keys
    above [minE] are erased; the latter are re-inserted one lower ([insert] does not overwrite). *)
Definition align_map (minE newInit : N) (u : gmap N (gset N)) : gmap N (gset N) :=
  let aligned := align_set minE newInit <$> u in
  let kept := filter (fun ks : N * gset N => (ks.1 < minE)%N /\ ks.2 <> ∅) aligned in
  let moved := filter (fun ks : N * gset N => (minE < ks.1)%N /\ ks.2 <> ∅) aligned in
  kept ∪ list_to_map ((fun ks : N * gset N => ((ks.1 - 1)%N, ks.2)) <$> map_to_list moved).

(** Property part of CellkDRemove, e.g. DAO 221-229. *)
Definition remove_props (old i : nat) (p : props) : outcome props :=
  vals ← omapM (fun c => csr_remove_row c old i 0%N) (pvals p);
  Ok (Props (pids p) (pindex p) vals).

(** Part of CellkDRemove touching markers, states, origins, properties, genealogy and the counter. *)
Definition remove_cells (hasOrig : bool) (i : nat) (c : cells) : outcome cells :=
  p ← remove_props (cnum c) i (cprops c);
  o ← (if hasOrig then verase (corig c) i else Ok (corig c));
  mk ← verase (cmark c) i;
  ac ← verase (cact c) i;
  let n := cnum c - 1 in
  let u := align_map (N.of_nat i) (N.of_nat n) (delete (N.of_nat i) (cupd c)) in
  let o := if hasOrig then align (N.of_nat i) UINT_MAX o else o in
  Ok (Cells n mk ac o u p).

Definition remove_row (r : rel) (old i : nat) (m : mesh) : outcome mesh :=
  c ← csr_remove_row (mrel m r) old i 0%N;
  Ok (set_rel r c m).

Definition align_rel (r : rel) (minE newInit : N) (m : mesh) : mesh :=
  set_rel r (csr_align minE newInit (mrel m r)) m.

(** Cell0DRemove, DAO 217-253.  Cell2DSubdivision ([S2]) is not aligned by the C++. *)
Definition Cell0DRemove (i : nat) (m : mesh) : outcome mesh :=
  require (i <? num D0 m);;
  let old := num D0 m in
  m ← remove_row R01 old i m;
  m ← remove_row R02 old i m;
  m ← remove_row R03 old i m;
  xs ← verase_range (mcoord m) (3 * i) (3 * i + 3);
  let m := set_coord xs m in
  c ← remove_cells false i (mcells m D0);
  let m := set_cells D0 c m in
  let I := N.of_nat i in
  let n := N.of_nat (cnum c) in
  let m := set_ext (align I n (mext m)) m in
  let m := align_rel V2 I n m in
  let m := align_rel V3 I n m in
  Ok m.

(** Cell1DRemove, DAO 547-582. *)
Definition Cell1DRemove (i : nat) (m : mesh) : outcome mesh :=
  require (i <? num D1 m);;
  let old := num D1 m in
  m ← remove_row R12 old i m;
  m ← remove_row R13 old i m;
  ex ← verase_range (mext m) (2 * i) (2 * i + 2);
  let m := set_ext ex m in
  c ← remove_cells true i (mcells m D1);
  let m := set_cells D1 c m in
  let I := N.of_nat i in
  let n := N.of_nat (cnum c) in
  let m := align_rel R01 I UINT_MAX m in
  let m := align_rel E2 I n m in
  let m := align_rel E3 I n m in
  Ok m.

(** Cell2DRemove, DAO 870-908. *)
Definition Cell2DRemove (i : nat) (m : mesh) : outcome mesh :=
  require (i <? num D2 m);;
  let old := num D2 m in
  m ← remove_row R23 old i m;
  m ← remove_row V2 old i m;
  m ← remove_row E2 old i m;
  m ← remove_row S2 old i m;
  c ← remove_cells true i (mcells m D2);
  let m := set_cells D2 c m in
  let I := N.of_nat i in
  let n := N.of_nat (cnum c) in
  let m := align_rel R02 I UINT_MAX m in
  let m := align_rel R12 I UINT_MAX m in
  let m := align_rel F3 I n m in
  Ok m.

(** Cell3DRemove, DAO 1229-1264. *)
Definition Cell3DRemove (i : nat) (m : mesh) : outcome mesh :=
  require (i <? num D3 m);;
  let old := num D3 m in
  m ← remove_row V3 old i m;
  m ← remove_row E3 old i m;
  m ← remove_row F3 old i m;
  c ← remove_cells true i (mcells m D3);
  let m := set_cells D3 c m in
  let I := N.of_nat i in
  let m := align_rel R03 I UINT_MAX m in
  let m := align_rel R13 I UINT_MAX m in
  let m := align_rel R23 I UINT_MAX m in
  Ok m.

(** ** Coordinates and extremes *)

(** Cell0DInsertCoordinates, DAO 255-262. *)
Definition Cell0DInsertCoordinates (i : nat) (x y z : N) (m : mesh) : outcome mesh :=
  require (i <? num D0 m);;
  l ← vset (mcoord m) (3 * i) x;
  l ← vset l (3 * i + 1) y;
  l ← vset l (3 * i + 2) z;
  Ok (set_coord l m).

(** Cell0DsInsertCoordinates, DAO 264-270; the 3 x n matrix is the list of its columns. *)
Definition Cell0DsInsertCoordinates (cols : list (N * N * N)) (m : mesh) : outcome mesh :=
  require (length cols =? num D0 m);;
  ofold (fun m c => xyz ← vget cols c;
                    Cell0DInsertCoordinates c xyz.1.1 xyz.1.2 xyz.2 m)
        (seq 0 (num D0 m)) m.

(** Cell0DCoordinates, IM 1167-1186. *)
Definition Cell0DCoordinates (i : nat) (m : mesh) : outcome (N * N * N) :=
  require (i <? num D0 m);;
  x ← vget (mcoord m) (3 * i);
  y ← vget (mcoord m) (3 * i + 1);
  z ← vget (mcoord m) (3 * i + 2);
  Ok (x, y, z).

(** Cell1DInsertExtremes, DAO 584-589 (the vertices are not checked). *)
Definition Cell1DInsertExtremes (e : nat) (o t : N) (m : mesh) : outcome mesh :=
  require (e <? num D1 m);;
  l ← vset (mext m) (2 * e) o;
  l ← vset l (2 * e + 1) t;
  Ok (set_ext l m).

(** Cell1DsInsertExtremes, DAO 591-607; the 2 x n matrix is the list of its columns, entries already
    converted to [unsigned int].  The triplet list is dead code and left out. *)
Definition Cell1DsInsertExtremes (cols : list (N * N)) (m : mesh) : outcome mesh :=
  require (length cols =? num D1 m);;
  ofold (fun m e => ot ← vget cols e;
                    require (ot.1 <? N.of_nat (num D0 m))%N;;
                    require (ot.2 <? N.of_nat (num D0 m))%N;;
                    l ← vset (mext m) (2 * e) ot.1;
                    l ← vset l (2 * e + 1) ot.2;
                    Ok (set_ext l m))
        (seq 0 (num D1 m)) m.

(** Cell1DOrigin / Cell1DEnd / Cell1DVertex, IM 1473-1488. *)
Definition Cell1DVertex (e k : nat) (m : mesh) : outcome N :=
  require (e <? num D1 m);;
  require (k <? 2);;
  vget (mext m) (2 * e + k).
Definition Cell1DOrigin (e : nat) (m : mesh) : outcome N :=
  require (e <? num D1 m);; vget (mext m) (2 * e).
Definition Cell1DEnd (e : nat) (m : mesh) : outcome N :=
  require (e <? num D1 m);; vget (mext m) (2 * e + 1).

(** Cell1DFindExtreme, IM 1489-1499. *)
Definition Cell1DFindExtreme (e : nat) (v : N) (m : mesh) : outcome nat :=
  require (e <? num D1 m);;
  require (v <? N.of_nat (num D0 m))%N;;
  o ← vget (mext m) (2 * e);
  if (o =? v)%N then Ok 0 else
  t ← vget (mext m) (2 * e + 1);
  if (t =? v)%N then Ok 1 else Ok 2.

(** The search loop of Cell1DByExtremes, DAO 634-640, started at edge [e] with [k] edges left; the result is
    the total number when nothing is found. *)
Fixpoint find_edge_from (ext : list N) (o t : N) (e k : nat) : outcome nat :=
  match k with
  | 0 => Ok e
  | S k' =>
      a ← vget ext (2 * e);
      b ← vget ext (2 * e + 1);
      if (a =? o)%N && (b =? t)%N then Ok e else find_edge_from ext o t (S e) k'
  end.

(** Cell1DByExtremes, DAO 629-641.  (The C++ reads the second entry only when the first one matches; both are
    in range on every consistent mesh.) *)
Definition Cell1DByExtremes (o t : N) (m : mesh) : outcome nat :=
  require (o <? N.of_nat (num D0 m))%N;;
  require (t <? N.of_nat (num D0 m))%N;;
  find_edge_from (mext m) o t 0 (num D1 m).

(** ** Markers and states *)

(** CellkDSetMarker, IM 1152-1156, 1446-1450, 1702-1706, 1976-1980. *)
Definition SetMarker (d : dim) (i : nat) (v : N) (m : mesh) : outcome mesh :=
  require (i <? num d m);;
  let c := mcells m d in
  mk ← vset (cmark c) i v;
  Ok (set_cells d (Cells (cnum c) mk (cact c) (corig c) (cupd c) (cprops c)) m).

(** CellkDSetState, IM 1157-1161, 1451-1455, 1707-1711, 1981-1985. *)
Definition SetState (d : dim) (i : nat) (b : bool) (m : mesh) : outcome mesh :=
  require (i <? num d m);;
  let c := mcells m d in
  ac ← vset (cact c) i b;
  Ok (set_cells d (Cells (cnum c) (cmark c) ac (corig c) (cupd c) (cprops c)) m).

(** CellkDMarker, IM 1189-1193, 1550-1554, 1802-1806, 2097-2101. *)
Definition Marker (d : dim) (i : nat) (m : mesh) : outcome N :=
  require (i <? num d m);; vget (cmark (mcells m d)) i.

(** CellkDIsActive, IM 1198-1202, 1559-1563, 1811-1815, 2106-2110. *)
Definition IsActive (d : dim) (i : nat) (m : mesh) : outcome bool :=
  require (i <? num d m);; vget (cact (mcells m d)) i.

(** ** Genealogy *)

(** CellkDInsertUpdatedCellkD, DAO 288-296 (dimension 0), 699-708, 1048-1057, 1390-1399.
    Dimension 0 has no origin vector. *)
Definition InsertUpdated (d : dim) (i j : nat) (m : mesh) : outcome mesh :=
  require (i <? num d m);;
  require (j <? num d m);;
  let c := mcells m d in
  let s := default ∅ (cupd c !! N.of_nat i) in
  let u := <[N.of_nat i := {[N.of_nat j]} ∪ s]> (cupd c) in
  o ← match d with D0 => Ok (corig c) | _ => vset (corig c) j (N.of_nat i) end;
  Ok (set_cells d (Cells (cnum c) (cmark c) (cact c) o u (cprops c)) m).

(** CellkDHasUpdatedCellkDs, IM 1208-1212, 1578-1582, 1821-1825, 2116-2120. *)
Definition HasUpdateds (d : dim) (i : nat) (m : mesh) : outcome bool :=
  require (i <? num d m);;
  Ok (bool_decide (is_Some (cupd (mcells m d) !! N.of_nat i))).

(** CellkDNumberUpdatedCellkDs, IM 1213-1217, ...: [unordered_map::at] throws when absent. *)
Definition NumberUpdateds (d : dim) (i : nat) (m : mesh) : outcome nat :=
  require (i <? num d m);;
  match cupd (mcells m d) !! N.of_nat i with
  | Some s => Ok (size s)
  | None => Throw
  end.

(** CellkDHasUpdatedCellkD, IM 1218-1223, ... *)
Definition HasUpdated (d : dim) (i j : nat) (m : mesh) : outcome bool :=
  require (i <? num d m);;
  require (j <? num d m);;
  match cupd (mcells m d) !! N.of_nat i with
  | Some s => Ok (bool_decide (N.of_nat j ∈ s))
  | None => Throw
  end.

(** CellkDHasOriginalCellkD, IM 1568-1572, 1838-1842, 2134-2138 (no such query for dimension 0). *)
Definition HasOriginal (d : dim) (i : nat) (m : mesh) : outcome bool :=
  require (i <? num d m);;
  o ← vat (corig (mcells m d)) i;
  Ok (o <? N.of_nat (num d m))%N.

(** CellkDOriginalCellkD, IM 1573-1577, 1843-1847, 2139-2143. *)
Definition Original (d : dim) (i : nat) (m : mesh) : outcome N :=
  require (i <? num d m);; vat (corig (mcells m d)) i.

(** CellkDUpdatedCellkDs, DAO 298-315, 710-727, 1059-1076, 1401-1418: unbounded recursion over the children.
    The result is the returned boolean and the list of pushed cells; the order in which the children of a cell
    are visited is that of an [unordered_set] (here: of [elements]). *)
Fixpoint UpdatedQuery (fuel : nat) (d : dim) (c : N) (m : mesh) : outcome (bool * list N) :=
  match fuel with
  | 0 => OutOfFuel
  | S fuel' =>
      require (c <? N.of_nat (num d m))%N;;
      match cupd (mcells m d) !! c with
      | None => Ok (true, [c])
      | Some s =>
          l ← ofold (fun acc ch => bl ← UpdatedQuery fuel' d ch m; Ok (acc ++ bl.2)) (elements s) [];
          Ok (false, l)
      end
  end.

(** ** Variable-length attributes *)

(** Default of the bulk initialisers: DAO 339, 386, 433, 665, 674, 758, 916, 925, 940, 946, 1100, 1172
    (sub-divisions: 0), 1272, 1278, 1284. *)
Definition bulk_default (r : rel) : N := match r with S2 => 0%N | _ => UINT_MAX end.

(** Default of the single-cell initialisers: UINT_MAX for neighbours (DAO 351, 398, 445, 686, 770, 1112), the
    default argument [T()] = 0 for the others (DAO 931, 952, 1179, 1290, 1296, 1302; IM 1119). *)
Definition single_default (r : rel) : N :=
  match r with
  | R01 | R02 | R03 | R12 | R13 | R23 => UINT_MAX
  | _ => 0%N
  end.

(** CellkDsInitialize{Neighbour..., Vertices, Edges, Faces, SubDivision}(vector): DAO 333-340, 380-387, 427-434,
    668-675, 752-759, 919-926, 943-947, 1094-1101, 1168-1173, 1266-1285. *)
Definition RelInitAll (r : rel) (cnt : list nat) (m : mesh) : outcome mesh :=
  require (length cnt =? num (src r) m);;
  Ok (set_rel r (csr_init (mrel m r) cnt (bulk_default r)) m).

(** Cell1DsInitializeNeighbourCell2Ds(n), Cell2DsInitializeVertices(n), Cell2DsInitializeEdges(n):
    DAO 659-666, 910-917, 934-941 (only these three attributes have this overload). *)
Definition RelInitConst (r : rel) (k : nat) (m : mesh) : outcome mesh :=
  Ok (set_rel r (csr_init_const (mrel m r) (num (src r) m) k (bulk_default r)) m).

(** CellkDInitialize{...}(index, n): DAO 342-352, 389-399, 436-446, 677-687, 761-771, 928-932, 949-953, 1103-1113,
    1175-1180 (sub-divisions: also [n % 3 == 0]), 1287-1303. *)
Definition RelInitOne (r : rel) (i n : nat) (m : mesh) : outcome mesh :=
  require (i <? num (src r) m);;
  require (match r with S2 => n mod 3 =? 0 | _ => true end);;
  c ← csr_resize_row (mrel m r) (num (src r) m) i n (single_default r);
  Ok (set_rel r c m).

(** CellkDNumber{NeighbourCellmD, Vertices, Edges, Faces, SubDivision}: IM 1239-1243, 1289-1293, 1338-1342,
    1512-1516, 1610-1614, 1750-1759, 1862-1866, 1961-1965, 2047-2061. *)
Definition RelNumber (r : rel) (i : nat) (m : mesh) : outcome N :=
  require (i <? num (src r) m);;
  csr_count (mrel m r) i.

(** CellkDInsert{NeighbourCellmD, Vertex, Edge, Face, SubDivision}: IM 1231-1238, 1281-1288, 1330-1337, 1461-1468,
    1602-1609, 1723-1729, 1735-1741, 1854-1861, 1954-1960, 1992-1999, 2005-2012, 2018-2025. *)
Definition RelInsert (r : rel) (i k : nat) (v : N) (m : mesh) : outcome mesh :=
  require (i <? num (src r) m);;
  n ← RelNumber r i m;
  require (N.of_nat k <? n)%N;;
  require (v <? N.of_nat (num (tgt r) m))%N;;
  c ← csr_set (mrel m r) i k v;
  Ok (set_rel r c m).

(** Cell2DInsertVertices, Cell2DInsertEdges, Cell3DInsertVertices/Edges/Faces: IM 1718-1722, 1730-1734,
    2000-2004, 2013-2017, 2026-2030. *)
Definition RelInsertList (r : rel) (i : nat) (vs : list N) (m : mesh) : outcome mesh :=
  ofold (fun m kv => RelInsert r i kv.1 kv.2 m) (imap pair vs) m.

(** CellkDInitializeNeighbourCellmDs(index, vector), Cell2DAddVertices, Cell2DAddEdges, Cell3DAddVertices/Edges/Faces:
    DAO 354-362, 401-409, 448-456, 689-697, 773-781, 955-967, 1115-1123, 1305-1324. *)
Definition RelAdd (r : rel) (i : nat) (vs : list N) (m : mesh) : outcome mesh :=
  m ← RelInitOne r i (length vs) m;
  RelInsertList r i vs m.

(** Cell2DAddVerticesAndEdges, DAO 969-979; the 2 x n matrix is the list of its columns. *)
Definition Cell2DAddVerticesAndEdges (i : nat) (cols : list (N * N)) (m : mesh) : outcome mesh :=
  m ← RelInitOne V2 i (length cols) m;
  m ← RelInitOne E2 i (length cols) m;
  ofold (fun m kve => m ← RelInsert V2 i kve.1 kve.2.1 m;
                      RelInsert E2 i kve.1 kve.2.2 m) (imap pair cols) m.

(** CellkDResetNeighbourCellmD: IM 1271-1275, 1321-1325, 1370-1374, 1544-1548, 1642-1646, 1894-1898; no assertion. *)
Definition RelReset (r : rel) (i k : nat) (m : mesh) : outcome mesh :=
  c ← csr_set (mrel m r) i k UINT_MAX;
  Ok (set_rel r c m).

(** Reading one slot: IM 1244-1249, 1294-1299, 1343-1348, 1517-1522, 1615-1620, 1770-1775, 1792-1797, 1867-1872,
    1966-1971, 2063-2069, 2078-2084, 2086-2092. *)
Definition RelGet (r : rel) (i k : nat) (m : mesh) : outcome N :=
  require (i <? num (src r) m);;
  n ← RelNumber r i m;
  require (N.of_nat k <? n)%N;;
  csr_get (mrel m r) i k.

(** CellkDHasNeighbourCellmD: IM 1265-1270, 1315-1320, 1364-1369, 1538-1543, 1636-1641, 1888-1893. *)
Definition RelHas (r : rel) (i k : nat) (m : mesh) : outcome bool :=
  v ← RelGet r i k m;
  Ok (v <? N.of_nat (num (tgt r) m))%N.

(** All raw entries of one cell: Cell2DVertices / Cell2DEdges (IM 1761-1766, 1785-1790), Cell3DVertices / Edges / Faces
    (DAO 1371-1380, 1463-1483), and the rows of CellkDsNeighbourCellmDs() (DAO 317-331, ...). *)
Definition RelRow (r : rel) (i : nat) (m : mesh) : outcome (list N) :=
  n ← RelNumber r i m;
  omapM (fun k => csr_get (mrel m r) i k) (seq 0 (N.to_nat n)).

(** CellkDNeighbourCellmDs(index): the entries for which HasNeighbour holds; IM 1250-1264, 1300-1314, 1349-1363,
    1523-1537, 1621-1635, 1873-1887. *)
Definition RelNeighbours (r : rel) (i : nat) (m : mesh) : outcome (list N) :=
  require (i <? num (src r) m);;
  n ← RelNumber r i m;
  ofold (fun acc k => b ← RelHas r i k m;
                      if b : bool then v ← RelGet r i k m; Ok (acc ++ [v]) else Ok acc)
        (seq 0 (N.to_nat n)) [].

(** [std::find] as a position, [length] when absent. *)
Fixpoint find_pos (v : N) (l : list N) : nat :=
  match l with
  | [] => 0
  | x :: l' => if (x =? v)%N then 0 else S (find_pos v l')
  end.

(** Cell2DFindVertex, Cell2DFindEdge, Cell3DFindVertex/Edge/Face: DAO 1013-1031, 1326-1354. *)
Definition RelFind (r : rel) (i : nat) (v : N) (m : mesh) : outcome nat :=
  l ← RelRow r i m;
  Ok (find_pos v l).

(** [Cell1DVertices[2 * e + k]] with an unchecked edge number. *)
Definition ext_unchecked (m : mesh) (e : N) (k : nat) : outcome N :=
  if (e <? N.of_nat (length (mext m)))%N then vget (mext m) (2 * N.to_nat e + k) else UB.

Fixpoint find_edge_in (m : mesh) (o t : N) (edges : list N) (pos : nat) : outcome nat :=
  match edges with
  | [] => Ok pos
  | e :: edges' =>
      a ← ext_unchecked m e 0;
      b ← ext_unchecked m e 1;
      if (a =? o)%N && (b =? t)%N then Ok pos else find_edge_in m o t edges' (S pos)
  end.

(** Cell2DFindEdgeByExtremes, Cell3DFindEdgeByExtremes: DAO 1033-1046, 1356-1369 ([r] is [E2] or [E3]). *)
Definition FindEdgeByExtremes (r : rel) (i : nat) (o t : N) (m : mesh) : outcome nat :=
  edges ← RelRow r i m;
  find_edge_in m o t edges 0.

(** ** Double properties *)

Definition set_props (d : dim) (p : props) (m : mesh) : mesh :=
  let c := mcells m d in
  set_cells d (Cells (cnum c) (cmark c) (cact c) (corig c) (cupd c) p) m.

(** CellkDAddDoubleProperty: DAO 465-475, 783-793, 1132-1142, 1427-1437. *)
Definition AddDoubleProperty (d : dim) (id : string) (m : mesh) : outcome (mesh * nat) :=
  let c := mcells m d in
  let p := cprops c in
  require (bool_decide (pindex p !! id = None));;
  let idx := length (pvals p) in
  Ok (set_props d (Props (pids p ++ [id]) (<[id := idx]> (pindex p))
                         (pvals p ++ [Csr (replicate (cnum c + 1) 0) []])) m, idx).

(** CellkDsInitializeDoublePropertyValues: DAO 477-484, 795-802, 1144-1151, 1439-1446. *)
Definition PropInitAll (d : dim) (p : nat) (cnt : list nat) (m : mesh) : outcome mesh :=
  let c := mcells m d in
  let ps := cprops c in
  require (p <? length (pids ps));;
  require (length cnt =? cnum c);;
  v ← vget (pvals ps) p;
  Ok (set_props d (Props (pids ps) (pindex ps) (<[p := csr_init v cnt 0%N]> (pvals ps))) m).

(** CellkDInitializeDoublePropertyValues: DAO 486-499, 804-817, 1153-1166, 1448-1461. *)
Definition PropInitOne (d : dim) (i p n : nat) (m : mesh) : outcome mesh :=
  let c := mcells m d in
  let ps := cprops c in
  require (i <? cnum c);;
  require (p <? length (pids ps));;
  v ← vget (pvals ps) p;
  v' ← csr_resize_row v (cnum c) i n 0%N;
  Ok (set_props d (Props (pids ps) (pindex ps) (<[p := v']> (pvals ps))) m).

(** CellkDInsertDoublePropertyValue: IM 1382-1392, 1653-1663, 1905-1915, 2151-2161; the position [k] is not checked. *)
Definition PropInsert (d : dim) (i p k : nat) (x : N) (m : mesh) : outcome mesh :=
  let c := mcells m d in
  let ps := cprops c in
  require (i <? cnum c);;
  require (p <? length (pids ps));;
  v ← vget (pvals ps) p;
  v' ← csr_set v i k x;
  Ok (set_props d (Props (pids ps) (pindex ps) (<[p := v']> (pvals ps))) m).

(** CellkDDoublePropertySize: IM 1410-1416, 1681-1687, 1933-1939, 2179-2185. *)
Definition PropSize (d : dim) (i p : nat) (m : mesh) : outcome N :=
  let c := mcells m d in
  require (i <? cnum c);;
  require (p <? length (pids (cprops c)));;
  v ← vget (pvals (cprops c)) p;
  csr_count v i.

(** CellkDDoublePropertyValue: IM 1417-1426, 1688-1697, 1940-1949, 2186-2195. *)
Definition PropValue (d : dim) (i p k : nat) (m : mesh) : outcome N :=
  let c := mcells m d in
  require (i <? cnum c);;
  require (p <? length (pids (cprops c)));;
  n ← PropSize d i p m;
  require (N.of_nat k <? n)%N;;
  v ← vget (pvals (cprops c)) p;
  csr_get v i k.

(** CellkDDoublePropertyExists / Index: IM 1401-1409, 1672-1680, 1924-1932, 2170-2178. *)
Definition PropExists (d : dim) (id : string) (m : mesh) : bool :=
  bool_decide (is_Some (pindex (cprops (mcells m d)) !! id)).
Definition PropIndex (d : dim) (id : string) (m : mesh) : outcome nat :=
  match pindex (cprops (mcells m d)) !! id with Some p => Ok p | None => Abort end.

(** CellkDInitializeDoubleProperties only reserves memory (DAO 458-463, 729-734, 1125-1130, 1420-1425) and Compress
    (DAO 1531-1600) only calls [shrink_to_fit]: both are the identity on the modelled state. *)
Definition InitializeDoubleProperties (n : nat) (m : mesh) : mesh := m.
Definition Compress (m : mesh) : mesh := m.

(** ** Mesh-editing calls as data *)

Inductive op :=
| OInitDimension (n : nat)
| OInitialize (d : dim) (n : nat)
| OAppend (d : dim) (n : nat)
| ORemove (d : dim) (i : nat)
| OCoordinates (i : nat) (x y z : N)
| OAllCoordinates (cols : list (N * N * N))
| OExtremes (e : nat) (o t : N)
| OAllExtremes (cols : list (N * N))
| OMarker (d : dim) (i : nat) (v : N)
| OState (d : dim) (i : nat) (b : bool)
| OUpdated (d : dim) (i j : nat)
| OInitAll (r : rel) (cnt : list nat)
| OInitConst (r : rel) (k : nat)
| OInitOne (r : rel) (i n : nat)
| OInsert (r : rel) (i k : nat) (v : N)
| OInsertList (r : rel) (i : nat) (vs : list N)
| OAdd (r : rel) (i : nat) (vs : list N)
| OAddVE (i : nat) (cols : list (N * N))
| OReset (r : rel) (i k : nat)
| OAddProperty (d : dim) (id : string)
| OPropInitAll (d : dim) (p : nat) (cnt : list nat)
| OPropInitOne (d : dim) (i p n : nat)
| OPropInsert (d : dim) (i p k : nat) (x : N)
| OCompress.

Definition CellsInitialize (d : dim) (n : nat) (m : mesh) : mesh :=
  match d with
  | D0 => Cell0DsInitialize n m
  | D1 => Cell1DsInitialize n m
  | D2 => Cell2DsInitialize n m
  | D3 => Cell3DsInitialize n m
  end.

Definition CellAppend (d : dim) (n : nat) (m : mesh) : outcome (mesh * nat) :=
  match d with
  | D0 => Cell0DAppend n m
  | D1 => Cell1DAppend n m
  | D2 => Cell2DAppend n m
  | D3 => Cell3DAppend n m
  end.

Definition CellRemove (d : dim) (i : nat) (m : mesh) : outcome mesh :=
  match d with
  | D0 => Cell0DRemove i m
  | D1 => Cell1DRemove i m
  | D2 => Cell2DRemove i m
  | D3 => Cell3DRemove i m
  end.

Definition step (m : mesh) (o : op) : outcome mesh :=
  match o with
  | OInitDimension n => Ok (InitializeDimension n m)
  | OInitialize d n => Ok (CellsInitialize d n m)
  | OAppend d n => mn ← CellAppend d n m; Ok mn.1
  | ORemove d i => CellRemove d i m
  | OCoordinates i x y z => Cell0DInsertCoordinates i x y z m
  | OAllCoordinates cols => Cell0DsInsertCoordinates cols m
  | OExtremes e o t => Cell1DInsertExtremes e o t m
  | OAllExtremes cols => Cell1DsInsertExtremes cols m
  | OMarker d i v => SetMarker d i v m
  | OState d i b => SetState d i b m
  | OUpdated d i j => InsertUpdated d i j m
  | OInitAll r cnt => RelInitAll r cnt m
  | OInitConst r k => RelInitConst r k m
  | OInitOne r i n => RelInitOne r i n m
  | OInsert r i k v => RelInsert r i k v m
  | OInsertList r i vs => RelInsertList r i vs m
  | OAdd r i vs => RelAdd r i vs m
  | OAddVE i cols => Cell2DAddVerticesAndEdges i cols m
  | OReset r i k => RelReset r i k m
  | OAddProperty d id => mn ← AddDoubleProperty d id m; Ok mn.1
  | OPropInitAll d p cnt => PropInitAll d p cnt m
  | OPropInitOne d i p n => PropInitOne d i p n m
  | OPropInsert d i p k x => PropInsert d i p k x m
  | OCompress => Ok (Compress m)
  end.

Definition run (ops : list op) (m : mesh) : outcome mesh := ofold step ops m.
