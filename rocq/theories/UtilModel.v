(** * Mesh utilities on top of the mesh store: extraction of the active mesh, neighbours, splitting of cells.

    Files modelled: GeDiM/src/Mesh/MeshUtilities.cpp ("MU"), MeshUtilities1D.cpp ("MU1"), MeshUtilities2D.cpp ("MU2"),
    MeshUtilities3D.cpp ("MU3").  A loop over an index and the element at this index is a loop over
    [imap pair]. *)
From Verif Require Import Base CsrModel MeshModel.

(** ** Extraction of the active mesh *)

(** ExtractActiveMeshData, MeshUtilities.hpp:79-97: two [unordered_map]s for each dimension. *)
Record active_data := ActiveData {
  new_to_old : dim -> gmap nat nat;
  old_to_new : dim -> gmap nat nat
}.
Definition no_active_data : active_data := ActiveData (fun _ => ∅) (fun _ => ∅).

(** [unordered_map::insert] keeps an existing entry. *)
Definition map_insert (k v : nat) (u : gmap nat nat) : gmap nat nat :=
  match u !! k with Some _ => u | None => <[k := v]> u end.

(** First loop of each block, MU 55-68, 78-91, 101-114, 124-137: the state is the list of cells to remove, the number of
    kept cells and the maps. *)
Definition scan_active (d : dim) (m : mesh) (dat : active_data) : outcome (list nat * nat * active_data) :=
  ofold (fun s c =>
           b ← IsActive d c m;
           if b : bool then
             let '(rem, n, dat) := s in
             Ok (rem, S n, ActiveData (upd_fun (new_to_old dat) d (map_insert n c (new_to_old dat d)))
                                      (upd_fun (old_to_new dat) d (map_insert c n (old_to_new dat d))))
           else let '(rem, n, dat) := s in Ok (rem ++ [c], n, dat))
        (seq 0 (num d m)) ([], 0, dat).

(** Second loop of each block, MU 70-75, 93-98, 116-121, 139-144. *)
Definition remove_listed (d : dim) (rem : list nat) (m : mesh) : outcome mesh :=
  mk ← ofold (fun mk c => m' ← CellRemove d (c - mk.2) mk.1; Ok (m', S mk.2)) rem (m, 0);
  Ok mk.1.

(** One block of ExtractActiveMesh. *)
Definition extract_dim (s : mesh * active_data) (d : dim) : outcome (mesh * active_data) :=
  r ← scan_active d s.1 s.2;
  m ← remove_listed d r.1.1 s.1;
  Ok (m, r.2).

(** ExtractActiveMesh, MU 52-147. *)
Definition ExtractActiveMesh (m : mesh) (dat : active_data) : outcome (mesh * active_data) :=
  s ← ofold extract_dim [D0; D1; D2; D3] (m, dat);
  Ok (Compress s.1, s.2).

(** FilterActiveMesh, MU 149-184: the active cells of each dimension. *)
Definition FilterActiveMesh (d : dim) (m : mesh) : outcome (list nat) :=
  ofold (fun l c => b ← IsActive d c m; Ok (if b : bool then l ++ [c] else l)) (seq 0 (num d m)) [].

(** ** Neighbours *)

(** [neighbours[v].push_back(c)] on a vector of lists. *)
Definition push_neighbour (v : N) (c : nat) (nb : list (list N)) : outcome (list (list N)) :=
  l ← vget nb (N.to_nat v);
  vset nb (N.to_nat v) (l ++ [N.of_nat c]).

(** The loop over the active cells of dimension [d] filling the vector of lists; [row] reads the cells of the lower
    dimension belonging to a cell. *)
Definition collect_neighbours (d : dim) (lower : nat) (row : nat -> mesh -> outcome (list N)) (m : mesh)
  : outcome (list (list N)) :=
  ofold (fun nb c =>
           b ← IsActive d c m;
           if b : bool then l ← row c m; ofold (fun nb v => push_neighbour v c nb) l nb else Ok nb)
        (seq 0 (num d m)) (replicate lower []).

(** Storing the lists: bulk initialisation with their lengths, then one insertion for each entry. *)
Definition store_neighbours (r : rel) (nb : list (list N)) (m : mesh) : outcome mesh :=
  m ← RelInitAll r (length <$> nb) m;
  ofold (fun m cl => RelInsertList r cl.1 cl.2 m) (imap pair nb) m.

(** Reading [Cell..NumberX(c)] and then [Cell..X(c, v)] for each [v]. *)
Definition read_row (r : rel) (c : nat) (m : mesh) : outcome (list N) :=
  n ← RelNumber r c m;
  omapM (fun v => RelGet r c v m) (seq 0 (N.to_nat n)).

(** Cell1DExtremes, IMeshDAO.hpp:1439-1442. *)
Definition Cell1DExtremes (e : nat) (m : mesh) : outcome (list N) :=
  o ← Cell1DOrigin e m;
  t ← Cell1DEnd e m;
  Ok [o; t].

(** ComputeCell0DCell1DNeighbours, MU2 1094-1121. *)
Definition ComputeCell0DCell1DNeighbours (m : mesh) : outcome mesh :=
  nb ← collect_neighbours D1 (num D0 m) Cell1DExtremes m;
  store_neighbours R01 nb m.

(** ComputeCell0DCell2DNeighbours, MU2 1123-1150. *)
Definition ComputeCell0DCell2DNeighbours (m : mesh) : outcome mesh :=
  nb ← collect_neighbours D2 (num D0 m) (read_row V2) m;
  store_neighbours R02 nb m.

(** ComputeCell0DCell3DNeighbours, MU2 1152-1179. *)
Definition ComputeCell0DCell3DNeighbours (m : mesh) : outcome mesh :=
  nb ← collect_neighbours D3 (num D0 m) (read_row V3) m;
  store_neighbours R03 nb m.

(** ComputeCell1DCell3DNeighbours, MU3 2351-2378. *)
Definition ComputeCell1DCell3DNeighbours (m : mesh) : outcome mesh :=
  nb ← collect_neighbours D3 (num D1 m) (read_row E3) m;
  store_neighbours R13 nb m.

(** ComputeCell2DCell3DNeighbours, MU3 2380-2407. *)
Definition ComputeCell2DCell3DNeighbours (m : mesh) : outcome mesh :=
  nb ← collect_neighbours D3 (num D2 m) (read_row F3) m;
  store_neighbours R23 nb m.

(** One edge of one polygon in the two-dimensional case of ComputeCell1DCell2DNeighbours, MU2 1198-1213: the polygon is
    on the left of an edge it runs along, on the right of the others. *)
Definition set_side (c : nat) (n : nat) (m : mesh) (e : nat) : outcome mesh :=
  cell1D ← RelGet E2 c e m;
  o ← RelGet V2 c e m;
  t ← RelGet V2 c ((e + 1) mod n) m;
  f ← FindEdgeByExtremes E2 c o t m;
  if f =? e then RelInsert R12 (N.to_nat cell1D) 1 (N.of_nat c) m
  else RelInsert R12 (N.to_nat cell1D) 0 (N.of_nat c) m.

(** ComputeCell1DCell2DNeighbours, MU2 1184-1247. *)
Definition ComputeCell1DCell2DNeighbours (m : mesh) : outcome mesh :=
  match mdim m with
  | 2 =>
      m ← RelInitConst R12 2 m;
      ofold (fun m c =>
               b ← IsActive D2 c m;
               if b : bool then
                 n ← RelNumber E2 c m;
                 ofold (set_side c (N.to_nat n)) (seq 0 (N.to_nat n)) m
               else Ok m)
            (seq 0 (num D2 m)) m
  | 3 =>
      nb ← collect_neighbours D2 (num D1 m) (read_row E2) m;
      store_neighbours R12 nb m
  | _ => Throw
  end.

(** ** Splitting cells *)

(** MU1 248-255, MU2 1276-1283, 1290-1297, MU3 2515-2522, 2529-2536, 2543-2550: in the neighbour list of cell [v], replace
    [parent] by [child]. *)
Definition redirect (r : rel) (parent child : nat) (v : nat) (m : mesh) : outcome mesh :=
  n ← RelNumber r v m;
  ofold (fun m k =>
           h ← RelHas r v k m;
           if h : bool then
             w ← RelGet r v k m;
             if (w =? N.of_nat parent)%N then RelInsert r v k (N.of_nat child) m else Ok m
           else Ok m)
        (seq 0 (N.to_nat n)) m.

(** The same for all the vertices (edges, faces) of [child]; they are read once, before the loop, since the loop does
    not change them.  MU1 244-256, MU2 1272-1284, 1286-1298, MU3 2511-2523, 2525-2537, 2539-2551. *)
Definition redirect_all (r : rel) (parent child : nat) (row : mesh -> outcome (list N)) (m : mesh) : outcome mesh :=
  l ← row m;
  ofold (fun m v => redirect r parent child (N.to_nat v) m) l m.

(** MU1 258-272, 274-287, MU2 1300-1312: the child gets the neighbours of the parent. *)
Definition inherit (r : rel) (parent child : nat) (m : mesh) : outcome mesh :=
  n ← RelNumber r parent m;
  if (0 <? n)%N then
    m ← RelInitOne r child (N.to_nat n) m;
    ofold (fun m k =>
             h ← RelHas r parent k m;
             if h : bool then w ← RelGet r parent k m; RelInsert r child k w m else Ok m)
          (seq 0 (N.to_nat n)) m
  else Ok m.

(** Marker, state and genealogy of a child: MU1 239-242, MU2 1267-1270, MU3 2506-2509. *)
Definition adopt (d : dim) (parent child : nat) (m : mesh) : outcome mesh :=
  k ← Marker d parent m;
  m ← SetMarker d child k m;
  m ← SetState d child true m;
  InsertUpdated d parent child m.

(** SplitCell1D, MU1 220-291.  [subs]: the columns of subCell1Ds. *)
Definition SplitCell1D (parent : nat) (subs : list (N * N)) (m : mesh) : outcome (mesh * list nat) :=
  ms ← CellAppend D1 (length subs) m;
  m ← SetState D1 parent false ms.1;
  m ← ofold (fun m ce =>
               let child := ms.2 + ce.1 in
               m ← Cell1DInsertExtremes child ce.2.1 ce.2.2 m;
               m ← adopt D1 parent child m;
               m ← redirect_all R01 parent child (fun m => omapM (fun v => Cell1DVertex child v m) [0; 1]) m;
               m ← inherit R12 parent child m;
               inherit R13 parent child m)
            (imap pair subs) m;
  Ok (m, seq ms.2 (length subs)).

(** SplitCell2D, MU2 1249-1316.  [subs]: for each child the columns (vertex, edge). *)
Definition SplitCell2D (parent : nat) (subs : list (list (N * N))) (m : mesh) : outcome (mesh * list nat) :=
  ms ← CellAppend D2 (length subs) m;
  m ← SetState D2 parent false ms.1;
  m ← ofold (fun m ce =>
               let child := ms.2 + ce.1 in
               m ← Cell2DAddVerticesAndEdges child ce.2 m;
               m ← adopt D2 parent child m;
               m ← redirect_all R02 parent child (read_row V2 child) m;
               m ← redirect_all R12 parent child (read_row E2 child) m;
               inherit R23 parent child m)
            (imap pair subs) m;
  Ok (m, seq ms.2 (length subs)).

(** SplitCell3D, MU3 2481-2555. *)
Definition SplitCell3D (parent : nat) (vs es fs : list (list N)) (m : mesh) : outcome (mesh * list nat) :=
  require ((length vs =? length es) && (length vs =? length fs));;
  ms ← CellAppend D3 (length vs) m;
  m ← SetState D3 parent false ms.1;
  m ← ofold (fun m c =>
               let child := ms.2 + c in
               v ← vget vs c;
               m ← RelAdd V3 child v m;
               e ← vget es c;
               m ← RelAdd E3 child e m;
               f ← vget fs c;
               m ← RelAdd F3 child f m;
               m ← adopt D3 parent child m;
               m ← redirect_all R03 parent child (read_row V3 child) m;
               m ← redirect_all R13 parent child (read_row E3 child) m;
               redirect_all R23 parent child (read_row F3 child) m)
            (seq 0 (length vs)) m;
  Ok (m, seq ms.2 (length vs)).
