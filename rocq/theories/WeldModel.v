(** * Joining polygons into one polygon.
    File: MU2 = GeDiM/src/Mesh/MeshUtilities2D.cpp.
    As in [JoinModel] an [unordered_set] is the list of its elements, each once, in the unspecified order in which it is gone
    through; [order] may be any rearrangement. *)
From Verif Require Import Base CsrModel MeshModel JoinModel.
Local Open Scope nat_scope.

(** What is collected from the polygons, MU2 2297-2299: the greatest marker, the original polygons, the polyhedra. *)
Record crop := Crop { cr_marker : N; cr_original : list N; cr_solids : list N }.

(** MU2 2311-2320. *)
Definition take_body (f : nat) (m : mesh) (s : list N) (n : nat) : outcome (list N) :=
  h ← RelHas R23 f n m;
  if h : bool then
    p ← RelGet R23 f n m;
    Ok (set_add p s)
  else Ok s.

(** One of the polygons, MU2 2300-2321. *)
Definition weld_one (original : list (list N)) (s : mesh * crop) (f : N) : outcome (mesh * crop) :=
  let i := N.to_nat f in
  m ← SetState D2 i false s.1;
  k ← Marker D2 i m;
  l ← vat original i;
  n ← RelNumber R23 i m;
  ss ← ofold (take_body i m) (seq 0 (N.to_nat n)) (cr_solids s.2);
  Ok (m, Crop (if (cr_marker s.2 <? k)%N then k else cr_marker s.2) (cr_original s.2 ++ l) ss).

(** The polygons of a vertex that are not joined: MU2 2344-2353. *)
Definition other_polygons (fs : list N) (v : nat) (m : mesh) (l : list N) (n : nat) : outcome (list N) :=
  h ← RelHas R02 v n m;
  if h : bool then
    f ← RelGet R02 v n m;
    Ok (if bool_decide (f ∈ fs) then l else l ++ [f])
  else Ok l.

(** One vertex of the new polygon, MU2 2338-2360. *)
Definition update_corner (fs : list N) (c : nat) (m : mesh) (k : nat) : outcome mesh :=
  v ← RelGet V2 c k m;
  n ← RelNumber R02 (N.to_nat v) m;
  l ← ofold (other_polygons fs (N.to_nat v) m) (seq 0 (N.to_nat n)) [];
  match l with
  | [] => Ok m
  | _ => RelAdd R02 (N.to_nat v) (l ++ [N.of_nat c]) m
  end.

(** One neighbour of an edge, MU2 2366-2377. *)
Definition swap_polygon (fs : list N) (c e : nat) (m : mesh) (n : nat) : outcome mesh :=
  h ← RelHas R12 e n m;
  if h : bool then
    f ← RelGet R12 e n m;
    if bool_decide (f ∈ fs) then RelInsert R12 e n (N.of_nat c) m else Ok m
  else Ok m.

(** One edge of the new polygon, MU2 2362-2378. *)
Definition update_side (fs : list N) (c : nat) (m : mesh) (k : nat) : outcome mesh :=
  e ← RelGet E2 c k m;
  n ← RelNumber R12 (N.to_nat e) m;
  ofold (swap_polygon fs c (N.to_nat e)) (seq 0 (N.to_nat n)) m.

(** AgglomerateCell2Ds, MU2 2279-2386: the mesh, the new polygon, and the original polygons of every polygon
    (meshCell2DsOriginalCell2Ds).  [at] throws; [*begin()] of a set of one polygon is that polygon. *)
Definition WeldPolygons (order : list N -> list N) (fs vs es gone0 gone1 : list N) (original : list (list N)) (m : mesh) :
  outcome (mesh * nat * list (list N)) :=
  match fs with
  | [] => Ok (m, num D2 m, original)
  | [f] => Ok (m, N.to_nat f, original)
  | _ =>
      ms ← CellAppend D2 1 m;
      let c := ms.2 in
      r ← ofold (weld_one original) fs (ms.1, Crop 0 [] []);
      original' ← (if c <? length original + 1 then Ok (<[c := cr_original r.2]> (original ++ [[]])) else Throw);
      m ← RelAdd V2 c vs r.1;
      m ← RelAdd E2 c es m;
      m ← SetMarker D2 c (cr_marker r.2) m;
      m ← SetState D2 c true m;
      m ← (if decide (cr_solids r.2 = []) then Ok m else RelAdd R23 c (order (cr_solids r.2)) m);
      n ← RelNumber V2 c m;
      m ← ofold (update_corner fs c) (seq 0 (N.to_nat n)) m;
      n ← RelNumber E2 c m;
      m ← ofold (update_side fs c) (seq 0 (N.to_nat n)) m;
      m ← ofold (fun m v => SetState D0 (N.to_nat v) false m) gone0 m;
      m ← ofold (fun m e => SetState D1 (N.to_nat e) false m) gone1 m;
      Ok (m, c, original')
  end.
