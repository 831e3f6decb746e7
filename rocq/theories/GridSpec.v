(** * What a conforming structured mesh is, in terms of the queries on meshes *)
From Coq Require Import QArith Qcanon.
From Verif Require Import Base CsrModel MeshModel MeshHist FillModel FillSpec.
Local Open Scope nat_scope.

(** Edge [e] has the end points [a] and [b]. *)
Definition edge_joins (m : mesh) (e a b : N) : Prop :=
  (Cell1DOrigin (N.to_nat e) m = Ok a /\ Cell1DEnd (N.to_nat e) m = Ok b) \/
  (Cell1DOrigin (N.to_nat e) m = Ok b /\ Cell1DEnd (N.to_nat e) m = Ok a).

(** Polygon [c] has [k] different vertices and [k] different edges, edge [v] joins vertex [v] and the next one. *)
Definition closed_polygon (k : nat) (m : mesh) (c : nat) : Prop :=
  exists vs es, RelRow V2 c m = Ok vs /\ RelRow E2 c m = Ok es /\
    length vs = k /\ length es = k /\ NoDup vs /\ NoDup es /\
    forall v a b e, vs !! v = Some a -> vs !! ((v + 1) mod k) = Some b -> es !! v = Some e -> edge_joins m e a b.

(** Edge [e] is one of the edges of polygon [c]. *)
Definition borders (m : mesh) (e c : nat) : Prop :=
  c < num D2 m /\ exists es, RelRow E2 c m = Ok es /\ N.of_nat e ∈ es.

(** Every edge has different end points in the mesh, and no other edge has the same ones. *)
Definition simple_edges (m : mesh) : Prop :=
  (forall e, e < num D1 m -> exists a b, Cell1DOrigin e m = Ok a /\ Cell1DEnd e m = Ok b /\ a <> b /\
     N.to_nat a < num D0 m /\ N.to_nat b < num D0 m) /\
  (forall e f a b, N.to_nat e < num D1 m -> N.to_nat f < num D1 m -> edge_joins m e a b -> edge_joins m f a b -> e = f).

(** Edges marked 0 belong to two polygons, the others to one. *)
Definition two_sided (m : mesh) : Prop :=
  forall e, e < num D1 m -> exists k cs, Marker D1 e m = Ok k /\ NoDup cs /\ (forall c, c ∈ cs <-> borders m e c) /\
    length cs = if (k =? 0)%N then 2 else 1.

(** All cells are active. *)
Definition all_active (m : mesh) : Prop := forall d i, i < num d m -> IsActive d i m = Ok true.

(** Markers of the points of a rectangle: 1 to 4 at the corners, counter-clockwise from the origin, 5 to 8 on the sides,
    counter-clockwise from the base, 0 inside. *)
Definition rect_marker (nB nH h b : nat) : N :=
  if h =? 0 then (if b =? 0 then 1%N else if b =? nB - 1 then 2%N else 5%N)
  else if h =? nH - 1 then (if b =? 0 then 4%N else if b =? nB - 1 then 3%N else 7%N)
  else if b =? 0 then 8%N else if b =? nB - 1 then 6%N else 0%N.

(** The point with coordinates [x], [y] of the rectangle. *)
Definition rect_point (o tb th : vec3) (x y : Qc) : vec3 :=
  let '((ox, oy), oz) := o in let '((bx, by_), bz) := tb in let '((hx, hy), hz) := th in
  ((ox + x * bx + y * hx)%Qc, (oy + x * by_ + y * hy)%Qc, (oz + x * bz + y * hz)%Qc).

(** The points of a grid with [nB] points in a row: vertex [h], [b]; the mesh has an edge with these end points and marker. *)
Definition grid_vertex (nB h b : nat) : N := N.of_nat (b + h * nB).
Definition marked_edge (m : mesh) (a b k : N) : Prop :=
  exists e, N.to_nat e < num D1 m /\ edge_joins m e a b /\ Marker D1 (N.to_nat e) m = Ok k.

(** Neighbouring points of a row or column are joined by an edge.  Markers: 5 on the base, then 6, 7, 8 counter-clockwise. *)
Definition grid_edges (nB nH : nat) (m : mesh) : Prop :=
  (forall h b, h < nH -> S b < nB -> marked_edge m (grid_vertex nB h b) (grid_vertex nB h (S b))
     (if h =? 0 then 5%N else if h =? nH - 1 then 7%N else 0%N)) /\
  (forall h b, S h < nH -> b < nB -> marked_edge m (grid_vertex nB h b) (grid_vertex nB (S h) b)
     (if b =? 0 then 8%N else if b =? nB - 1 then 6%N else 0%N)).

(** Cell [c] has the vertices [vs] and marker 0. *)
Definition polygon_is (m : mesh) (c : nat) (vs : list N) : Prop := RelRow V2 c m = Ok vs /\ Marker D2 c m = Ok 0%N.

(** ** Three dimensions *)

(** Polyhedron [c] has [nv] vertices, [ne] edges, [nf] faces, all different; its faces only use its vertices and edges;
    every vertex is used by one of the faces and every edge by exactly two of them. *)
Definition closed_polyhedron (nv ne nf : nat) (m : mesh) (c : nat) : Prop :=
  exists vs es fs, RelRow V3 c m = Ok vs /\ RelRow E3 c m = Ok es /\ RelRow F3 c m = Ok fs /\
    length vs = nv /\ length es = ne /\ length fs = nf /\ NoDup vs /\ NoDup es /\ NoDup fs /\
    (forall f, f ∈ fs -> N.to_nat f < num D2 m /\
       exists fv fe, RelRow V2 (N.to_nat f) m = Ok fv /\ RelRow E2 (N.to_nat f) m = Ok fe /\ fv ⊆ vs /\ fe ⊆ es) /\
    (forall v, v ∈ vs -> exists f fv, f ∈ fs /\ RelRow V2 (N.to_nat f) m = Ok fv /\ v ∈ fv) /\
    (forall e, e ∈ es -> exists f g, f <> g /\ f ∈ fs /\ g ∈ fs /\
       forall f', f' ∈ fs -> borders m (N.to_nat e) (N.to_nat f') <-> f' = f \/ f' = g).

(** Face [f] is one of the faces of polyhedron [c]. *)
Definition bounds (m : mesh) (f c : nat) : Prop := c < num D3 m /\ exists fs, RelRow F3 c m = Ok fs /\ N.of_nat f ∈ fs.

(** Faces marked 0 belong to two polyhedra, the others to one. *)
Definition two_sided_faces (m : mesh) : Prop :=
  forall f, f < num D2 m -> exists k cs, Marker D2 f m = Ok k /\ NoDup cs /\ (forall c, c ∈ cs <-> bounds m f c) /\
    length cs = if (k =? 0)%N then 2 else 1.

(** Where a point is along one direction, and the markers of the 8 corners, 12 edges, 6 faces and the inside of a box. *)
Inductive place := Lo | Mid | Hi.
Definition place_of (n i : nat) : place := if i =? 0 then Lo else if i =? n - 1 then Hi else Mid.
Definition box_marker (l h w : place) : N :=
  match w, h, l with
  | Lo, Lo, Lo => 1 | Lo, Lo, Hi => 2 | Lo, Hi, Hi => 3 | Lo, Hi, Lo => 4
  | Hi, Lo, Lo => 5 | Hi, Lo, Hi => 6 | Hi, Hi, Hi => 7 | Hi, Hi, Lo => 8
  | Lo, Lo, Mid => 9 | Lo, Mid, Hi => 10 | Lo, Hi, Mid => 11 | Lo, Mid, Lo => 12
  | Hi, Lo, Mid => 13 | Hi, Mid, Hi => 14 | Hi, Hi, Mid => 15 | Hi, Mid, Lo => 16
  | Mid, Lo, Lo => 17 | Mid, Lo, Hi => 18 | Mid, Hi, Hi => 19 | Mid, Hi, Lo => 20
  | Lo, Mid, Mid => 21 | Hi, Mid, Mid => 22 | Mid, Mid, Lo => 23 | Mid, Mid, Hi => 24
  | Mid, Lo, Mid => 25 | Mid, Hi, Mid => 26 | Mid, Mid, Mid => 0
  end%N.

Definition box_point (o tl th tw : vec3) (x y z : Qc) : vec3 := 
  let '((ox, oy), oz) := o in let '((lx, ly), lz) := tl in let '((hx, hy), hz) := th in let '((wx, wy), wz) := tw in
  ((ox + x * lx + y * hx + z * wx)%Qc, (oy + x * ly + y * hy + z * wy)%Qc, (oz + x * lz + y * hz + z * wz)%Qc).

Definition marked_face (m : mesh) (vs : list N) (k : N) : Prop :=
  exists f, f < num D2 m /\ RelRow V2 f m = Ok vs /\ Marker D2 f m = Ok k.

(** Edges join neighbouring points of the grid, and faces lie between four of them, marked as the place of their middle. *)
Definition box_edges_faces (nL nH nW : nat) (m : mesh) : Prop :=
  let v w h l := N.of_nat (l + h * nL + w * nL * nH) in
  let pl := place_of nL in let ph := place_of nH in let pw := place_of nW in
  (forall w h l, w < nW -> h < nH -> S l < nL -> marked_edge m (v w h l) (v w h (S l)) (box_marker Mid (ph h) (pw w))) /\
  (forall w h l, w < nW -> S h < nH -> l < nL -> marked_edge m (v w h l) (v w (S h) l) (box_marker (pl l) Mid (pw w))) /\
  (forall w h l, S w < nW -> h < nH -> l < nL -> marked_edge m (v w h l) (v (S w) h l) (box_marker (pl l) (ph h) Mid)) /\
  (forall w h l, w < nW -> S h < nH -> S l < nL ->
     marked_face m [v w h l; v w h (S l); v w (S h) (S l); v w (S h) l] (box_marker Mid Mid (pw w))) /\
  (forall w h l, S w < nW -> h < nH -> S l < nL ->
     marked_face m [v w h l; v w h (S l); v (S w) h (S l); v (S w) h l] (box_marker Mid (ph h) Mid)) /\
  (forall w h l, S w < nW -> S h < nH -> l < nL ->
     marked_face m [v w h l; v w (S h) l; v (S w) (S h) l; v (S w) h l] (box_marker (pl l) Mid Mid)).
