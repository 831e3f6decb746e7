(** * What an OFF file keeps of a mesh. *)
From Verif Require Import Base StringsModel CsvModel CsvSpec CsrModel MeshModel MeshHist EdgesSpec.

(** The vertices of the polygons of a mesh. *)
Definition polygons (m : mesh) (rows : list (list N)) : Prop :=
  length rows = num D2 m /\ forall f vs, rows !! f = Some vs -> RelRow V2 f m = Ok vs.

(** A mesh the format can describe: the numbers fit, the coordinates are finite, the vertices of the polygons are vertices
    of the mesh and no side of a polygon joins a vertex with itself. *)
Record describable (finite : N -> Prop) (m : mesh) (rows : list (list N)) : Prop := {
  de_points : (N.of_nat (num D0 m) < 2147483648)%N;
  de_edges : fits (N.of_nat (num D1 m));
  de_size : fits (2 + N.of_nat (num D0 m) + N.of_nat (num D2 m));
  de_sides : fits (N.of_nat (length (concat rows)));
  de_finite : forall v x y z, Cell0DCoordinates v m = Ok (x, y, z) -> finite x /\ finite y /\ finite z;
  de_polygons : polygons m rows;
  de_vertices : in_range (num D0 m) rows;
  de_proper : forall vs a, vs ∈ rows -> ~ follows vs a a
}.

(** [m'] has the points and the polygons of [m]; its edges are the sides of the polygons, each once; everything is active
    and has marker zero. *)
Record same_shape (m m' : mesh) (rows : list (list N)) : Prop := {
  ss_dim : mdim m' = 2;
  ss_points : num D0 m' = num D0 m;
  ss_coordinates : forall v, v < num D0 m -> Cell0DCoordinates v m' = Cell0DCoordinates v m;
  ss_polygons : num D2 m' = num D2 m;
  ss_vertices : forall f, f < num D2 m -> RelRow V2 f m' = RelRow V2 f m;
  ss_solids : num D3 m' = 0;
  ss_edges : forall e, e < num D1 m' -> exists a b,
    Cell1DOrigin e m' = Ok a /\ Cell1DEnd e m' = Ok b /\ (a < b)%N /\ joined rows a b;
  ss_sides : forall a b, (a < b)%N -> joined rows a b -> exists e,
    e < num D1 m' /\ forall e', e' < num D1 m' -> (Cell1DOrigin e' m' = Ok a /\ Cell1DEnd e' m' = Ok b <-> e' = e);
  ss_around : forall f vs v a b, rows !! f = Some vs -> vs !! v = Some a -> vs !! ((v + 1) mod length vs) = Some b ->
    exists es e, RelRow E2 f m' = Ok es /\ length es = length vs /\ es !! v = Some e /\
      Cell1DOrigin (N.to_nat e) m' = Ok (N.min a b) /\ Cell1DEnd (N.to_nat e) m' = Ok (N.max a b);
  ss_active : forall d i, i < num d m' -> IsActive d i m' = Ok true;
  ss_marker : forall d i, i < num d m' -> Marker d i m' = Ok 0%N
}.

(** The edges of the mesh are the sides of its polygons, each once. *)
Record edges_are_sides (m : mesh) (rows : list (list N)) : Prop := {
  es_edge : forall e, e < num D1 m -> exists a b, Cell1DOrigin e m = Ok a /\ Cell1DEnd e m = Ok b /\ a <> b /\ joined rows a b;
  es_side : forall a b, joined rows a b -> exists e, e < num D1 m /\
    (Cell1DOrigin e m = Ok a /\ Cell1DEnd e m = Ok b \/ Cell1DOrigin e m = Ok b /\ Cell1DEnd e m = Ok a);
  es_once : forall e e' a b, e < num D1 m -> e' < num D1 m -> Cell1DOrigin e m = Ok a -> Cell1DEnd e m = Ok b ->
    Cell1DOrigin e' m = Ok a /\ Cell1DEnd e' m = Ok b \/ Cell1DOrigin e' m = Ok b /\ Cell1DEnd e' m = Ok a -> e = e'
}.
