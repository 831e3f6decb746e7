(** * Polyhedra from the lists of the vertices of their faces.
    Files: GPH = GeDiM/src/Geometry/GeometryUtilities_Polyhedron.cpp, GUH = GeDiM/src/Geometry/GeometryUtilities.hpp.
    The numbers of vertices and edges are [nat]: the conversions between [unsigned int] and [int] are not modelled (they change no
    number below 2^31). *)
From Verif Require Import Base.
Local Open Scope nat_scope.

(** GeometryUtilities::Polyhedron, GUH 676-681: the columns of Vertices, Edges and Faces. *)
Record polyhedron (P : Type) := Polyhedron { ph_vertices : list P; ph_edges : list (nat * nat); ph_faces : list (list (nat * nat)) }.
Arguments Polyhedron {P}. Arguments ph_vertices {P}. Arguments ph_edges {P}. Arguments ph_faces {P}.

(** std::map::insert({key, map.size()}), GPH 1534 and 1559: a key which is there keeps its number.  The map is kept in the order of
    insertion; the loops over the map below go through it in any order. *)
Definition number {K} `{EqDecision K} (m : list (K * nat)) (k : K) : list (K * nat) :=
  if bool_decide (k ∈ m.*1) then m else m ++ [(k, length m)].
(** std::map::at. *)
Definition number_of {K} `{EqDecision K} (m : list (K * nat)) (k : K) : outcome nat :=
  match list_find (fun x => x.1 = k) m with Some (_, x) => Ok x.2 | None => Throw end.

(** FacetsToVertices, GPH 1525-1538. *)
Definition FacetsToVertices (facets : list (list nat)) : list (nat * nat) := foldl (fun m facet => foldl number m facet) [] facets.

(** The side of a facet from a vertex to the next one, smaller vertex first, GPH 1551-1558 and 1591-1596. *)
Definition facet_side (facet : list nat) (k : nat) : outcome (nat * nat) :=
  a ← vget facet k;
  b ← vget facet ((k + 1) mod length facet);
  Ok (a `min` b, a `max` b).
(** FacetsToEdges, GPH 1540-1564. *)
Definition FacetsToEdges (facets : list (list nat)) : outcome (list ((nat * nat) * nat)) :=
  ofold (fun m facet => ofold (fun m k => s ← facet_side facet k; Ok (number m s)) (seq 0 (length facet)) m) facets [].

(** vertices_id.at(vertex.second) = vertex.first, GPH 1575-1576. *)
Definition write_id (ids : list nat) (x : nat * nat) : outcome (list nat) := if decide (x.2 < length ids) then Ok (<[x.2 := x.1]> ids) else Throw.
(** The columns of a face, GPH 1589-1597. *)
Definition facet_column (vertices : list (nat * nat)) (edges : list ((nat * nat) * nat)) (facet : list nat) (k : nat) : outcome (nat * nat) :=
  a ← vget facet k;
  v ← number_of vertices a;
  s ← facet_side facet k;
  e ← number_of edges s;
  Ok (v, e).
(** A column of the edges, GPH 1602-1607. *)
Definition write_edge (vertices : list (nat * nat)) (edges : list (nat * nat)) (x : (nat * nat) * nat) : outcome (list (nat * nat)) :=
  a ← number_of vertices x.1.1;
  b ← number_of vertices x.1.2;
  vset edges x.2 (a, b).
(** FacetsToPolyhedron, GPH 1566-1610; [ov] and [oe] are the orders in which the two maps are gone through.  ExtractPoints is
    GeometryUtilities.cpp 322-329. *)
Definition FacetsToPolyhedron {P} (ov : list (nat * nat) -> list (nat * nat)) (oe : list ((nat * nat) * nat) -> list ((nat * nat) * nat))
  (points : list P) (facets : list (list nat)) : outcome (polyhedron P) :=
  let vertices := FacetsToVertices facets in
  ids ← ofold write_id (ov vertices) (replicate (length vertices) 0);
  ps ← omapM (vget points) ids;
  edges ← FacetsToEdges facets;
  faces ← omapM (fun facet => omapM (facet_column vertices edges facet) (seq 0 (length facet))) facets;
  es ← ofold (write_edge vertices) (oe edges) (replicate (length edges) (0, 0));
  Ok (Polyhedron ps es faces).

(** PolyhedronToFacets, GPH 1612-1626. *)
Definition PolyhedronToFacets {P} (p : polyhedron P) : list (list nat) := map (map fst) (ph_faces p).

(** ChangePolygonOrientation, GUH 1857-1864: without vertices the first entry written does not exist. *)
Definition ChangePolygonOrientation (n : nat) : outcome (list nat) :=
  l ← vset (replicate n 0) 0 0;
  ofold (fun l i => vset l i (n - i)) (seq 1 (n - 1)) l.
(** ChangePolyhedronFaceOrientation, GPH 1628-1647. *)
Definition ChangePolyhedronFaceOrientation {P} (p : polyhedron P) (f : nat) : outcome (list (nat * nat)) :=
  face ← vat (ph_faces p) f;
  let n := length face in
  new ← ChangePolygonOrientation n;
  omapM (fun v =>
    nv ← vat new v;
    let ne := if nv =? 0 then n - 1 else nv - 1 in
    a ← vget face nv;
    b ← vget face ne;
    Ok (a.1, b.2)) (seq 0 n).
(** ChangePolyhedronFacesOrientation, GPH 1649-1663. *)
Definition ChangePolyhedronFacesOrientation {P} (p : polyhedron P) (keep : list bool) : outcome (list (list (nat * nat))) :=
  ofold (fun faces f =>
    b ← vat keep f;
    if (b : bool) then Ok faces
    else
      face ← ChangePolyhedronFaceOrientation p f;
      vset faces f face) (seq 0 (length (ph_faces p))) (ph_faces p).
