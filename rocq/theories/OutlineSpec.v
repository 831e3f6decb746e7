(** * The outline of a group of polygons: what the callers expect. *)
From Verif Require Import Base CsrModel MeshModel MeshSpec MeshHist JoinSpec.
Local Open Scope nat_scope.

(** Edges and vertices of the polygons [fs]. *)
Definition edge_of (fs : list N) (m : mesh) (e : N) : Prop := exists f row, f ∈ fs /\ RelRow E2 (N.to_nat f) m = Ok row /\ e ∈ row.
Definition corner_of (fs : list N) (m : mesh) (v : N) : Prop := exists f row, f ∈ fs /\ RelRow V2 (N.to_nat f) m = Ok row /\ v ∈ row.
(** An edge inside: it has two or more neighbours, all of them among the polygons. *)
Definition inner_edge (fs : list N) (m : mesh) (e : N) : Prop :=
  edge_of fs m e /\ exists row, RelRow R12 (N.to_nat e) m = Ok row /\ 2 <= length row /\ Forall (fun f => f ∈ fs) row.
(** A vertex inside: all of its edges are inside. *)
Definition inner_corner (fs : list N) (m : mesh) (v : N) : Prop :=
  corner_of fs m v /\ exists row, RelRow R01 (N.to_nat v) m = Ok row /\ Forall (inner_edge fs m) row.

(** The polygons are cells with as many vertices as edges, all of which are cells. *)
Definition polygons_exist (fs : list N) (m : mesh) : Prop := forall f, f ∈ fs -> is_cell D2 m f /\
  exists vs es, RelRow V2 (N.to_nat f) m = Ok vs /\ RelRow E2 (N.to_nat f) m = Ok es /\ length vs = length es /\
    Forall (is_cell D0 m) vs /\ Forall (is_cell D1 m) es.

(** The edge has the ends [u] and [v]. *)
Definition joins (m : mesh) (e u v : N) : Prop :=
  (Cell1DOrigin (N.to_nat e) m = Ok u /\ Cell1DEnd (N.to_nat e) m = Ok v) \/
  (Cell1DOrigin (N.to_nat e) m = Ok v /\ Cell1DEnd (N.to_nat e) m = Ok u).
(** A closed line: edge [k] joins vertex [k] with the next one, no vertex and no edge comes twice. *)
Record closed_line (m : mesh) (vs es : list N) : Prop := {
  cl_length : length vs = length es;
  cl_many : 2 <= length es;
  cl_vertices : NoDup vs;
  cl_edges : NoDup es;
  cl_joins : forall k e, es !! k = Some e -> exists u v, vs !! k = Some u /\ vs !! ((k + 1) mod length vs) = Some v /\ joins m e u v
}.
(** One of the polygons has the edge [e] from its vertex [u]. *)
Definition runs_from (fs : list N) (m : mesh) (e u : N) : Prop := exists f vs es k, f ∈ fs /\
  RelRow V2 (N.to_nat f) m = Ok vs /\ RelRow E2 (N.to_nat f) m = Ok es /\ vs !! k = Some u /\ es !! k = Some e.
(** The polygons have the edges of the line in its direction, and only so. *)
Definition directed (fs : list N) (m : mesh) (vs es : list N) : Prop := forall k e u u', es !! k = Some e -> vs !! k = Some u ->
  runs_from fs m e u' <-> u' = u.

(** The outer edges and vertices of the polygons are those of one closed line, in the direction of the polygons. *)
Record has_outline (fs : list N) (m : mesh) (ws bs : list N) : Prop := {
  ho_line : closed_line m ws bs;
  ho_edges : forall e, e ∈ bs <-> edge_of fs m e /\ ~ inner_edge fs m e;
  ho_vertices : forall v, v ∈ ws <-> corner_of fs m v /\ ~ inner_corner fs m v;
  ho_directed : directed fs m ws bs
}.
