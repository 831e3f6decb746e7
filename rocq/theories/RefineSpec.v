(** * What the refinement of a plane mesh must preserve. *)
From Coq Require Import QArith Qcanon.
From Verif Require Import Base QcTac FillModel GeoModel MapModel PointModel PolyModel CsrModel MeshModel UtilSpec RefineModel.
Local Open Scope nat_scope.

(** Polygon [c] has the vertices and edges of [l]: at each position the vertex and the edge which starts there. *)
Definition polygon (m : mesh) (c : nat) (l : list (N * N)) : Prop := RelRow V2 c m = Ok (l.*1) /\ RelRow E2 c m = Ok (l.*2).

(** Edge [e] has the ends [v] and [w]. *)
Definition joins (m : mesh) (e v w : N) : Prop :=
  (Cell1DOrigin (N.to_nat e) m = Ok v /\ Cell1DEnd (N.to_nat e) m = Ok w) \/
  (Cell1DOrigin (N.to_nat e) m = Ok w /\ Cell1DEnd (N.to_nat e) m = Ok v).

(** A closed chain of at least three different active edges through as many different active vertices. *)
Definition closed_chain (m : mesh) (l : list (N * N)) : Prop :=
  3 <= length l /\ NoDup (l.*1) /\ NoDup (l.*2) /\
  (forall v e, (v, e) ∈ l -> active D0 m (N.to_nat v) = true /\ active D1 m (N.to_nat e) = true) /\
  (forall p v e w e', l !! p = Some (v, e) -> l !! ((p + 1) mod length l) = Some (w, e') -> joins m e v w).

(** Polygon [c] passes edge [e] from its origin to its end; from its end to its origin. *)
Definition passes_along (m : mesh) (e c : nat) : Prop :=
  exists l v, polygon m c l /\ Cell1DOrigin e m = Ok v /\ (v, N.of_nat e) ∈ l.
Definition passes_against (m : mesh) (e c : nat) : Prop :=
  exists l v, polygon m c l /\ Cell1DEnd e m = Ok v /\ (v, N.of_nat e) ∈ l.

(** [x] is the one active polygon satisfying [Q], or the mark for a missing neighbour when there is none. *)
Definition the_only (m : mesh) (Q : nat -> Prop) (x : N) : Prop :=
  (forall c, active D2 m c = true -> Q c -> x = N.of_nat c) /\
  (x = UINT_MAX \/ exists c, x = N.of_nat c /\ active D2 m c = true /\ Q c).

(** Every active polygon is a closed chain which nothing replaces; every active edge has active ends and knows the polygon
    on its right and the one on its left, and no edge has two polygons on the same side. *)
Record conforming (m : mesh) : Prop := {
  cf_polygons : forall c, active D2 m c = true ->
    HasUpdateds D2 c m = Ok false /\ exists l, polygon m c l /\ closed_chain m l;
  cf_edges : forall e, active D1 m e = true ->
    exists o t right left, Cell1DOrigin e m = Ok o /\ Cell1DEnd e m = Ok t /\
      active D0 m (N.to_nat o) = true /\ active D0 m (N.to_nat t) = true /\ RelRow R12 e m = Ok [right; left] /\
      the_only m (passes_against m e) right /\ the_only m (passes_along m e) left
}.

(** [ds] tells for every edge of a polygon whether the polygon passes it from its origin to its end. *)
Definition directions_of (m : mesh) (l : list (N * N)) (ds : list bool) : Prop :=
  forall p v e, l !! p = Some (v, e) -> exists b, ds !! p = Some b /\ (b = true <-> Cell1DOrigin (N.to_nat e) m = Ok v).

(** Edge [e] of [m] is not active any more in [m'] and [w] is a new vertex half way between its ends. *)
Definition half_way (A : arith) (m m' : mesh) (e w : N) : Prop :=
  active D1 m (N.to_nat e) = true /\ active D1 m' (N.to_nat e) = false /\ num D0 m <= N.to_nat w /\
  exists o t p q, Cell1DOrigin (N.to_nat e) m = Ok o /\ Cell1DEnd (N.to_nat e) m = Ok t /\
    Point A (N.to_nat o) m = Ok p /\ Point A (N.to_nat t) m = Ok q /\
    let c := vscale (Q2Qc (1 # 2)) (vadd p q) in Cell0DCoordinates (N.to_nat w) m' = Ok (store A c.1.1, store A c.1.2, store A c.2).

(** Some edges of a chain are replaced by two edges through a vertex half way. *)
Inductive halved (A : arith) (m m' : mesh) : list (N * N) -> list (N * N) -> Prop :=
| halved_nil : halved A m m' [] []
| halved_keep v e l k : halved A m m' l k -> halved A m m' ((v, e) :: l) ((v, e) :: k)
| halved_split v e w e0 e1 l k : half_way A m m' e w -> halved A m m' l k -> halved A m m' ((v, e) :: l) ((v, e0) :: (w, e1) :: k).

(** Polygon [c] is replaced by the polygons [a] and [b] on both sides of edge [f]: one side follows the boundary of [c] with [l1],
    the other with [l2], and both return along [f]. *)
Definition cut_in_two (A : arith) (m m' : mesh) (c f a b : nat) : Prop :=
  active D2 m' c = false /\ active D2 m' a = true /\ active D2 m' b = true /\
  exists l k l1 l2 v1 v2, polygon m c l /\ halved A m m' l k /\ (exists x y, k = x ++ y /\ l1 ++ l2 = y ++ x) /\
    2 <= length l1 /\ 2 <= length l2 /\ head (l1.*1) = Some v1 /\ head (l2.*1) = Some v2 /\
    polygon m' a (l1 ++ [(v2, N.of_nat f)]) /\ polygon m' b (l2 ++ [(v1, N.of_nat f)]).

(** Nothing has changed for the active cells. *)
Record as_before (m m' : mesh) : Prop := {
  ab_cells : forall d i, d <> D3 -> num d m' = num d m /\ active d m' i = active d m i;
  ab_points : forall i, i < num D0 m -> Cell0DCoordinates i m' = Cell0DCoordinates i m;
  ab_edges : forall e o t l, active D1 m e = true -> Cell1DOrigin e m = Ok o -> Cell1DEnd e m = Ok t -> RelRow R12 e m = Ok l ->
    Cell1DOrigin e m' = Ok o /\ Cell1DEnd e m' = Ok t /\ RelRow R12 e m' = Ok l;
  ab_polygons : forall c l, active D2 m c = true -> polygon m c l -> polygon m' c l
}.

(** Polygon [c] with boundary [l] is to be split between the edges of [k]; the directions of all polygons are known. *)
Record request (m : mesh) (c : nat) (l : list (N * N)) (vs : list vec3) (k : check_result) (directions : list (list bool)) (dc : list bool) : Prop := {
  rq_active : active D2 m c = true;
  rq_polygon : polygon m c l;
  rq_points : length vs = length l;
  rq_one : exists v, l !! ei_index (cr_inter_one k) = Some (v, N.of_nat (cr_one k));
  rq_two : exists v, l !! ei_index (cr_inter_two k) = Some (v, N.of_nat (cr_two k));
  rq_different : ei_index (cr_inter_one k) <> ei_index (cr_inter_two k);
  rq_directions : forall y l, active D2 m y = true -> polygon m y l -> exists ds, directions !! y = Some ds /\ directions_of m l ds;
  rq_own : directions !! c = Some dc
}.
(** Another polygon has both edges. *)
Definition shares_both (m : mesh) (c : nat) (k : check_result) : Prop :=
  exists y l u w, y <> c /\ active D2 m y = true /\ polygon m y l /\ (u, N.of_nat (cr_one k)) ∈ l /\ (w, N.of_nat (cr_two k)) ∈ l.

(** Triangle [c] with boundary [l] is to be bisected at its edge [e], which is the one at position [edge]; the polygons with that edge
    are triangles. *)
Record bisection (m : mesh) (c : nat) (l : list (N * N)) (edge e : nat) (dc : list bool) (d : bool) : Prop := {
  bi_active : active D2 m c = true;
  bi_polygon : polygon m c l;
  bi_three : length l = 3;
  bi_edge : exists v, l !! edge = Some (v, N.of_nat e);
  bi_directions : directions_of m l dc;
  bi_direction : dc !! edge = Some d;
  bi_triangles : forall y k w, active D2 m y = true -> polygon m y k -> (w, N.of_nat e) ∈ k -> length k = 3
}.
(** Polygon [y] lies on the other side of edge [e] of polygon [c]. *)
Definition neighbour (m : mesh) (c e y : nat) : Prop :=
  y <> c /\ active D2 m y = true /\ exists k w, polygon m y k /\ (w, N.of_nat e) ∈ k.

(** ** Area *)

(** The position of a vertex in the plane. *)
Definition position (A : arith) (m : mesh) (v : N) : Qc * Qc :=
  match Point A (N.to_nat v) m with Ok p => (p.1.1, p.1.2) | _ => (0, 0)%Qc end.
Definition cross (p q : Qc * Qc) : Qc := (p.1 * q.2 - p.2 * q.1)%Qc.
Fixpoint path_area (p : Qc * Qc) (l : list (Qc * Qc)) : Qc := match l with [] => 0%Qc | q :: l => (cross p q + path_area q l)%Qc end.
(** The signed area inside a closed path. *)
Definition signed_area (l : list (Qc * Qc)) : Qc :=
  match l with [] => 0%Qc | p :: k => (Q2Qc (1 # 2) * path_area p (k ++ [p]))%Qc end.
Definition polygon_area (A : arith) (m : mesh) (c : nat) : Qc :=
  match RelRow V2 c m with Ok vs => signed_area (position A m <$> vs) | _ => 0%Qc end.
(** The area of the active polygons. *)
Definition covered_area (A : arith) (m : mesh) : Qc :=
  foldr Qcplus 0%Qc (polygon_area A m <$> filter (fun c => active D2 m c = true) (seq 0 (num D2 m))).
