(** * What the area, the moments, the triangulations and the orientation of a polygon are. *)
From Coq Require Import QArith Qcanon Sorted.
From Verif Require Import Base QcTac FillModel GeoModel MapModel PointModel PointSpec PolyModel.
Local Open Scope Qc_scope.

(** Signed area of a triangle: positive when it is counterclockwise; its centroid; the first moments with respect to the axes. *)
Definition half : Qc := Q2Qc (1 # 2).
Definition third : Qc := Q2Qc (1 # 3).
Definition area (t : triangle) : Qc := half * orient t.1.1 t.1.2 t.2.
Definition center (t : triangle) : vec3 := vscale third (vadd (vadd t.1.1 t.1.2) t.2).
Definition sum_of {A} (f : A -> Qc) (l : list A) : Qc := foldr (fun x s => f x + s) 0 l.
Definition total_area (ts : list triangle) : Qc := sum_of area ts.
Definition moment_x (ts : list triangle) : Qc := sum_of (fun t => area t * (center t).1.1) ts.
Definition moment_y (ts : list triangle) : Qc := sum_of (fun t => area t * (center t).1.2) ts.

(** [cuts vs ts]: the triangles [ts] are obtained from the polygon [vs] by cutting it along diagonals, again and again; where the
    list of the vertices starts does not matter. *)
Inductive cuts : list vec3 -> list triangle -> Prop :=
| cuts_triangle a b c : cuts [a; b; c] [(a, b, c)]
| cuts_rotate a l ts : cuts (l ++ [a]) ts -> cuts (a :: l) ts
| cuts_diagonal a l b m ts us : l <> [] -> m <> [] ->
    cuts (a :: l ++ [b]) ts -> cuts (b :: m ++ [a]) us -> cuts (a :: l ++ b :: m) (ts ++ us).

(** The triangles from the point [p] to the edges of the polygon. *)
Fixpoint fan (p : vec3) (l : list vec3) : list triangle :=
  match l with
  | a :: (b :: _) as l' => (p, a, b) :: fan p l'
  | _ => []
  end.
Definition fan_closed (p : vec3) (vs : list vec3) : list triangle := match vs with [] => [] | a :: l => fan p (a :: l ++ [a]) end.

(** Integral over a triangle of the product of two affine functions, given by their values at the vertices: the affine functions in
    the coordinates [s, t] of the reference triangle (vertices (0,0), (1,0), (0,1)) are integrated monomial by monomial. *)
Definition reference_moment (a b : nat) : Qc :=
  match a, b with
  | 0, 0 => Q2Qc (1 # 2) | 1, 0 => Q2Qc (1 # 6) | 0, 1 => Q2Qc (1 # 6)
  | 2, 0 => Q2Qc (1 # 12) | 0, 2 => Q2Qc (1 # 12) | 1, 1 => Q2Qc (1 # 24) | _, _ => Q2Qc 0
  end%nat.
Definition integral (f h : vec3 -> Qc) (t : triangle) : Qc :=
  let '(v0, v1, v2) := t in
  let '(f0, f1, f2) := (f v0, f v1 - f v0, f v2 - f v0) in
  let '(h0, h1, h2) := (h v0, h v1 - h v0, h v2 - h v0) in
  let M := reference_moment in
  qabs (orient v0 v1 v2) *
  (f0 * h0 * M 0%nat 0%nat + (f0 * h1 + f1 * h0) * M 1%nat 0%nat + (f0 * h2 + f2 * h0) * M 0%nat 1%nat +
   f1 * h1 * M 2%nat 0%nat + (f1 * h2 + f2 * h1) * M 1%nat 1%nat + f2 * h2 * M 0%nat 2%nat).

(** An affine map of the plane: linear part by rows [(a, b), (c, d)], translation. *)
Definition plane_map (a b c d : Qc) (t : vec3) (p : vec3) : vec3 :=
  (a * p.1.1 + b * p.1.2 + t.1.1, c * p.1.1 + d * p.1.2 + t.1.2, p.2).

(** What PolygonArea and PolygonCentroid accept: at least three vertices, in the plane up to the tolerance. *)
Definition accepted (g : geo_config) (vs : list vec3) : Prop :=
  (2 < length vs)%nat /\ Forall (fun p => qabs p.2 <= cfgTolerance1D g) vs.

(** The vertices of a polygon without those which are on the line of their neighbours. *)
Definition straight (vs : list vec3) (i : nat) : Prop :=
  orient (corner vs (i + length vs - 1)) (corner vs i) (corner vs (S i)) = 0.
Global Typeclasses Opaque straight.
Global Instance straight_dec vs i : Decision (straight vs i).
Proof. apply Qc_eq_dec. Defined.
Definition corners (vs : list vec3) : list vec3 := corner vs <$> filter (fun i => ~ straight vs i) (seq 0 (length vs)).
(** [p] is not in the closed triangle. *)
Definition outside (t : triangle) (p : vec3) : Prop := orient t.1.1 t.1.2 p < 0 \/ orient t.1.2 t.2 p < 0 \/ orient t.2 t.1.1 p < 0.
(** Vertex [v] is an ear: a strictly convex corner whose triangle contains no other vertex. *)
Definition is_ear (ws : list vec3) (v : nat) : Prop :=
  let p := corner ws (v + length ws - 1) in let x := corner ws v in let q := corner ws (S v) in
  (v < length ws)%nat /\ 0 < orient p x q /\ forall w, w ∈ ws -> w <> p -> w <> x -> w <> q -> outside (p, x, q) w.
(** [ears vs ts]: the triangles [ts] are obtained by dropping the straight vertices and clipping an ear, again and again, until
    three vertices remain. *)
Inductive ears : list vec3 -> list triangle -> Prop :=
| ears_done vs a b c : corners vs = [a; b; c] -> ears vs [(a, b, c)]
| ears_clip vs v ts : (3 < length (corners vs))%nat -> is_ear (corners vs) v -> ears (delete v (corners vs)) ts ->
    ears vs ((corner (corners vs) v, corner (corners vs) (S v), corner (corners vs) (v + length (corners vs) - 1)) :: ts).
(** Clipping ears can lead to a polygon with fewer than three corners, or without ears. *)
Inductive stuck : list vec3 -> Prop :=
| stuck_few vs : (length (corners vs) < 3)%nat -> stuck vs
| stuck_no_ear vs : (3 < length (corners vs))%nat -> (forall v, ~ is_ear (corners vs) v) -> stuck vs
| stuck_clip vs v : (3 < length (corners vs))%nat -> is_ear (corners vs) v -> stuck (delete v (corners vs)) -> stuck vs.

(** Vertices in strictly convex position, listed counterclockwise. *)
Definition ordered (vs : list vec3) : Prop :=
  forall i j k a b c, (i < j < k)%nat -> vs !! i = Some a -> vs !! j = Some b -> vs !! k = Some c -> 0 < orient a b c.

(** The plane through [o] with directions [u] and [w]. *)
Definition embed (o u w p : vec3) : vec3 := vadd o (vadd (vscale p.1.1 u) (vscale p.1.2 w)).
(** Strictly ascending and strictly descending lists of indices. *)
Definition ascending (l : list N) : Prop := StronglySorted N.lt l.
Definition descending (l : list N) : Prop := StronglySorted (fun a b => (b < a)%N) l.
