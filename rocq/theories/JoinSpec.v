(** * Joining edges: what the callers expect. *)
From Verif Require Import Base CsrModel MeshModel MeshSpec MeshHist.
Local Open Scope nat_scope.

(** [v] is one of the two ends of edge [e]. *)
Definition has_end (m : mesh) (e v : N) : Prop := Cell1DOrigin (N.to_nat e) m = Ok v \/ Cell1DEnd (N.to_nat e) m = Ok v.
(** [v] is an end of one of the edges. *)
Definition touched (es : list N) (m : mesh) (v : N) : Prop := exists e, e ∈ es /\ has_end m e v.
(** The vertex knows two or more edges and all of them are among [es]. *)
Definition swallowed (es : list N) (m : mesh) (v : N) : Prop :=
  exists row, RelRow R01 (N.to_nat v) m = Ok row /\ 2 <= length row /\ Forall (fun e => e ∈ es) row.

(** The edges and their ends are cells of the mesh. *)
Definition is_cell (d : dim) (m : mesh) (v : N) : Prop := (v < N.of_nat (num d m))%N.
Definition edges_exist (es : list N) (m : mesh) : Prop :=
  forall e, e ∈ es -> is_cell D1 m e /\ forall v, has_end m e v -> is_cell D0 m v.

(** A path: edge [k] joins the vertices [k] and [S k] of the list; the vertices between the ends know no other edges, and neither
    end has all of its edges, two or more, in the path. *)
Record is_path (m : mesh) (vs es : list N) : Prop := {
  pa_length : length vs = S (length es);
  pa_vertices : NoDup vs;
  pa_edges : forall k e, es !! k = Some e -> exists u v, vs !! k = Some u /\ vs !! S k = Some v /\
    ((Cell1DOrigin (N.to_nat e) m = Ok u /\ Cell1DEnd (N.to_nat e) m = Ok v) \/
     (Cell1DOrigin (N.to_nat e) m = Ok v /\ Cell1DEnd (N.to_nat e) m = Ok u));
  pa_inside : forall k v, vs !! k = Some v -> 0 < k < length es -> swallowed es m v;
  pa_ends : forall k v, vs !! k = Some v -> k = 0 \/ k = length es -> ~ swallowed es m v
}.

(** [p] is a cell around one of the edges, at position [k] of its list. *)
Definition around (r : rel) (es : list N) (m : mesh) (k : nat) (p : N) : Prop :=
  exists e row, e ∈ es /\ RelRow r (N.to_nat e) m = Ok row /\ row !! k = Some p /\ is_cell (tgt r) m p.

(** The edges a vertex knows besides [es]. *)
Definition others (es : list N) (m : mesh) (row : list N) : list N :=
  filter (fun e => (e < N.of_nat (num D1 m))%N /\ e ∉ es) row.

(** Every polygon is on one side of all the edges, at most one on each side. *)
Record sided (es : list N) (m : mesh) : Prop := {
  si_two : forall k p, around R12 es m k p -> k < 2;
  si_side : forall k k' p, around R12 es m k p -> around R12 es m k' p -> k = k';
  si_one : forall k p p', around R12 es m k p -> around R12 es m k p' -> p = p';
  si_few : (N.of_nat (num D2 m) <= UINT_MAX)%N
}.

(** The mesh [m'] after the edges [es] of [m] were joined into one from [a] to [b]. *)
Record edges_joined (es : list N) (a b : N) (gone : list N) (keep_sides : bool) (m m' : mesh) : Prop := {
  ej_dim : mdim m' = mdim m;
  ej_num : forall d, num d m' = num d m + if decide (d = D1) then 1 else 0;
  ej_off : forall d i, i < num d m -> (d = D1 /\ N.of_nat i ∈ es) \/ (d = D0 /\ N.of_nat i ∈ gone) -> IsActive d i m' = Ok false;
  ej_on : forall d i, i < num d m -> ~ ((d = D1 /\ N.of_nat i ∈ es) \/ (d = D0 /\ N.of_nat i ∈ gone)) -> IsActive d i m' = IsActive d i m;
  ej_mark : forall d i, i < num d m -> Marker d i m' = Marker d i m;
  ej_points : forall i, i < num D0 m -> Cell0DCoordinates i m' = Cell0DCoordinates i m;
  ej_extremes : forall e, e < num D1 m -> Cell1DOrigin e m' = Cell1DOrigin e m /\ Cell1DEnd e m' = Cell1DEnd e m;
  ej_original : forall d i, d <> D0 -> i < num d m -> Original d i m' = Original d i m;
  ej_updated : forall d i, i < num d m -> HasUpdateds d i m' = HasUpdateds d i m;
  ej_rows : forall r i, i < num (src r) m -> ~ (r = R01 /\ (N.of_nat i = a \/ N.of_nat i = b)) -> RelRow r i m' = RelRow r i m;
  ej_known : forall v row, v = a \/ v = b -> RelRow R01 (N.to_nat v) m = Ok row ->
    RelRow R01 (N.to_nat v) m' =
      Ok (if decide (others es m row = []) then row else others es m row ++ [N.of_nat (num D1 m)]);
  ej_new : let c := num D1 m in
    Cell1DOrigin c m' = Ok a /\ Cell1DEnd c m' = Ok b /\ IsActive D1 c m' = Ok true /\
    HasUpdateds D1 c m' = Ok false /\ Original D1 c m' = Ok UINT_MAX;
  ej_marker : exists k e, Marker D1 (num D1 m) m' = Ok k /\ e ∈ es /\ Marker D1 (N.to_nat e) m = Ok k /\
    forall e' k', e' ∈ es -> Marker D1 (N.to_nat e') m = Ok k' -> (k' <= k)%N;
  ej_solids : exists ss, RelRow R13 (num D1 m) m' = Ok ss /\ NoDup ss /\ forall p, p ∈ ss <-> exists k, around R13 es m k p;
  ej_polygons : exists ps, RelRow R12 (num D1 m) m' = Ok ps /\
    if keep_sides then
      (ps = [] /\ forall k p, ~ around R12 es m k p) \/
      (length ps = 2 /\ forall k p, is_cell D2 m p -> ps !! k = Some p <-> around R12 es m k p)
    else NoDup ps /\ forall p, p ∈ ps <-> exists k, around R12 es m k p
}.

(** What may be joined: two or more edges, each once; two different ends; a list of original edges for every edge. *)
Record can_join (es : list N) (a b : N) (gone : list N) (original : list (list N)) (m : mesh) : Prop := {
  cj_many : 2 <= length es;
  cj_once : NoDup es;
  cj_edges : Forall (is_cell D1 m) es;
  cj_ends : is_cell D0 m a /\ is_cell D0 m b /\ a <> b;
  cj_gone : Forall (is_cell D0 m) gone;
  cj_original : length original = num D1 m;
  cj_stale : forall v row, v = a \/ v = b -> RelRow R01 (N.to_nat v) m = Ok row -> N.of_nat (num D1 m) ∉ row
}.
(** Original edges of [es], one after the other. *)
Definition originals_of (original : list (list N)) (es l : list N) : Prop :=
  exists ls, Forall2 (fun e o => original !! N.to_nat e = Some o) es ls /\ l = concat ls.
