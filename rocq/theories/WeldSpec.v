(** * Joining polygons: what the callers expect. *)
From Verif Require Import Base CsrModel MeshModel MeshSpec MeshHist JoinSpec.
Local Open Scope nat_scope.

(** The polygons a vertex knows besides [fs]. *)
Definition others2 (fs : list N) (m : mesh) (row : list N) : list N :=
  filter (fun f => (f < N.of_nat (num D2 m))%N /\ f ∉ fs) row.
(** The neighbours of an edge with [c] in place of each of [fs]. *)
Definition renamed (fs : list N) (c : N) (row : list N) : list N := (fun f => if decide (f ∈ fs) then c else f) <$> row.

(** The mesh [m'] after the polygons [fs] of [m] were joined into one with the vertices [vs] and the edges [es], while the vertices
    [gone0] and the edges [gone1] were given up. *)
Record polygons_joined (fs vs es gone0 gone1 : list N) (m m' : mesh) : Prop := {
  pj_dim : mdim m' = mdim m;
  pj_num : forall d, num d m' = num d m + if decide (d = D2) then 1 else 0;
  pj_off : forall d i, i < num d m -> (d = D2 /\ N.of_nat i ∈ fs) \/ (d = D0 /\ N.of_nat i ∈ gone0) \/ (d = D1 /\ N.of_nat i ∈ gone1) ->
    IsActive d i m' = Ok false;
  pj_on : forall d i, i < num d m -> ~ ((d = D2 /\ N.of_nat i ∈ fs) \/ (d = D0 /\ N.of_nat i ∈ gone0) \/ (d = D1 /\ N.of_nat i ∈ gone1)) ->
    IsActive d i m' = IsActive d i m;
  pj_mark : forall d i, i < num d m -> Marker d i m' = Marker d i m;
  pj_points : forall i, i < num D0 m -> Cell0DCoordinates i m' = Cell0DCoordinates i m;
  pj_extremes : forall e, e < num D1 m -> Cell1DOrigin e m' = Cell1DOrigin e m /\ Cell1DEnd e m' = Cell1DEnd e m;
  pj_original : forall d i, d <> D0 -> i < num d m -> Original d i m' = Original d i m;
  pj_updated : forall d i, i < num d m -> HasUpdateds d i m' = HasUpdateds d i m;
  pj_rows : forall r i, i < num (src r) m -> ~ (r = R02 /\ N.of_nat i ∈ vs) -> ~ (r = R12 /\ N.of_nat i ∈ es) -> RelRow r i m' = RelRow r i m;
  pj_corners : forall v row, v ∈ vs -> RelRow R02 (N.to_nat v) m = Ok row ->
    RelRow R02 (N.to_nat v) m' = Ok (if decide (others2 fs m row = []) then row else others2 fs m row ++ [N.of_nat (num D2 m)]);
  pj_sides : forall e row, e ∈ es -> RelRow R12 (N.to_nat e) m = Ok row ->
    RelRow R12 (N.to_nat e) m' = Ok (renamed fs (N.of_nat (num D2 m)) row);
  pj_new : let c := num D2 m in
    RelRow V2 c m' = Ok vs /\ RelRow E2 c m' = Ok es /\ RelRow S2 c m' = Ok [] /\ IsActive D2 c m' = Ok true /\
    HasUpdateds D2 c m' = Ok false /\ Original D2 c m' = Ok UINT_MAX;
  pj_marker : exists k f, Marker D2 (num D2 m) m' = Ok k /\ f ∈ fs /\ Marker D2 (N.to_nat f) m = Ok k /\
    forall f' k', f' ∈ fs -> Marker D2 (N.to_nat f') m = Ok k' -> (k' <= k)%N;
  pj_solids : exists ss, RelRow R23 (num D2 m) m' = Ok ss /\ NoDup ss /\ forall p, p ∈ ss <-> exists k, around R23 fs m k p
}.

(** What may be joined: two or more polygons, each once; cells of the mesh; a list of original polygons for every polygon. *)
Record can_weld (fs vs es gone0 gone1 : list N) (original : list (list N)) (m : mesh) : Prop := {
  cw_many : 2 <= length fs;
  cw_once : NoDup fs;
  cw_polygons : Forall (is_cell D2 m) fs;
  cw_vertices : Forall (is_cell D0 m) vs /\ NoDup vs;
  cw_edges : Forall (is_cell D1 m) es;
  cw_gone : Forall (is_cell D0 m) gone0 /\ Forall (is_cell D1 m) gone1;
  cw_original : length original = num D2 m;
  cw_stale : forall v row, v ∈ vs -> RelRow R02 (N.to_nat v) m = Ok row -> N.of_nat (num D2 m) ∉ row
}.
