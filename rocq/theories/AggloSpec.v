(** * Triangles around a vertex: what the callers of the agglomeration expect. *)
From Coq Require Import QArith Qcanon.
From Verif Require Import Base FillModel GeoModel MapModel PointModel PolyModel PolySpec HullModel CsrModel MeshModel MeshSpec MeshRep MeshHist RefineModel CheckModel CheckSpec.
Local Open Scope nat_scope.

(** Triangle [t] has the vertices [vs] and the edges [es] (edge [k] from vertex [k] to the next), starting anywhere. *)
Definition triangle_is (m : mesh) (t : nat) (vs es : list N) : Prop :=
  exists k, k < 3 /\ RelRow V2 t m = Ok (rotate k vs) /\ RelRow E2 t m = Ok (rotate k es).

(** A fan: consecutive triangles around the vertex [f_centre].  Triangle [k] has the corners [f_centre], [f_rim !! k],
    [f_rim !! S k]; its edges are the spoke [k], the outer edge [k] and the spoke [S k]. *)
Record fan_data := Fan { f_centre : N; f_rim : list N; f_spokes : list N; f_outer : list N; f_triangles : list nat }.
Record is_fan (m : mesh) (f : fan_data) : Prop := {
  fan_rim : length (f_rim f) = S (length (f_triangles f));
  fan_spokes : length (f_spokes f) = S (length (f_triangles f));
  fan_outer : length (f_outer f) = length (f_triangles f);
  fan_triangle : forall k t, f_triangles f !! k = Some t -> exists p q s b s',
    f_rim f !! k = Some p /\ f_rim f !! S k = Some q /\
    f_spokes f !! k = Some s /\ f_outer f !! k = Some b /\ f_spokes f !! S k = Some s' /\
    triangle_is m t [f_centre f; p; q] [s; b; s'];
  fan_points : NoDup (f_centre f :: f_rim f);
  fan_edges : NoDup (f_spokes f ++ f_outer f)
}.

(** The polygon with the same border: first the centre, then the rim. *)
Definition inner_spokes (f : fan_data) : list N := tail (take (length (f_triangles f)) (f_spokes f)).
Definition border_vertices (f : fan_data) : list N := f_centre f :: f_rim f.
Definition border_edges (f : fan_data) : list N := take 1 (f_spokes f) ++ f_outer f ++ drop (length (f_triangles f)) (f_spokes f).

(** Edge [e] joins [u] and [v]. *)
Definition joins (m : mesh) (e u v : N) : Prop :=
  exists o t, Cell1DOrigin (N.to_nat e) m = Ok o /\ Cell1DEnd (N.to_nat e) m = Ok t /\ ((o = u /\ t = v) \/ (o = v /\ t = u)).
(** Every edge of the list joins the vertex at its position and the next one. *)
Definition around_edges (m : mesh) (vs es : list N) : Prop :=
  length es = length vs /\
  forall k e, es !! k = Some e -> exists u v, vs !! k = Some u /\ vs !! (S k mod length vs) = Some v /\ joins m e u v.

(** What the agglomeration of the fans [fs] does to the mesh [m]. *)
Definition retired (fs : list fan_data) (d : dim) (i : nat) : Prop :=
  exists f, f ∈ fs /\ ((d = D2 /\ i ∈ f_triangles f) \/ (d = D1 /\ N.of_nat i ∈ inner_spokes f)).
Record agglomerated (fs : list fan_data) (m m' : mesh) : Prop := {
  ag_dim : mdim m' = mdim m;
  ag_num : forall d, num d m' = num d m + if decide (d = D2) then length fs else 0;
  ag_off : forall d i, i < num d m -> retired fs d i -> IsActive d i m' = Ok false;
  ag_on : forall d i, i < num d m -> ~ retired fs d i -> IsActive d i m' = IsActive d i m;
  ag_mark : forall d i, i < num d m -> Marker d i m' = Marker d i m;
  ag_rows : forall r i, i < num (src r) m -> RelRow r i m' = RelRow r i m;
  ag_points : forall i, i < num D0 m -> Cell0DCoordinates i m' = Cell0DCoordinates i m;
  ag_ends : forall e, e < num D1 m -> Cell1DOrigin e m' = Cell1DOrigin e m /\ Cell1DEnd e m' = Cell1DEnd e m;
  ag_original : forall d i, d <> D0 -> i < num d m -> Original d i m' = Original d i m;
  ag_replaced : forall d i j, i < num d m ->
    replaced_by d m' i j <->
    replaced_by d m i j \/ (d = D2 /\ exists k f, fs !! k = Some f /\ i ∈ f_triangles f /\ j = num D2 m + k);
  ag_new : forall k f, fs !! k = Some f -> let c := num D2 m + k in
    RelRow V2 c m' = Ok (border_vertices f) /\ RelRow E2 c m' = Ok (border_edges f) /\
    RelRow S2 c m' = Ok [] /\ RelRow R23 c m' = Ok [] /\
    Marker D2 c m' = Ok 0%N /\ IsActive D2 c m' = Ok true /\ HasUpdateds D2 c m' = Ok false /\
    exists t, last (f_triangles f) = Some t /\ Original D2 c m' = Ok (N.of_nat t)
}.

(** Fans which can be joined: three or more triangles each, of cells of the mesh, all active, and no cell in two fans. *)
Record joinable (fs : list fan_data) (m : mesh) : Prop := {
  jo_fans : Forall (fun f => is_fan m f /\ 3 <= length (f_triangles f)) fs;
  jo_cells : Forall (fun f => Forall (exists_in D0 m) (border_vertices f) /\ Forall (exists_in D1 m) (border_edges f)) fs;
  jo_triangles : Forall (fun f => Forall (fun t => IsActive D2 t m = Ok true) (f_triangles f)) fs;
  jo_spokes : Forall (fun f => Forall (fun e => IsActive D1 (N.to_nat e) m = Ok true) (inner_spokes f)) fs;
  jo_apart2 : NoDup (concat (f_triangles <$> fs));
  jo_apart1 : NoDup (concat (inner_spokes <$> fs))
}.
