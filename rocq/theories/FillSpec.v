(** What the functions of FillModel.v are expected to do. *)
From Coq Require Import Sorted.
From Verif Require Import Base CsrModel MeshModel MeshHist UtilSpec FillModel.

(** A mesh without cells. *)
Definition blank (m : mesh) : Prop := reachable m /\ forall d, num d m = 0.

(** [n] cells of dimension [d], with the given states and markers and without history. *)
Definition plain_cells (d : dim) (n : nat) (act : nat -> bool) (mark : nat -> N) (m : mesh) : Prop :=
  num d m = n /\
  forall i, i < n ->
    IsActive d i m = Ok (act i) /\ Marker d i m = Ok (mark i) /\ HasUpdateds d i m = Ok false /\
    (d <> D0 -> HasOriginal d i m = Ok false).

(** The mesh consists of the given points, edges, polygons and polyhedra, and of nothing else. *)
Definition reads_back (c0 : list (N * N * N)) (c1 : list (N * N)) (c2 : list (list (N * N))) (c3 : list polyhedron)
  (act : dim -> nat -> bool) (mark : dim -> nat -> N) (m : mesh) : Prop :=
  plain_cells D0 (length c0) (act D0) (mark D0) m /\ plain_cells D1 (length c1) (act D1) (mark D1) m /\
  plain_cells D2 (length c2) (act D2) (mark D2) m /\ plain_cells D3 (length c3) (act D3) (mark D3) m /\
  (forall i p, c0 !! i = Some p -> Cell0DCoordinates i m = Ok p) /\
  (forall i e, c1 !! i = Some e -> Cell1DOrigin i m = Ok e.1 /\ Cell1DEnd i m = Ok e.2) /\
  (forall i p, c2 !! i = Some p -> RelRow V2 i m = Ok (p.*1) /\ RelRow E2 i m = Ok (p.*2) /\ RelRow S2 i m = Ok []) /\
  (forall i p, c3 !! i = Some p -> RelRow V3 i m = Ok (ph_v p) /\ RelRow E3 i m = Ok (ph_e p) /\ RelRow F3 i m = Ok (ph_f p)) /\
  (forall r i, r ∈ [R01; R02; R03; R12; R13; R23] -> i < num (src r) m -> RelRow r i m = Ok []).

(** Every number mentioned is the number of a given cell. *)
Definition consistent {A} (c0 : list A) (c1 : list (N * N)) (c2 : list (list (N * N))) (c3 : list polyhedron) : Prop :=
  let below n := Forall (fun v => (v < N.of_nat n)%N) in
  below (length c0) (c1.*1) /\ below (length c0) (c1.*2) /\
  Forall (fun p => below (length c0) (p.*1) /\ below (length c1) (p.*2)) c2 /\
  Forall (fun p => below (length c0) (ph_v p) /\ below (length c1) (ph_e p) /\ below (length c2) (ph_f p)) c3.

(** The mesh of a segment: points [o + c t] in the given order, one edge between consecutive points; markers 1 and 2 on
    the first and last point. *)
Definition line_points (o t : vec3) (cs : list Qcanon.Qc) : list (N * N * N) := (fun c => dbl3 (along o t c)) <$> cs.
Definition line_edges (n : nat) : list (N * N) := (fun e => (N.of_nat e, N.of_nat (e + 1))) <$> seq 0 (n - 1).
Definition line_mark (n : nat) (d : dim) (i : nat) : N :=
  match d with D0 => if i =? n - 1 then 2%N else if i =? 0 then 1%N else 0%N | _ => 0%N end.

(** ** Sub-meshes *)

(** No cell twice, and all in range. *)
Definition good_filter (d : dim) (flt : list N) (m : mesh) : Prop :=
  NoDup flt /\ Forall (fun o => (o < N.of_nat (num d m))%N) flt.

(** [t] is the inverse of the filter: entry [o] is the position of [o] in the filter, or the largest unsigned number. *)
Definition renumbering (total : nat) (flt t : list N) : Prop :=
  length t = total /\
  (forall k o, flt !! k = Some o -> t !! N.to_nat o = Some (N.of_nat k)) /\
  (forall i, i < total -> N.of_nat i ∉ flt -> t !! i = Some UINT_MAX).

(** The filters contain everything the filtered cells mention. *)
Definition closed_edges (f0 f1 : list N) (m : mesh) : Prop :=
  forall e, e ∈ f1 -> exists o t,
    Cell1DOrigin (N.to_nat e) m = Ok o /\ Cell1DEnd (N.to_nat e) m = Ok t /\ o ∈ f0 /\ t ∈ f0.
Definition closed_rows (r : rel) (fs ft : list N) (m : mesh) : Prop :=
  forall c, c ∈ fs -> exists l, RelRow r (N.to_nat c) m = Ok l /\ Forall (fun v => v ∈ ft) l.
Definition same_numbers (f2 : list N) (m : mesh) : Prop :=
  forall c, c ∈ f2 -> RelNumber V2 (N.to_nat c) m = RelNumber E2 (N.to_nat c) m.

(** The new mesh [m'] consists of the filtered cells of [m], in the order of the filters. *)
Definition taken_points (f0 : list N) (m m' : mesh) : Prop :=
  forall k o, f0 !! k = Some o -> exists p, Cell0DCoordinates (N.to_nat o) m = Ok p /\ Cell0DCoordinates k m' = Ok p.
Definition named (ft : list N) (new old : N) : Prop := ft !! N.to_nat new = Some old.
Definition taken_edges (f0 f1 : list N) (m m' : mesh) : Prop :=
  forall k e, f1 !! k = Some e -> exists o t o' t',
    Cell1DOrigin (N.to_nat e) m = Ok o /\ Cell1DEnd (N.to_nat e) m = Ok t /\
    Cell1DOrigin k m' = Ok o' /\ Cell1DEnd k m' = Ok t' /\ named f0 o' o /\ named f0 t' t.
Definition taken_rows (r : rel) (fs ft : list N) (m m' : mesh) : Prop :=
  forall k c, fs !! k = Some c -> exists l l',
    RelRow r (N.to_nat c) m = Ok l /\ RelRow r k m' = Ok l' /\ Forall2 (named ft) l' l.
Definition taken_marks (d : dim) (f : list N) (m m' : mesh) : Prop :=
  forall k c, f !! k = Some c -> Marker d k m' = Marker d (N.to_nat c) m /\ IsActive d k m' = IsActive d (N.to_nat c) m.

(** [l] lists exactly the elements satisfying [P], in increasing order. *)
Definition ordered_set (P : N -> Prop) (l : list N) : Prop :=
  StronglySorted N.lt l /\ forall v, v ∈ l <-> P v.

(** The cells of the list that are active. *)
Definition active_of (d : dim) (m : mesh) (l : list N) : list N := filter (fun c => active d m (N.to_nat c) = true) l.

(** [v] occurs in the attribute [r] of a cell of the list; [v] is an end point of an edge of the list. *)
Definition mentioned (r : rel) (m : mesh) (l : list N) (v : N) : Prop :=
  exists c row, c ∈ l /\ RelRow r (N.to_nat c) m = Ok row /\ v ∈ row.
Definition end_of (m : mesh) (l : list N) (v : N) : Prop :=
  exists e, e ∈ l /\ (Cell1DOrigin (N.to_nat e) m = Ok v \/ Cell1DEnd (N.to_nat e) m = Ok v).

(** Polygon [c] is complete: as many edges as vertices, all existing, and the end points of its edges are vertices of it.
    Polyhedron [c]: its edges join its vertices, and its faces are complete with vertices and edges of it. *)
Definition complete_polygon (m : mesh) (c : N) : Prop :=
  exists vs es, RelRow V2 (N.to_nat c) m = Ok vs /\ RelRow E2 (N.to_nat c) m = Ok es /\ length vs = length es /\
    Forall (fun v => (v < N.of_nat (num D0 m))%N) vs /\
    Forall (fun e => (e < N.of_nat (num D1 m))%N /\ forall v, end_of m [e] v -> v ∈ vs) es.
Definition complete_polyhedron (m : mesh) (c : N) : Prop :=
  exists vs es fs, RelRow V3 (N.to_nat c) m = Ok vs /\ RelRow E3 (N.to_nat c) m = Ok es /\ RelRow F3 (N.to_nat c) m = Ok fs /\
    Forall (fun v => (v < N.of_nat (num D0 m))%N) vs /\
    Forall (fun e => (e < N.of_nat (num D1 m))%N /\ forall v, end_of m [e] v -> v ∈ vs) es /\
    Forall (fun f => (f < N.of_nat (num D2 m))%N /\
              exists vs' es', RelRow V2 (N.to_nat f) m = Ok vs' /\ RelRow E2 (N.to_nat f) m = Ok es' /\
                length vs' = length es' /\ vs' ⊆ vs /\ es' ⊆ es) fs.
