(** * The outline of a group of polygons.
    File: MU2 = GeDiM/src/Mesh/MeshUtilities2D.cpp.
    As in [JoinModel] an [unordered_set] is the list of its elements, each once, in the unspecified order in which it is gone
    through; [order] and [order2] may be any rearrangements. *)
From Coq Require Import ZArith.
From Verif Require Import Base ConcatModel CsrModel MeshModel JoinModel.
Local Open Scope nat_scope.

(** An [unsigned int] stored in a matrix of [int], and back. *)
Definition as_int (v : N) : Z := if (v <? 2147483648)%N then Z.of_N v else (Z.of_N v - 4294967296)%Z.
Definition of_int (z : Z) : N := if (z <? 0)%Z then Z.to_N (z + 4294967296) else Z.to_N z.

(** The loops over the neighbours of a cell, MU2 2142-2159 and 2196-2211: whether all of them are in the set, and how many were
    counted. *)
Fixpoint all_among (r : rel) (set : list N) (i : nat) (ns : list nat) (count : nat) (m : mesh) : outcome (bool * nat) :=
  match ns with
  | [] => Ok (true, count)
  | n :: ns =>
      h ← RelHas r i n m;
      if h : bool then
        x ← RelGet r i n m;
        if bool_decide (x ∈ set) then all_among r set i ns (S count) m else Ok (false, count)
      else Ok (false, count)
  end.

(** Edge [k] of polygon [f], MU2 2132-2178: the edges that stay, with their orientation, and those that go. *)
Definition sort_edge (fs : list N) (f : nat) (m : mesh) (s : list (N * bool) * list N) (k : nat) : outcome (list (N * bool) * list N) :=
  e ← RelGet E2 f k m;
  if bool_decide (e ∈ s.2) then Ok s
  else
    n ← RelNumber R12 (N.to_nat e) m;
    r ← all_among R12 fs (N.to_nat e) (seq 0 (N.to_nat n)) 0 m;
    if (r.1 && (2 <=? r.2)) : bool then Ok (s.1, set_add e s.2)
    else if bool_decide (e ∈ s.1.*1) then Ok s
    else
      o ← Cell1DOrigin (N.to_nat e) m;
      v ← RelGet V2 f k m;
      Ok (s.1 ++ [(e, bool_decide (o = v))], s.2).

(** Vertex [k] of polygon [f], MU2 2187-2225. *)
Definition sort_corner (gone1 : list N) (f : nat) (m : mesh) (s : list N * list N) (k : nat) : outcome (list N * list N) :=
  v ← RelGet V2 f k m;
  if bool_decide (v ∈ s.2) then Ok s
  else
    n ← RelNumber R01 (N.to_nat v) m;
    r ← all_among R01 gone1 (N.to_nat v) (seq 0 (N.to_nat n)) 0 m;
    if r.1 : bool then Ok (s.1, set_add v s.2) else Ok (set_add v s.1, s.2).

(** AgglomerateCell2DInformation. *)
Record outline := Outline { ou_vertices : list N; ou_edges : list N; ou_gone0 : list N; ou_gone1 : list N }.

(** The chain of edges made into a polygon, MU2 2247-2273: forwards or backwards. *)
Definition unroll (forward : bool) (vs es : list N) : list N * list N :=
  if forward then (vs, es) else (match vs with [] => [] | v :: vs => v :: rev vs end, rev es).

(** AgglomerateCell2Ds, MU2 2117-2279.  [*begin()] of an empty set is undefined behaviour. *)
Definition PolygonsOutline (fuel : nat) (order : list N -> list N) (order2 : list (N * bool) -> list (N * bool)) (fs : list N) (m : mesh) :
  outcome outline :=
  if length fs <? 2 then Ok (Outline [] [] [] [])
  else
    s ← ofold (fun s f => n ← RelNumber E2 (N.to_nat f) m; ofold (sort_edge fs (N.to_nat f) m) (seq 0 (N.to_nat n)) s) fs ([], []);
    t ← ofold (fun t f => n ← RelNumber V2 (N.to_nat f) m; ofold (sort_corner s.2 (N.to_nat f) m) (seq 0 (N.to_nat n)) t) fs ([], []);
    let edges := order2 s.1 in
    segments ← omapM (fun x => o ← Cell1DOrigin (N.to_nat x.1) m; t ← Cell1DEnd (N.to_nat x.1) m; Ok (as_int o, as_int t)) edges;
    match order t.1 with
    | [] => UB
    | v :: _ =>
        cols ← MakeConcatenation fuel segments (as_int v);
        if length cols =? length t.1 then
          match cols with
          | [] => UB
          | (w, i) :: _ =>
              x ← vat edges i;
              g ← vget segments i;
              let forward := if x.2 : bool then (g.1 =? w)%Z else (g.2 =? w)%Z in
              names ← omapM (fun c => x ← vat edges c.2; Ok x.1) cols;
              let p := unroll forward (of_int <$> cols.*1) names in
              Ok (Outline p.1 p.2 (order t.2) (order s.2))
          end
        else Abort
    end.
