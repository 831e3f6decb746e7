(** * What the mesh of one polygon is. *)
From Verif Require Import Base CsrModel MeshModel FillModel FillSpec.

(** The marks given to the [n] vertices and to the [n] edges: the given ones when there are [n] of them; otherwise 1, 2, ...
    for the vertices and [n] + 1, [n] + 2, ... for the edges. *)
Definition mark_of (n first : nat) (given : list N) (i : nat) : N :=
  if decide (length given = n) then default 0%N (given !! i) else N.of_nat (first + i).

(** The plane mesh whose only polygon has the vertices [pts] in turn: vertex [i] is at the [i]-th point, edge [i] goes from
    vertex [i] to the next one, and has nothing on its right and the polygon on its left. *)
Record lone (pts : list (N * N * N)) (mark0 mark1 : nat -> N) (m : mesh) : Prop := {
  ln_dim : mdim m = 2;
  ln_points : plain_cells D0 (length pts) (fun _ => true) mark0 m;
  ln_edges : plain_cells D1 (length pts) (fun _ => true) mark1 m;
  ln_polygons : plain_cells D2 1 (fun _ => true) (fun _ => 0%N) m;
  ln_solids : num D3 m = 0;
  ln_at : forall i p, pts !! i = Some p -> Cell0DCoordinates i m = Ok p;
  ln_ends : forall i, i < length pts -> Cell1DOrigin i m = Ok (N.of_nat i) /\
    Cell1DEnd i m = Ok (if decide (i + 1 = length pts) then 0%N else N.of_nat (i + 1));
  ln_vertices : RelRow V2 0 m = Ok (N.of_nat <$> seq 0 (length pts));
  ln_sides : RelRow E2 0 m = Ok (N.of_nat <$> seq 0 (length pts));
  ln_triangles : RelRow S2 0 m = Ok [];
  ln_neighbours : forall i, i < length pts -> RelRow R12 i m = Ok [UINT_MAX; 0%N];
  ln_others : forall r i, r ∈ [R01; R02; R03; R13; R23] -> i < num (src r) m -> RelRow r i m = Ok []
}.
