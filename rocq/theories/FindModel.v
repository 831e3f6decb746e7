(** * The polygons of a mesh in which a point lies.
    File: MU2 = GeDiM/src/Mesh/MeshUtilities2D.cpp. *)
From Coq Require Import QArith Qcanon.
From Verif Require Import Base FillModel GeoModel PointModel CsrModel MeshModel.
Local Open Scope nat_scope.

(** The polygon looked at in step [c], MU2 2400: the sum of two [unsigned int] wraps around. *)
Definition polygon_of_step (start : N) (n c : nat) : nat := N.to_nat (((start + N.of_nat c) mod 4294967296) mod N.of_nat n)%N.

(** One polygon, MU2 2402-2421: [None] when it is not active, the point is not in its box or is outside. *)
Definition look_at_polygon (g : geo_config) (p : vec3) (m : mesh) (vss : list (list vec3)) (boxes : list (vec3 * vec3)) (i : nat) : outcome (option polygon_position) :=
  a ← IsActive D2 i m;
  if negb a then Ok None
  else
    b ← vat boxes i;
    if negb (IsPointInBoundingBox g p b) then Ok None
    else
      vs ← vat vss i;
      r ← PointPolygonPosition g p vs;
      match r with Outside => Ok None | _ => Ok (Some r) end.

(** FindPointCell2D, MU2 2388-2429. *)
Fixpoint find_loop (g : geo_config) (p : vec3) (m : mesh) (vss : list (list vec3)) (boxes : list (vec3 * vec3)) (first : bool) (start : N)
  (cs : list nat) (found : list (nat * polygon_position)) : outcome (list (nat * polygon_position)) :=
  match cs with
  | [] => Ok found
  | c :: cs =>
      let i := polygon_of_step start (num D2 m) c in
      r ← look_at_polygon g p m vss boxes i;
      match r with
      | None => find_loop g p m vss boxes first start cs found
      | Some r =>
          let found := found ++ [(i, r)] in
          if first then Ok found else find_loop g p m vss boxes first start cs found
      end
  end.
Definition FindPointCell2D (g : geo_config) (p : vec3) (m : mesh) (vss : list (list vec3)) (boxes : list (vec3 * vec3)) (first : bool) (start : N)
  : outcome (list (nat * polygon_position)) :=
  find_loop g p m vss boxes first start (seq 0 (num D2 m)) [].

(** FindPointMeshPosition, MU2 2431-2466: the dimension and the number of the cell on which the point lies, for each polygon found. *)
Definition FindPointMeshPosition (found : list (nat * polygon_position)) (m : mesh) : outcome (list (dim * N)) :=
  omapM (fun f : nat * polygon_position =>
    match f.2 with
    | Inside => Ok (D2, N.of_nat f.1)
    | BorderEdge k => e ← RelGet E2 f.1 k m; Ok (D1, e)
    | BorderVertex k => v ← RelGet V2 f.1 k m; Ok (D0, v)
    | Outside => Throw
    end) found.
