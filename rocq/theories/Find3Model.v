(** * The polyhedra of a mesh in which a point lies.
    File: MU3 = GeDiM/src/Mesh/MeshUtilities3D.cpp. *)
From Coq Require Import QArith Qcanon.
From Verif Require Import Base QcTac FillModel GeoModel MapModel PointModel CsrModel MeshModel SolidModel FindModel.
Local Open Scope nat_scope.

(** One polyhedron, MU3 2257-2286: [None] when it is not active, the point is not in its box or is outside.  The data of its faces,
    one vector each in the code, are one list of [face] ([SolidModel]). *)
Definition look_at_solid (g : geo_config) (p : vec3) (m : mesh) (solids : list (list face)) (boxes : list (vec3 * vec3)) (i : nat) : outcome (option solid_position) :=
  a ← IsActive D3 i m;
  if negb a then Ok None
  else
    b ← vat boxes i;
    if negb (IsPointInBoundingBox g p b) then Ok None
    else
      fs ← vat solids i;
      r ← PointPolyhedronPosition g p fs;
      match r with SOutside => Ok None | _ => Ok (Some r) end.

(** The loop of FindPointCell3D, MU3 2253-2291, [look] being its body up to the position found; step [c] looks at polyhedron
    [(start + c) % number], as in [FindModel]. *)
Fixpoint search_loop {R} (look : nat -> outcome (option R)) (n : nat) (first : bool) (start : N) (cs : list nat) (found : list (nat * R)) : outcome (list (nat * R)) :=
  match cs with
  | [] => Ok found
  | c :: cs =>
      let i := polygon_of_step start n c in
      r ← look i;
      match r with
      | None => search_loop look n first start cs found
      | Some r =>
          let found := found ++ [(i, r)] in
          if first then Ok found else search_loop look n first start cs found
      end
  end.
(** FindPointCell3D, MU3 2233-2294 (the version without a division into tetrahedra). *)
Definition FindPointCell3D (g : geo_config) (p : vec3) (m : mesh) (solids : list (list face)) (boxes : list (vec3 * vec3)) (first : bool) (start : N)
  : outcome (list (nat * solid_position)) :=
  search_loop (look_at_solid g p m solids boxes) (num D3 m) first start (seq 0 (num D3 m)) [].

(** FindPointMeshPosition, MU3 2195-2231. *)
Definition FindPointMeshPosition3 (found : list (nat * solid_position)) (m : mesh) : outcome (list (dim * N)) :=
  omapM (fun f : nat * solid_position =>
    match f.2 with
    | SInside => Ok (D3, N.of_nat f.1)
    | SBorderFace k => x ← RelGet F3 f.1 k m; Ok (D2, x)
    | SBorderEdge k => x ← RelGet E3 f.1 (N.to_nat k) m; Ok (D1, x)
    | SBorderVertex k => x ← RelGet V3 f.1 (N.to_nat k) m; Ok (D0, x)
    | SOutside => Throw
    end) found.
