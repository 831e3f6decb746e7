(** * Model of ConvexHull (GeDiM/src/Geometry/GeometryUtilities.cpp), in exact rational arithmetic.

    The z coordinate of the points is kept; norms are compared through their squares. *)
From Coq Require Import QArith Qcanon.
From Verif Require Import Base QcTac FillModel GeoModel MapModel PointModel PolyModel.
Local Open Scope Qc_scope.

(** The local struct [pt], GeometryUtilities.cpp:239-243. *)
Definition pt : Type := vec3 * nat.

(** [IsValueZero(PolarAngle(a, b, c, norm_ab, norm_cb), Tolerance1D())], GeometryUtilities.hpp:927-938 and 891-894. *)
Definition IsPolarZero (g : geo_config) (a b c : vec3) (n2_ab n2_cb : Qc) : bool :=
  norm_zero g n2_ab (Tolerance1D g) || norm_zero g n2_cb (Tolerance1D g) ||
  norm_zero g (polar_numerator a b c * polar_numerator a b c / (n2_ab * n2_cb)) (Tolerance1D g).

(** The lowest point, and among the lowest ones the leftmost: GeometryUtilities.cpp:249-257.  The initial value of [p0], with the
    largest double as coordinates, is [None]: every point is lower. *)
Definition lowest_step (g : geo_config) (p0 : option pt) (p : pt) : option pt :=
  match p0 with
  | None => Some p
  | Some q =>
      let q := if IsValueGreater g q.1.1.2 p.1.1.2 (Tolerance1D g) then p else q in
      Some (if AreValuesEqual g q.1.1.2 p.1.1.2 (Tolerance1D g) && IsValueGreater g q.1.1.1 p.1.1.1 (Tolerance1D g) then p else q)
  end.
Definition lowest (g : geo_config) (ps : list pt) : option pt := foldl (lowest_step g) None ps.

(** The comparison of the sort, GeometryUtilities.cpp:259-272. *)
Definition before (g : geo_config) (p0 a b : pt) : bool :=
  let n_ba := norm2 (vsub a.1 b.1) in
  let n_b0 := norm2 (vsub p0.1 b.1) in
  if IsPolarZero g a.1 b.1 p0.1 n_ba n_b0
  then IsValueGreater g n_b0 (norm2 (vsub p0.1 a.1)) (Tolerance1DSquared g)
  else IsPolarNegative g a.1 b.1 p0.1 n_ba n_b0.

(** [std::sort], GeometryUtilities.cpp:259, as sort by insertion: on distinct points, with zero tolerance, the comparison is a
    strict total order, so that every algorithm gives the same list. *)
Fixpoint insert_sorted (lt : pt -> pt -> bool) (x : pt) (l : list pt) : list pt :=
  match l with
  | [] => [x]
  | y :: l => if lt y x then y :: insert_sorted lt x l else x :: y :: l
  end.
Definition sort (lt : pt -> pt -> bool) (l : list pt) : list pt := foldr (insert_sorted lt) [] l.

(** The loop on [i] which looks for the points on the line of the first and the last point, GeometryUtilities.cpp:276-291, on the
    reversed list; [structPoints[-1]] is undefined. *)
Fixpoint straight_tail (g : geo_config) (p0 back : pt) (r : list pt) : outcome nat :=
  match r with
  | [] => UB
  | x :: r =>
      if IsPolarZero g x.1 back.1 p0.1 (norm2 (vsub x.1 back.1)) (norm2 (vsub p0.1 back.1))
      then n ← straight_tail g p0 back r; Ok (S n)
      else Ok 0%nat
  end.
(** [reverse(structPoints.begin() + i + 1, structPoints.end())], GeometryUtilities.cpp:293. *)
Definition reverse_tail (g : geo_config) (p0 : pt) (l : list pt) : outcome (list pt) :=
  match reverse l with
  | [] => UB
  | back :: r =>
      n ← straight_tail g p0 back (back :: r);
      Ok (take (length l - n) l ++ reverse (drop (length l - n) l))
  end.

(** The loop on the stack, GeometryUtilities.cpp:296-314; the top of the stack is the first of the list. *)
Fixpoint pop (g : geo_config) (includeCollinear : bool) (x : pt) (st : list pt) : list pt :=
  match st with
  | a :: ((b :: _) as st') =>
      let n_ba := norm2 (vsub a.1 x.1) in
      let n_bc := norm2 (vsub b.1 x.1) in
      if IsPolarNegative g a.1 x.1 b.1 n_ba n_bc || (includeCollinear && IsPolarZero g a.1 x.1 b.1 n_ba n_bc)
      then st
      else pop g includeCollinear x st'
  | _ => st
  end.
Definition scan (g : geo_config) (includeCollinear : bool) (l : list pt) : list pt :=
  foldl (fun st x => x :: pop g includeCollinear x st) [] l.

(** ConvexHull, GeometryUtilities.cpp:229-320; the final loop reverses the stack.  Without points the loop of lines 276-291 starts
    at [structPoints[-1]]. *)
Definition ConvexHull (g : geo_config) (points : list vec3) (includeCollinear : bool) : outcome (list nat) :=
  b ← PointsAre2D g points;
  require b ≫= fun _ =>
  if (length points =? 1)%nat then Ok [0%nat]
  else
    let ps := zip points (seq 0 (length points)) in
    match lowest g ps with
    | None => if includeCollinear then UB else Ok []
    | Some p0 =>
        let l := sort (before g p0) ps in
        l ← (if includeCollinear then reverse_tail g p0 l else Ok l);
        Ok (snd <$> scan g includeCollinear l)
    end.
