(** * Model of GeDiM/src/Mesh/UnionMeshSegment.cpp, in exact rational arithmetic.

    The [std::map] of points is a list of (key, value) pairs in increasing key order. *)
From Verif Require Export GeoModel.

(** UnionMeshPoint, UnionMeshSegment.hpp:24-36, and UnionMeshSegment, 38-51; the two enumerations are alike. *)
Inductive utype := UUnknown | UFirst | USecond | UBoth.
Record upoint := UPoint { up_type : utype; up_indices : list nat }.
Record usegment := USegment { us_type : utype; us_points : Qc * Qc; us_indices : nat * nat }.

Definition upoints := list (Qc * upoint).

(** [Points.insert]: no effect when the key is present. *)
Fixpoint map_insert (k : Qc) (x : upoint) (m : upoints) : upoints :=
  match m with
  | [] => [(k, x)]
  | (k', x') :: m' => if qlt k k' then (k, x) :: m else if qlt k' k then (k', x') :: map_insert k x m' else m
  end.

(** A write through the reference [Points[k]] of a key that is present. *)
Fixpoint map_update (k : Qc) (f : upoint -> outcome upoint) (m : upoints) : outcome upoints :=
  match m with
  | [] => Ok []
  | (k', x) :: m' => if qeq k k' then x' ← f x; Ok ((k', x') :: m') else m'' ← map_update k f m'; Ok ((k', x) :: m'')
  end.

(** InsertNewIntersection, UnionMeshSegment.cpp:55-79.  The result is the map, the key of the returned reference and
    [found]. *)
Definition minus_one : Qc := Q2Qc (-1)%Q.

Definition InsertNewIntersection (g : geo_config) (c : Qc) (m : upoints) : upoints * Qc * bool :=
  let foundCoordinate :=
    match List.find (fun p => negb (IsValuePositive g (qabs (p.1 - c)) (Tolerance1D g))) m with
    | Some p => p.1
    | None => minus_one
    end in
  if negb (qeq foundCoordinate minus_one) then (m, foundCoordinate, true)
  else (map_insert c (UPoint UUnknown []) m, c, false).

(** The body of the first loop of CreateUnionPoints, 88-95. *)
Definition add_first (g : geo_config) (m : upoints) (ic : nat * Qc) : outcome upoints :=
  let '(m1, k, _) := InsertNewIntersection g ic.2 m in
  map_update k (fun x => v ← vset (vresize (up_indices x) 2 0) 0 ic.1; Ok (UPoint UFirst v)) m1.

(** The body of the second loop, 98-112. *)
Definition add_second (g : geo_config) (m : upoints) (ic : nat * Qc) : outcome upoints :=
  let '(m1, k, found) := InsertNewIntersection g ic.2 m in
  map_update k (fun x => if found : bool then v ← vset (up_indices x) 1 ic.1; Ok (UPoint UBoth v)
                         else v ← vset (vresize (up_indices x) 2 0) 1 ic.1; Ok (UPoint USecond v)) m1.

Definition enumerate {A} (l : list A) : list (nat * A) := imap pair l.

(** CreateUnionPoints, 81-113. *)
Definition CreateUnionPoints (g : geo_config) (one two : list Qc) (m : upoints) : outcome upoints :=
  m1 ← ofold (add_first g) (enumerate one) m;
  ofold (add_second g) (enumerate two) m1.

(** The loop of CreateUnionSegments, 126-176: [i1], [i2] are the indices left by the previous iteration, -1 before the
    first. *)
Fixpoint union_segments (n1 n2 : nat) (i1 i2 : Z) (pts : upoints) : outcome (list usegment) :=
  match pts with
  | [] | [_] => Ok []
  | (k, x) :: (((k', _) :: _) as pts') =>
      j ← match up_type x with
          | UFirst => Ok (i1 + 1, i2)%Z
          | USecond => Ok (i1, i2 + 1)%Z
          | UBoth => Ok (i1 + 1, i2 + 1)%Z
          | UUnknown => Throw
          end;
      let j1 := if (Z.of_nat n1 <=? j.1 + 1)%Z then (-1)%Z else j.1 in
      let j2 := if (Z.of_nat n2 <=? j.2 + 1)%Z then (-1)%Z else j.2 in
      require (negb (j1 =? -1)%Z || negb (j2 =? -1)%Z);;
      let type := if (0 <=? j1)%Z && (0 <=? j2)%Z then UBoth
                  else if (0 <=? j1)%Z && (j2 =? -1)%Z then UFirst
                  else if (j1 =? -1)%Z && (0 <=? j2)%Z then USecond else UUnknown in
      rest ← union_segments n1 n2 j1 j2 pts';
      Ok (USegment type (k, k') (if (0 <=? j1)%Z then Z.to_nat j1 else 0, if (0 <=? j2)%Z then Z.to_nat j2 else 0) :: rest)
  end.

(** CreateUnionSegments, 115-177: with no point at all the size of [Segments] wraps and the allocation throws. *)
Definition CreateUnionSegments (one two : list Qc) (pts : upoints) : outcome (list usegment) :=
  match pts with [] => Throw | _ => union_segments (length one) (length two) (-1) (-1) pts end.

(** CreateUnionMesh, 179-187, with an empty [result]. *)
Definition CreateUnionMesh (g : geo_config) (one two : list Qc) : outcome (upoints * list usegment) :=
  pts ← CreateUnionPoints g one two [];
  segs ← CreateUnionSegments one two pts;
  Ok (pts, segs).

(** ToCurvilinearCoordinates, 29-38. *)
Definition ToCurvilinearCoordinates (pts : upoints) : list Qc := pts.*1.
