(** * Edges of a set of polygons: Mesh/MeshUtilities2D.cpp (MU2), ComputeMesh2DCell1Ds.

    [Eigen::SparseMatrix<unsigned int>] (column major, compressed): the list of its columns, each the list of its stored
    entries (row, value) by increasing row.  Vertex numbers are already converted to [unsigned int]. *)
From Verif Require Import Base.

Definition entry : Type := N * N.

(** [unsigned int] arithmetic. *)
Definition u32 (n : N) : N := (n mod 4294967296)%N.

(** [setFromTriplets]: duplicates are summed. *)
Fixpoint add_entry (r v : N) (col : list entry) : list entry :=
  match col with
  | [] => [(r, v)]
  | (r', v') :: t =>
      if (r <? r')%N then (r, v) :: col
      else if (r =? r')%N then (r', u32 (v' + v)) :: t
      else (r', v') :: add_entry r v t
  end.
Definition add_triplet (n : nat) (M : list (list entry)) (t : N * N) : outcome (list (list entry)) :=
  if (t.1 <? N.of_nat n)%N then
    col ← vget M (N.to_nat t.2);
    Ok (<[N.to_nat t.2 := add_entry t.1 1 col]> M)
  else UB.

(** [cell2DVertices[v]] and [cell2DVertices[(v + 1) % numCell2DVertices]] for every [v], MU2 213-214, 256-257. *)
Definition sides (c : list N) : list (N * N) :=
  match c with [] => [] | a :: t => zip c (t ++ [a]) end.

(** MU2 206-220. *)
Definition triplets (cells : list (list N)) : list (N * N) :=
  cells ≫= fun c => sides c ≫= fun s => [(s.1, s.2); (s.2, s.1)].

(** MU2 225-233: [it.valueRef() = 1 + numEdges++] where [it.row() < it.col()]. *)
Fixpoint number_col (k : N) (col : list entry) (e : N) : list entry * N :=
  match col with
  | [] => ([], e)
  | (r, v) :: t =>
      if (r <? k)%N then
        let x := number_col k t (u32 (e + 1)) in ((r, u32 (1 + e)) :: x.1, x.2)
      else
        let x := number_col k t e in ((r, v) :: x.1, x.2)
  end.
Fixpoint number_cols (k : N) (M : list (list entry)) (e : N) : list (list entry) * N :=
  match M with
  | [] => ([], e)
  | col :: M' =>
      let x := number_col k col e in
      let y := number_cols (k + 1) M' x.2 in
      (x.1 :: y.1, y.2)
  end.

(** MU2 237-246: the columns of the edge matrix. *)
Fixpoint upper (k : N) (M : list (list entry)) : list (N * N) :=
  match M with
  | [] => []
  | col :: M' => ((fun en : entry => (en.1, k)) <$> filter (fun en : entry => (en.1 < k)%N) col) ++ upper (k + 1) M'
  end.

(** [edges.coeff(row, col)]: zero when there is no entry. *)
Fixpoint find_entry (r : N) (col : list entry) : N :=
  match col with
  | [] => 0%N
  | (r', v) :: t => if (r =? r')%N then v else find_entry r t
  end.
Definition coeff (M : list (list entry)) (r k : N) : outcome N :=
  col ← vget M (N.to_nat k); Ok (find_entry r col).

(** MU2 254-262. *)
Definition polygon_sides (M : list (list entry)) (c : list N) : outcome (list (N * N)) :=
  omapM (fun s =>
           x ← (if (s.1 <? s.2)%N then coeff M s.1 s.2 else coeff M s.2 s.1);
           Ok (s.1, u32 (x + UINT_MAX))) (sides c).

(** ComputeMesh2DCell1Ds, MU2 195-266; [n]: number of columns of cell0Ds.  The result is the columns of Cell1Ds and, for
    every polygon, the columns (vertex, edge). *)
Definition ComputeMesh2DCell1Ds (n : nat) (cells : list (list N)) : outcome (list (N * N) * list (list (N * N))) :=
  M ← ofold (add_triplet n) (triplets cells) (replicate n []);
  let M' := (number_cols 0 M 0).1 in
  rows ← omapM (polygon_sides M') cells;
  Ok (upper 0 M', rows).
