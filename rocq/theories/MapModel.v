(** * Maps from reference elements: Geometry/MapTriangle, MapParallelogram, MapTetrahedron, MapParallelepiped,
    MapQuadrilateral, MapHexahedron (.hpp and .cpp), in exact rational arithmetic.

    A matrix of points (size 3 x n) is the list of its columns.  [1 / 0 = 0] in [Qc] where the code gets infinite values:
    the theorems about inverses ask for a determinant which is not zero. *)
From Coq Require Import QArith Qcanon.
From Verif Require Import Base QcTac FillModel GeoModel.
Local Open Scope Qc_scope.

(** Eigen::Vector3d, and Eigen::Matrix3d by columns. *)
Definition vadd (u v : vec3) : vec3 := (u.1.1 + v.1.1, u.1.2 + v.1.2, u.2 + v.2).
Definition vsub (u v : vec3) : vec3 := (u.1.1 - v.1.1, u.1.2 - v.1.2, u.2 - v.2).
Definition vscale (k : Qc) (u : vec3) : vec3 := (k * u.1.1, k * u.1.2, k * u.2).
Definition vdot (u v : vec3) : Qc := u.1.1 * v.1.1 + u.1.2 * v.1.2 + u.2 * v.2.
Definition mat3 : Type := vec3 * vec3 * vec3.
(** Matrix times vector. *)
Definition mapply (m : mat3) (x : vec3) : vec3 := vadd (vadd (vscale x.1.1 m.1.1) (vscale x.1.2 m.1.2)) (vscale x.2 m.2).
(** Eigen's [determinant] and [inverse] of 3 x 3 matrices: cofactors. *)
Definition mdet (m : mat3) : Qc :=
  let '((a, b, c), (d, e, f), (g, h, i)) := m in
  a * (e * i - f * h) - d * (b * i - c * h) + g * (b * f - c * e).
Definition minv (m : mat3) : mat3 :=
  let '((a, b, c), (d, e, f), (g, h, i)) := m in
  let k := / mdet m in
  ((k * (e * i - f * h), k * (c * h - b * i), k * (b * f - c * e)),
   (k * (f * g - d * i), k * (a * i - c * g), k * (c * d - a * f)),
   (k * (d * h - e * g), k * (b * g - a * h), k * (a * e - b * d))).

(** Data of the affine maps: MapTriangle.hpp:22-29, MapParallelogram.hpp:22-29, MapTetrahedron.hpp:23-30,
    MapParallelepiped.hpp:23-30. *)
Record affine := Affine { af_matrix : mat3; af_inverse : mat3; af_shift : vec3; af_det : Qc; af_det_inverse : Qc }.
Definition affine_of (b : mat3) (s : vec3) : affine := Affine b (minv b) s (mdet b) (mdet (minv b)).
(** F, FInv, J, DetJ: MapTriangle.hpp:68-102, MapTriangle.cpp:33-42; MapParallelogram.hpp:65-89, MapParallelogram.cpp:17-26;
    MapTetrahedron.hpp:83-110, MapTetrahedron.cpp:77-98; MapParallelepiped.hpp:89-109, MapParallelepiped.cpp:84-106.
    In the plane DetJ returns the stored determinant, in space the determinants of the matrices returned by J. *)
Definition F1 (d : affine) (x : vec3) : vec3 := vadd (mapply (af_matrix d) x) (af_shift d).
Definition FInv1 (d : affine) (x : vec3) : vec3 := mapply (af_inverse d) (vsub x (af_shift d)).
Definition F (d : affine) (xs : list vec3) : list vec3 := F1 d <$> xs.
Definition FInv (d : affine) (xs : list vec3) : list vec3 := FInv1 d <$> xs.
Definition J (d : affine) (xs : list vec3) : list mat3 := (fun _ => af_matrix d) <$> xs.
Definition DetJ2 (d : affine) (xs : list vec3) : list Qc := replicate (length xs) (af_det d).
Definition DetJ3 (d : affine) (xs : list vec3) : list Qc := mdet <$> J d xs.

(** ** Triangle and parallelogram *)

(** MapTriangle.hpp:34-49 (BMatrix, b), MapTriangle.cpp:20-31. *)
Definition plane_matrix (v0 u w : vec3) : mat3 :=
  ((u.1.1 - v0.1.1, u.1.2 - v0.1.2, 0), (w.1.1 - v0.1.1, w.1.2 - v0.1.2, 0), (0, 0, 1)).
Definition MapTriangle (v0 v1 v2 : vec3) : affine := affine_of (plane_matrix v0 v1 v2) v0.
(** MapParallelogram.hpp:33-48, MapParallelogram.cpp:28-39: the second column is the vertex after the last edge. *)
Definition MapParallelogram (v0 v1 v2 v3 : vec3) : affine := affine_of (plane_matrix v0 v1 v3) v0.

(** ** Tetrahedron *)

(** Q: MapTetrahedron.hpp:51-65, MapParallelepiped.hpp:55-69. *)
Definition MapQ (v0 v1 v2 v3 : vec3) : mat3 := (vsub v1 v0, vsub v2 v0, vsub v3 v0).
(** MapTetrahedron.cpp:49-54. *)
Definition reference_tetrahedron : list vec3 := [(0, 0, 0); (1, 0, 0); (0, 1, 0); (0, 0, 1)].
(** [IsValueZero((vertices - F(...)).norm(), Tolerance1D())], with the squared norm compared with the squared tolerance. *)
Definition distance2 (us vs : list vec3) : Qc := foldr Qcplus 0 (zip_with (fun u v => vdot (vsub u v) (vsub u v)) us vs).
Definition map_tolerance (g : geo_config) : Qc := qmax (qabs (Tolerance1D g)) (MinTolerance g).
Definition close_points (g : geo_config) (us vs : list vec3) : bool := qle (distance2 us vs) (map_tolerance g * map_tolerance g).

(** TestMapConfiguration: MapTetrahedron.cpp:25-43, MapParallelepiped.cpp:34-56; the positions of the first, second, third
    and fourth vertex are given.  Subtracting matrices of different sizes is undefined.  The inverse and the determinants are
    only computed when the answer is yes. *)
Definition TestMapConfiguration (g : geo_config) (vs ref : list vec3) (i0 i1 i2 i3 : nat) : outcome (option affine) :=
  v0 ← vget vs i0; v1 ← vget vs i1; v2 ← vget vs i2; v3 ← vget vs i3;
  let d := affine_of (MapQ v0 v1 v2 v3) v0 in
  if negb (bool_decide (length vs = length ref)) then UB else
  Ok (if close_points g vs (F d ref) then Some d else None).
(** The first configuration that is accepted. *)
Fixpoint first_configuration (g : geo_config) (vs ref : list vec3) (cs : list (nat * nat * nat * nat)) : outcome affine :=
  match cs with
  | [] => Throw
  | (i0, i1, i2, i3) :: cs =>
      r ← TestMapConfiguration g vs ref i0 i1 i2 i3;
      match r with Some d => Ok d | None => first_configuration g vs ref cs end
  end.
(** Compute, MapTetrahedron.cpp:45-75. *)
Definition MapTetrahedron (g : geo_config) (vs : list vec3) : outcome affine :=
  first_configuration g vs reference_tetrahedron
    [(0, 1, 2, 3); (0, 1, 3, 2); (0, 2, 1, 3); (0, 2, 3, 1); (0, 3, 1, 2); (0, 3, 2, 1)]%nat.

(** ** Parallelepiped: constructor and Compute, MapParallelepiped.cpp:20-32, 58-82 *)
Definition reference_cube : list vec3 :=
  [(0, 0, 0); (1, 0, 0); (1, 1, 0); (0, 1, 0); (0, 0, 1); (1, 0, 1); (1, 1, 1); (0, 1, 1)].
Definition MapParallelepiped (g : geo_config) (vs : list vec3) (cs : list nat) : outcome affine :=
  c0 ← vget cs 0; c1 ← vget cs 1; c2 ← vget cs 2; c3 ← vget cs 3;
  first_configuration g vs reference_cube
    [(c0, c1, c2, c3); (c0, c1, c3, c2); (c0, c2, c1, c3); (c0, c2, c3, c1); (c0, c3, c1, c2); (c0, c3, c2, c1)].

(** ** Quadrilateral: MapQuadrilateral.hpp:25-66, MapQuadrilateral.cpp:22-84 *)
Definition reference_square : list vec3 := [(0, 0, 0); (1, 0, 0); (1, 1, 0); (0, 1, 0)].
(** Psi and dPsi. *)
Definition quad_psi (p : vec3) : list Qc :=
  let '(x, y, _) := p in [(1 - x) * (1 - y); x * (1 - y); x * y; y * (1 - x)].
Definition quad_dpsi (p : vec3) : list Qc * list Qc :=
  let '(x, y, _) := p in ([- (1 - y); 1 - y; y; - y], [- (1 - x); - x; x; 1 - x]).
(** Matrix of points times a vector of coefficients. *)
Definition combine (vs : list vec3) (ks : list Qc) : vec3 := foldr vadd (0, 0, 0) (zip_with (fun v k => vscale k v) vs ks).
(** F, J, DetJ: the matrix times the values of Psi, and times the values of dPsi.  FInv always throws. *)
Definition quad_F1 (vs : list vec3) (p : vec3) : vec3 := combine vs (quad_psi p).
Definition quad_F (vs ps : list vec3) : list vec3 := quad_F1 vs <$> ps.
(** The first two rows are the Jacobian in the plane, the third row is (0, 0, 1). *)
Definition quad_J1 (vs : list vec3) (p : vec3) : mat3 :=
  let dx := combine vs (quad_dpsi p).1 in let dy := combine vs (quad_dpsi p).2 in
  ((dx.1.1, dx.1.2, 0), (dy.1.1, dy.1.2, 0), (0, 0, 1)).
Definition quad_J (vs ps : list vec3) : list mat3 := quad_J1 vs <$> ps.
Definition quad_DetJ (vs ps : list vec3) : list Qc := mdet <$> quad_J vs ps.
(** Inverse of the 2 x 2 block. *)
Definition quad_JInv1 (vs : list vec3) (p : vec3) : mat3 :=
  let '((a, b, _), (c, d, _), _) := quad_J1 vs p in
  let k := / (a * d - b * c) in
  ((k * d, - (k * b), 0), (- (k * c), k * a, 0), (0, 0, 1)).
Definition quad_JInv (vs ps : list vec3) : list mat3 := quad_JInv1 vs <$> ps.

(** ** Hexahedron: MapHexahedron.hpp:22-87, MapHexahedron.cpp:20-125 *)
(** Psi and dPsi. *)
Definition hexa_psi (p : vec3) : list Qc :=
  let '(x, y, z) := p in
  [(1 - x) * (1 - y) * (1 - z); x * (1 - y) * (1 - z); x * y * (1 - z); y * (1 - x) * (1 - z);
   (1 - x) * (1 - y) * z; x * (1 - y) * z; x * y * z; y * (1 - x) * z].
Definition hexa_dpsi (p : vec3) : list Qc * list Qc * list Qc :=
  let '(x, y, z) := p in
  ([- (1 - y) * (1 - z); (1 - y) * (1 - z); y * (1 - z); - y * (1 - z); - (1 - y) * z; (1 - y) * z; y * z; - y * z],
   [- (1 - x) * (1 - z); - x * (1 - z); x * (1 - z); (1 - x) * (1 - z); - (1 - x) * z; - x * z; x * z; (1 - x) * z],
   [- (1 - x) * (1 - y); - x * (1 - y); - x * y; - y * (1 - x); (1 - x) * (1 - y); x * (1 - y); x * y; y * (1 - x)]).

(** VertexOrder (a std::map): MapHexahedron.cpp:47-59; the vertices of the first face get 0 to 3, the others 4, 5, ... in
    increasing order.  [insert] keeps the value of a key which is already there. *)
Definition order_insert (o : list (nat * nat)) (k v : nat) : list (nat * nat) :=
  if bool_decide (k ∈ o.*1) then o else o ++ [(k, v)].
Definition face_order (face : list nat) : list (nat * nat) := foldl (fun o vk => order_insert o vk.2 vk.1) [] (imap pair (take 4 face)).
Definition vertex_order (face : list nat) : list (nat * nat) :=
  (foldl (fun on v => if bool_decide (v ∈ on.1.*1) then on else (on.1 ++ [(v, on.2)], S on.2)) (face_order face, 4%nat) (seq 0 8)).1.
(** [Vertices.col(idx.second) = vertices.col(idx.first)]: MapHexahedron.cpp:61-62.  Columns that are not written are [None];
    positions outside the matrices are undefined behaviour. *)
Definition hexa_vertices (vs : list vec3) (face : list nat) : outcome (list (option vec3)) :=
  if bool_decide (length vs = 8%nat) && bool_decide (4 <= length face)%nat then
    ofold (fun (cols : list (option vec3)) kv => v ← vget vs kv.1; vset cols kv.2 (Some v)) (vertex_order face) (replicate 8 None)
  else UB.
(** Compute, the field Vertices of its result: MapHexahedron.cpp:21-67. *)
Definition MapHexahedron (vs : list vec3) (face : list nat) : outcome (list vec3) :=
  cols ← hexa_vertices vs face;
  omapM (fun c => match c with Some v => Ok v | None => UB end) cols.
(** The matrix A (rows) and the coefficients: MapHexahedron.cpp:35-43, 64; they are not used by F and J. *)
Definition hexa_A : list (list Qc) :=
  [[1; -(1); -(1); -(1); 1; 1; 1; -(1)]; [0; 1; 0; 0; -(1); -(1); 0; 1]; [0; 0; 0; 0; 1; 0; 0; -(1)];
   [0; 0; 1; 0; -(1); 0; -(1); 1]; [0; 0; 0; 1; 0; -(1); -(1); 1]; [0; 0; 0; 0; 0; 1; 0; -(1)];
   [0; 0; 0; 0; 0; 0; 0; 1]; [0; 0; 0; 0; 0; 0; 1; -(1)]].
Definition hexa_coefficients (vs : list vec3) : list vec3 :=
  (fun j => combine vs ((fun row => default 0 (row !! j)) <$> hexa_A)) <$> seq 0 8.
(** F, J, DetJ, JInv.  FInv always throws. *)
Definition hexa_F1 (vs : list vec3) (p : vec3) : vec3 := combine vs (hexa_psi p).
Definition hexa_F (vs ps : list vec3) : list vec3 := hexa_F1 vs <$> ps.
Definition hexa_J1 (vs : list vec3) (p : vec3) : mat3 :=
  let '(dx, dy, dz) := hexa_dpsi p in (combine vs dx, combine vs dy, combine vs dz).
Definition hexa_J (vs ps : list vec3) : list mat3 := hexa_J1 vs <$> ps.
Definition hexa_DetJ (vs ps : list vec3) : list Qc := mdet <$> hexa_J vs ps.
Definition hexa_JInv (vs ps : list vec3) : list mat3 := minv <$> hexa_J vs ps.
