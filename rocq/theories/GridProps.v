(** * Properties C44, C53 and C54: structured meshes are conforming.

    [blank m]: [m] is reachable and has no cells.  Numbers of cells are 32-bit unsigned integers ([few]). *)
From Coq Require Import QArith Qcanon.
From Verif Require Import Base CsrModel MeshModel MeshHist FillModel FillSpec FillProofB FillProofH GridModel GridSpec GridProofC GridProofE.
Local Open Scope nat_scope.

(** ** C44: rectangles *)
Theorem C44_rectangle : forall m o tb th bs hs,
  blank m -> 2 <= length bs -> 2 <= length hs -> few (2 * length bs * length hs) ->
  exists m', CreateRectangleMesh o tb th bs hs m = Ok m' /\ reachable m' /\ mdim m' = 2 /\
    num D0 m' = length bs * length hs /\
    num D1 m' = length hs * (length bs - 1) + length bs * (length hs - 1) /\
    num D2 m' = (length bs - 1) * (length hs - 1) /\ num D3 m' = 0 /\ num D0 m' + num D2 m' = num D1 m' + 1 /\
    all_active m' /\
    (forall h b x y, hs !! h = Some y -> bs !! b = Some x ->
       Cell0DCoordinates (b + h * length bs) m' = Ok (dbl3 (rect_point o tb th x y)) /\
       Marker D0 (b + h * length bs) m' = Ok (rect_marker (length bs) (length hs) h b)) /\
    (forall h b, S h < length hs -> S b < length bs -> let v := grid_vertex (length bs) in
       polygon_is m' (b + h * (length bs - 1)) [v h b; v h (S b); v (S h) (S b); v (S h) b]) /\
    grid_edges (length bs) (length hs) m' /\
    simple_edges m' /\ (forall c, c < num D2 m' -> closed_polygon 4 m' c) /\ two_sided m'.
Proof. exact rectangle_ok. Qed.
Print Assumptions C44_rectangle.

(** A row of two quadrilaterals. *)
Definition quarters (l : list nat) : list Qc := (fun n => Q2Qc (Z.of_nat n # 4)) <$> l.
Definition origin : vec3 := (0, 0, 0)%Qc.
Definition ex : vec3 := (1, 0, 0)%Qc.
Definition ey : vec3 := (0, 1, 0)%Qc.
Definition ez : vec3 := (0, 0, 1)%Qc.
Definition table (r : rel) (m : mesh) : outcome (list (list N)) := omapM (fun i => RelRow r i m) (seq 0 (num (src r) m)).
Definition marks (d : dim) (m : mesh) : outcome (list N) := omapM (fun i => Marker d i m) (seq 0 (num d m)).
Example C44_nonvacuous : blank empty_mesh /\ few (2 * 3 * 2) /\
  (m ← CreateRectangleMesh origin ex ey (quarters [0; 1; 4]) (quarters [0; 4]) empty_mesh;
   v ← table V2 m; e ← table E2 m; k0 ← marks D0 m; k1 ← marks D1 m; Ok (v, e, k0, k1)) =
  Ok ([[0; 1; 4; 3]; [1; 2; 5; 4]], [[0; 5; 2; 4]; [1; 6; 3; 5]], [1; 5; 2; 4; 7; 3], [5; 5; 7; 7; 8; 0; 6])%N.
Proof. split; [exact blank_empty|]. split; [done|]. vm_compute. reflexivity. Qed.

(** ** C53: triangles *)
Theorem C53_triangles : forall m o tb th bs hs,
  blank m -> 2 <= length bs -> 2 <= length hs -> few (3 * length bs * length hs) ->
  exists m', CreateStructuredTriangularMesh o tb th bs hs m = Ok m' /\ reachable m' /\ mdim m' = 2 /\
    num D0 m' = length bs * length hs /\
    num D1 m' = length hs * (length bs - 1) + length bs * (length hs - 1) + (length bs - 1) * (length hs - 1) /\
    num D2 m' = 2 * (length bs - 1) * (length hs - 1) /\ num D3 m' = 0 /\ num D0 m' + num D2 m' = num D1 m' + 1 /\
    all_active m' /\
    (forall h b x y, hs !! h = Some y -> bs !! b = Some x ->
       Cell0DCoordinates (b + h * length bs) m' = Ok (dbl3 (rect_point o tb th x y)) /\
       Marker D0 (b + h * length bs) m' = Ok (rect_marker (length bs) (length hs) h b)) /\
    (forall h b, S h < length hs -> S b < length bs -> let v := grid_vertex (length bs) in
       polygon_is m' (2 * (b + h * (length bs - 1))) [v h b; v h (S b); v (S h) (S b)] /\
       polygon_is m' (2 * (b + h * (length bs - 1)) + 1) [v h b; v (S h) (S b); v (S h) b] /\
       marked_edge m' (v h b) (v (S h) (S b)) 0%N) /\
    grid_edges (length bs) (length hs) m' /\
    simple_edges m' /\ (forall c, c < num D2 m' -> closed_polygon 3 m' c) /\ two_sided m'.
Proof. exact triangular_ok. Qed.
Print Assumptions C53_triangles.

Example C53_nonvacuous : few (3 * 3 * 2) /\
  (m ← CreateStructuredTriangularMesh origin ex ey (quarters [0; 1; 4]) (quarters [0; 4]) empty_mesh;
   v ← table V2 m; e ← table E2 m; k1 ← marks D1 m; Ok (v, e, k1)) =
  Ok ([[0; 1; 4]; [0; 4; 3]; [1; 2; 5]; [1; 5; 4]], [[0; 5; 7]; [7; 2; 4]; [1; 6; 8]; [8; 3; 5]],
      [5; 5; 7; 7; 8; 0; 6; 0; 0])%N.
Proof. split; [done|]. vm_compute. reflexivity. Qed.

(** ** C54: parallelepipeds *)
Theorem C54_parallelepiped : forall m o tl th tw ls hs ws,
  blank m -> 2 <= length ls -> 2 <= length hs -> 2 <= length ws -> few (3 * length ls * length hs * length ws) ->
  let nL := length ls in let nH := length hs in let nW := length ws in
  exists m', CreateParallelepipedMesh o tl th tw ls hs ws m = Ok m' /\ reachable m' /\ mdim m' = 3 /\
    num D0 m' = nL * nH * nW /\
    num D1 m' = nH * nW * (nL - 1) + nL * nW * (nH - 1) + nL * nH * (nW - 1) /\
    num D2 m' = nW * (nL - 1) * (nH - 1) + nL * (nW - 1) * (nH - 1) + nH * (nW - 1) * (nL - 1) /\
    num D3 m' = (nL - 1) * (nH - 1) * (nW - 1) /\ num D0 m' + num D2 m' = num D1 m' + num D3 m' + 1 /\
    all_active m' /\
    (forall w h l a b c, ws !! w = Some c -> hs !! h = Some b -> ls !! l = Some a ->
       let v := l + h * nL + w * nL * nH in
       Cell0DCoordinates v m' = Ok (dbl3 (box_point o tl th tw a b c)) /\
       Marker D0 v m' = Ok (box_marker (place_of nL l) (place_of nH h) (place_of nW w))) /\
    (forall w h l, S w < nW -> S h < nH -> S l < nL ->
       let v w h l := N.of_nat (l + h * nL + w * nL * nH) in
       let c := l + h * (nL - 1) + w * (nL - 1) * (nH - 1) in
       RelRow V3 c m' = Ok [v w h l; v w h (S l); v w (S h) (S l); v w (S h) l;
         v (S w) h l; v (S w) h (S l); v (S w) (S h) (S l); v (S w) (S h) l] /\ Marker D3 c m' = Ok 0%N) /\
    box_edges_faces nL nH nW m' /\
    simple_edges m' /\ (forall f, f < num D2 m' -> closed_polygon 4 m' f) /\
    (forall c, c < num D3 m' -> closed_polyhedron 8 12 6 m' c) /\ two_sided_faces m'.
Proof. exact parallelepiped_ok. Qed.
Print Assumptions C54_parallelepiped.

(** Two boxes. *)
Example C54_nonvacuous : few (3 * 3 * 2 * 2) /\
  (m ← CreateParallelepipedMesh origin ex ey ez (quarters [0; 1; 4]) (quarters [0; 4]) (quarters [0; 4]) empty_mesh;
   v ← table V3 m; f ← table F3 m; k2 ← marks D2 m; Ok (v, f, k2)) =
  Ok ([[0; 1; 4; 3; 6; 7; 10; 9]; [1; 2; 5; 4; 7; 8; 11; 10]], [[0; 2; 4; 6; 8; 9]; [1; 3; 5; 7; 9; 10]],
      [21; 21; 22; 22; 25; 25; 26; 26; 23; 0; 24])%N.
Proof. split; [done|]. vm_compute. reflexivity. Qed.
