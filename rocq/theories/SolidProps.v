(** * Property C102: the position of a point with respect to a convex polyhedron. *)
From Coq Require Import QArith Qcanon.
From Verif Require Import Base BaseProof QcTac FillModel GeoModel MapModel PointModel PointSpec PointProof PointProps SolidModel SolidSpec SolidProof.
Local Open Scope Qc_scope.

(** The answer is a true one; outside and inside are decided exactly, and the border is what remains. *)
Theorem C102_position g p fs : exact g -> proper_solid fs ->
  exists r, PointPolyhedronPosition g p fs = Ok r /\ solid_position_spec p fs r /\
    (r = SOutside <-> ~ in_solid fs p) /\ (r = SInside <-> forall c, c ∈ fs -> side c p < 0).
Proof. intros G PS. exact (solid_ok g p fs G PS). Qed.
Print Assumptions C102_position.

(** ** The unit cube *)

Definition unit_square : list vec3 := [(0, 0, 0); (1, 0, 0); (1, 1, 0); (0, 1, 0)].
(** The square taken to space by a rotation and a translation. *)
Definition square_face (cols : list (N * N)) (r : mat3) (t : vec3) (out : bool) : face :=
  Face cols ((fun q => vadd (mapply r q) t) <$> unit_square) unit_square r.2 out t r.
Definition rot_z : mat3 := ((1, 0, 0), (0, 1, 0), (0, 0, 1)).
Definition rot_x : mat3 := ((0, 1, 0), (0, 0, 1), (1, 0, 0)).
Definition rot_y : mat3 := ((0, 0, 1), (1, 0, 0), (0, 1, 0)).
(** Vertices 0 to 3 below and 4 to 7 above, counterclockwise; edges 0 to 3 below, 4 to 7 above, 8 to 11 upright. *)
Definition cube : list face :=
  [square_face [(0, 0); (1, 1); (2, 2); (3, 3)]%N rot_z (0, 0, 0) false;
   square_face [(4, 4); (5, 5); (6, 6); (7, 7)]%N rot_z (0, 0, 1) true;
   square_face [(0, 3); (3, 11); (7, 7); (4, 8)]%N rot_x (0, 0, 0) false;
   square_face [(1, 1); (2, 10); (6, 5); (5, 9)]%N rot_x (1, 0, 0) true;
   square_face [(0, 8); (4, 4); (5, 9); (1, 0)]%N rot_y (0, 0, 0) false;
   square_face [(3, 11); (7, 6); (6, 10); (2, 2)]%N rot_y (0, 1, 0) true].

Lemma square_turns : left_turning unit_square /\ convex unit_square.
Proof.
  split; [split; [by repeat constructor|split]|].
  - apply (corner_cases unit_square (fun _ a b _ => a <> b)); [done|].
    intros i L. cbn in L. do 4 (destruct i as [|i]; [vm_compute; congruence|]). lia.
  - apply (corner_cases unit_square (fun _ a b c => 0 < orient a b c \/ exists k, 1 < k /\ on_line a b k c)); [done|].
    intros i L. cbn in L. left. do 4 (destruct i as [|i]; [vm_compute; reflexivity|]). lia.
  - intros i j. revert i. apply (corner_cases unit_square (fun _ a b _ => 0 <= orient a b (corner unit_square j))); [done|].
    intros i L. unfold corner at 3.
    assert (j mod length unit_square < 4)%nat as M by (apply Nat.mod_upper_bound; done).
    generalize dependent (j mod length unit_square)%nat. intros k M. cbn in L.
    do 4 (destruct i as [|i]; [do 4 (destruct k as [|k]; [vm_compute; congruence|]); lia|]). lia.
Qed.
Lemma square_left q : (forall k, 0 <= orient (corner unit_square k) (corner unit_square (S k)) q) <->
  (0 <= q.1.1 /\ q.1.1 <= 1) /\ (0 <= q.1.2 /\ q.1.2 <= 1).
Proof.
  split.
  - intros H. pose proof (H 0%nat) as H0. pose proof (H 1%nat) as H1. pose proof (H 2%nat) as H2. pose proof (H 3%nat) as H3.
    unfold orient, corner, unit_square in *. cbn [nth length Nat.modulo Nat.divmod fst snd Nat.sub] in *.
    destruct q as [[x y] z]. cbn [fst snd] in *. repeat split; qlra.
  - intros ((A & B) & C & D).
    apply (corner_cases unit_square (fun _ a b _ => 0 <= orient a b q)); [done|]. intros i L. cbn in L.
    destruct q as [[x y] z]. cbn [fst snd] in *.
    destruct i as [|[|[|[|i]]]]; [| | | |exfalso; lia]; unfold orient, corner, unit_square;
      cbn [nth length Nat.modulo Nat.divmod fst snd Nat.sub]; qlra.
Qed.
Lemma vec_same (u v : vec3) : u.1.1 = v.1.1 -> u.1.2 = v.1.2 -> u.2 = v.2 -> u = v.
Proof. destruct u as [[? ?] ?], v as [[? ?] ?]. cbn. intros -> -> ->. reflexivity. Qed.
Lemma square_face_proper cols r t out : length cols = 4%nat -> (forall x, mapply r (tapply r x) = x) -> (forall x, tapply r (mapply r x) = x) ->
  proper_face (square_face cols r t out).
Proof.
  intros L H1 H2.
  assert (forall q : vec3, q.2 = 0 -> to_plane r t (vadd (mapply r q) t) = q /\ vdot r.2 (vsub (vadd (mapply r q) t) t) = 0) as K.
  { intros q Z. assert (vsub (vadd (mapply r q) t) t = mapply r q) as E by (apply vec_same; unfold vsub, vadd; cbn [fst snd]; ring).
    assert (vdot r.2 (mapply r q) = 0) as V. { change (vdot r.2 (mapply r q)) with (tapply r (mapply r q)).2. rewrite H2. exact Z. }
    unfold to_plane. rewrite E, H2. split; [|exact V]. apply vec_same; cbn [fst snd]; [reflexivity|reflexivity|by rewrite Z]. }
  split; cbn [square_face fc_columns fc_points fc_plane fc_normal fc_out fc_translation fc_rotation].
  - exact H1.
  - exists 1. split; [discriminate|]. apply vec_same; unfold vscale; cbn [fst snd]; ring.
  - apply Forall_fmap. eapply Forall_impl; [exact (proj1 (proj1 square_turns))|]. intros q Q. exact (proj2 (K q Q)).
  - rewrite <- list_fmap_compose. rewrite <- (list_fmap_id unit_square) at 1. apply Forall_fmap_ext_1.
    eapply Forall_impl; [exact (proj1 (proj1 square_turns))|]. intros q Q. symmetry. exact (proj1 (K q Q)).
  - cbn. lia.
  - apply square_turns.
  - apply square_turns.
  - exact L.
Qed.
Lemma rotations_orthogonal : Forall (fun r => (forall x, mapply r (tapply r x) = x) /\ (forall x, tapply r (mapply r x) = x)) [rot_z; rot_x; rot_y].
Proof.
  repeat (constructor; [split; intros x; apply vec_same; unfold mapply, tapply, vadd, vscale, vdot, rot_z, rot_x, rot_y; cbn [fst snd]; ring|]). constructor.
Qed.
Lemma cube_faces : Forall proper_face cube.
Proof.
  pose proof rotations_orthogonal as R. inversion R as [|? ? [Z1 Z2] R2]; subst. inversion R2 as [|? ? [X1 X2] R3]; subst.
  inversion R3 as [|? ? [Y1 Y2] _]; subst.
  repeat (constructor; [apply square_face_proper; [reflexivity|assumption|assumption]|]). constructor.
Qed.
(** Sides and coordinates in the planes of the faces. *)
Lemma cube_sides p : (fun c => side c p) <$> cube = [- p.2; p.2 - 1; - p.1.1; p.1.1 - 1; - p.1.2; p.1.2 - 1].
Proof.
  unfold cube. cbn [fmap list_fmap].
  repeat (apply (f_equal2 cons); [unfold side, outward, first_point, square_face, unit_square, rot_z, rot_x, rot_y, mapply, vadd, vsub, vscale, vdot;
    cbn [fmap list_fmap nth fc_points fc_normal fc_out fst snd]; ring|]). reflexivity.
Qed.
Lemma cube_solid p : in_solid cube p <-> (0 <= p.1.1 /\ p.1.1 <= 1) /\ (0 <= p.1.2 /\ p.1.2 <= 1) /\ (0 <= p.2 /\ p.2 <= 1).
Proof.
  assert (in_solid cube p <-> Forall (fun s => s <= 0) ((fun c => side c p) <$> cube)) as ->.
  { rewrite Forall_fmap, Forall_forall. reflexivity. }
  rewrite cube_sides. rewrite !Forall_cons, Forall_nil. generalize p.1.1, p.1.2, p.2. intros x y z. split.
  - intros (? & ? & ? & ? & ? & ? & _). repeat split; qlra.
  - intros ((? & ?) & (? & ?) & ? & ?). repeat split; qlra.
Qed.
Lemma cube_proper : proper_solid cube.
Proof.
  split; [exact cube_faces|]. intros c p C S.
  assert (on_face c p <-> (0 <= (to_plane (fc_rotation c) (fc_translation c) p).1.1 /\ (to_plane (fc_rotation c) (fc_translation c) p).1.1 <= 1) /\
    (0 <= (to_plane (fc_rotation c) (fc_translation c) p).1.2 /\ (to_plane (fc_rotation c) (fc_translation c) p).1.2 <= 1)) as ->.
  { rewrite <- square_left. unfold on_face. assert (fc_plane c = unit_square) as ->.
    { unfold cube in C. repeat (apply elem_of_cons in C as [-> |C]; [reflexivity|]). by apply elem_of_nil in C. }
    split; [intros [_ ?]; done|intros ?; done]. }
  rewrite cube_solid. apply elem_of_list_lookup in C as [i I]. pose proof (f_equal (fun l => l !! i) (cube_sides p)) as CS. cbn beta in CS.
  rewrite list_lookup_fmap, I in CS. unfold fmap, option_fmap, option_map in CS. rewrite S in CS. clear S.
  destruct p as [[x y] z].
  destruct i as [|[|[|[|[|[|i]]]]]]; cbn [lookup list_lookup cube] in I; [| | | | | |discriminate]; apply (inj Some) in I; subst c;
    cbn [lookup list_lookup fst snd] in CS; apply (inj Some) in CS;
    unfold to_plane, tapply, square_face, rot_z, rot_x, rot_y, vdot, vsub; cbn [fc_rotation fc_translation fst snd];
    (split; [intros ((? & ?) & ? & ?)|intros ((? & ?) & (? & ?) & ? & ?)]); repeat split; qlra.
Qed.
Definition half : Qc := Q2Qc (1 # 2).
Example C102_nonvacuous : exact zero_tolerances /\ proper_solid cube /\
  PointPolyhedronPosition zero_tolerances (half, half, half) cube = Ok SInside /\
  PointPolyhedronPosition zero_tolerances (half, half, 1) cube = Ok (SBorderFace 1) /\
  PointPolyhedronPosition zero_tolerances (1, half, 1) cube = Ok (SBorderEdge 5) /\
  PointPolyhedronPosition zero_tolerances (0, half, half) cube = Ok (SBorderFace 2) /\
  PointPolyhedronPosition zero_tolerances (1, 1, half) cube = Ok (SBorderEdge 10) /\
  PointPolyhedronPosition zero_tolerances (0, 1, 1) cube = Ok (SBorderVertex 7) /\
  PointPolyhedronPosition zero_tolerances (1 + 1, 1, 1) cube = Ok SOutside /\
  PointPolyhedronPosition zero_tolerances (half, half, 1 + half) cube = Ok SOutside.
Proof.
  split; [done|]. split; [exact cube_proper|]. repeat (split; [vm_compute; reflexivity|]). vm_compute. reflexivity.
Qed.
