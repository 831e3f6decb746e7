(** * The checks of plane meshes: a mesh which is not accepted is rejected. *)
From Coq Require Import QArith Qcanon.
From Coq Require Import ZifyBool ZifyNat ZifyN.
From Verif Require Import Base BaseProof QcTac FillModel GeoModel MapModel PointModel PointSpec PointProof PolyModel PolySpec PolyProof HullModel CsrModel
  MeshModel MeshSpec MeshRep MeshHist MeshProof MeshProof8 MeshProof9 MeshProofE UtilSpec RefineModel RefineSpec CheckModel CheckSpec CheckProof CheckProof2.
Local Open Scope nat_scope.

Definition safe {X} (x : outcome X) : Prop := (exists a, x = Ok a) \/ x = Abort.
Lemma safe_ok {X} (a : X) : safe (Ok a).
Proof. left. by exists a. Qed.
Lemma safe_bind {X Y} (x : outcome X) (f : X -> outcome Y) : safe x -> (forall a, x = Ok a -> safe (f a)) -> safe (x ≫= f).
Proof. intros [[a ->]| ->] H; [by apply H|by right]. Qed.
Lemma safe_require b : safe (require b).
Proof. destruct b; [apply safe_ok|by right]. Qed.
Lemma safe_each {X} (f : X -> outcome unit) l : (forall x, x ∈ l -> safe (f x)) -> safe (each f l).
Proof.
  unfold each. induction l as [|x l IH]; intros H; cbn; [apply safe_ok|].
  apply safe_bind; [apply H; by left|]. intros [] _. apply IH. intros y Y. apply H. by right.
Qed.
Lemma safe_when b x : (b = true -> safe x) -> safe (when b x).
Proof. destruct b; intros H; [by apply H|apply safe_ok]. Qed.
Lemma safe_map {X Y} (f : X -> outcome Y) l : (forall x, x ∈ l -> safe (f x)) -> safe (omapM f l).
Proof.
  induction l as [|x l IH]; intros H; cbn; [apply safe_ok|]. apply safe_bind; [apply H; by left|]. intros y _.
  apply safe_bind; [apply IH; intros z Z; apply H; by right|]. intros ys _. apply safe_ok.
Qed.

Section mesh.
Context (A : arith) (m : mesh) (RM : reachable m).
Lemma safe_ends e : safe (Cell1DOrigin e m) /\ safe (Cell1DEnd e m).
Proof.
  destruct (decide (e < num D1 m)) as [L|G].
  - destruct (ends_some m RM e L) as (o & t & [E F]). split; left; eauto.
  - unfold Cell1DOrigin, Cell1DEnd. assert (e <? num D1 m = false) as -> by lia. split; by right.
Qed.
Lemma safe_by_extremes o t : safe (Cell1DByExtremes o t m).
Proof.
  destruct (o <? N.of_nat (num D0 m))%N eqn:O, (t <? N.of_nat (num D0 m))%N eqn:T.
  - destruct (by_extremes m RM o t) as (f & F & _); [unfold exists_in; lia..|]. left. eauto.
  - unfold Cell1DByExtremes. rewrite O, T. by right.
  - unfold Cell1DByExtremes. rewrite O. by right.
  - unfold Cell1DByExtremes. rewrite O. by right.
Qed.
Lemma safe_point v : safe (Point A v m).
Proof.
  destruct (decide (v < num D0 m)) as [L|G].
  - destruct (placed_some A m RM v L) as [p P]. left. exists p. by apply point_iff.
  - unfold Point, Cell0DCoordinates. assert (v <? num D0 m = false) as -> by lia. by right.
Qed.
Lemma safe_number r i : safe (RelNumber r i m).
Proof.
  destruct (decide (i < num (src r) m)) as [L|G].
  - destruct (row_some m RM r i L) as [l R]. rewrite (number_row m RM _ _ _ R). apply safe_ok.
  - unfold RelNumber. assert (i <? num (src r) m = false) as -> by lia. by right.
Qed.
Lemma safe_row r i : safe (RelRow r i m).
Proof.
  destruct (decide (i < num (src r) m)) as [L|G].
  - destruct (row_some m RM r i L) as [l R]. rewrite R. apply safe_ok.
  - unfold RelRow, RelNumber. assert (i <? num (src r) m = false) as -> by lia. by right.
Qed.
Lemma safe_get r i k : safe (RelGet r i k m).
Proof.
  destruct (decide (i < num (src r) m)) as [L|G].
  - destruct (row_some m RM r i L) as [l R]. rewrite (get_row m RM _ _ _ _ R). destruct (l !! k); [apply safe_ok|by right].
  - unfold RelGet. assert (i <? num (src r) m = false) as -> by lia. by right.
Qed.
Lemma safe_find r i v : safe (RelFind r i v m).
Proof. unfold RelFind. apply safe_bind; [apply safe_row|]. intros l _. apply safe_ok. Qed.

Context (E : forall c es, RelRow E2 c m = Ok es -> es <> [] /\ Forall (exists_in D1 m) es).
Lemma safe_find_edge c o t : safe (FindEdgeByExtremes E2 c o t m).
Proof.
  destruct (safe_row E2 c) as [[es R]|R].
  - destruct (find_some m RM c o t es R) as (x & X & _); [by apply (E c)|]. rewrite X. apply safe_ok.
  - unfold FindEdgeByExtremes. rewrite R. by right.
Qed.
Lemma safe_polygon_2D g vs : safe (require_polygon_2D g vs).
Proof.
  unfold require_polygon_2D, PointsAre2D. apply safe_bind; [apply safe_bind; [apply safe_require|intros; apply safe_ok]|]. intros b _. apply safe_require.
Qed.
Lemma safe_cell_points c : safe (CellPoints A c m).
Proof.
  unfold CellPoints. apply safe_bind; [apply safe_number|]. intros n _. apply safe_map. intros k _.
  apply safe_bind; [apply safe_get|]. intros v _. apply safe_point.
Qed.

Lemma check_safe k : Cell2D_CheckConvexity k = false -> safe (CheckMesh2D A k m).
Proof.
  intros F. unfold CheckMesh2D. rewrite F.
  apply safe_bind; [apply safe_require|]; intros [] _.
  apply safe_bind.
  { apply safe_when. intros _. apply safe_bind; [apply safe_map; intros; apply safe_point|]. intros ps _. unfold PointsAre2D.
    apply safe_bind; [apply safe_bind; [apply safe_require|intros; apply safe_ok]|]. intros b _. apply safe_require. }
  intros [] _. apply safe_bind.
  { apply safe_when. intros _. apply safe_each. intros v _. apply safe_each. intros w _.
    apply safe_bind; [apply safe_point|]. intros p _. apply safe_bind; [apply safe_point|]. intros q _. apply safe_require. }
  intros [] _. apply safe_bind.
  { apply safe_when. intros _. apply safe_each. intros e _. unfold check_edge.
    apply safe_bind; [apply safe_ends|]. intros o _. apply safe_bind; [apply safe_ends|]. intros t _.
    apply safe_bind; [apply safe_by_extremes|]. intros x _. apply safe_bind; [apply safe_require|]. intros [] _.
    apply safe_bind; [apply safe_by_extremes|]. intros y _. apply safe_bind; [apply safe_require|]. intros [] _.
    apply safe_each. intros f _. unfold check_two_edges. do 4 (apply safe_bind; [apply safe_ends|]; intros ? _).
    apply safe_bind; [apply safe_require|]. intros [] _. apply safe_require. }
  intros [] _. apply safe_bind.
  { apply safe_when. intros _. apply safe_each. intros e _. unfold check_neighbours.
    apply safe_bind; [apply safe_number|]. intros n _. apply safe_bind; [apply safe_require|]. intros [] _.
    apply safe_each. intros k' _. unfold RelHas. apply safe_bind; [apply safe_bind; [apply safe_get|intros; apply safe_ok]|].
    intros [] HB; [|apply safe_ok]. apply safe_bind; [apply safe_get|]. intros c GC. unfold check_neighbour.
    apply bind_ok in HB as (c' & GC' & HB). rewrite GC in GC'. injection GC' as <-. injection HB as HB. cbn [tgt] in HB.
    assert (N.to_nat c < num D2 m) as LC by lia. destruct (row_some m RM E2 (N.to_nat c) LC) as [es R]. destruct (E _ _ R) as [NE FE].
    rewrite (number_row m RM _ _ _ R). cbn [mbind outcome_bind]. rewrite Nat2N.id.
    apply safe_bind; [apply safe_find|]. intros j _. destruct (Nat.eqb_spec (length es) 0) as [Z|NZ]; [by apply nil_length_inv in Z|].
    apply safe_bind; [apply safe_get|]. intros o _. apply safe_bind; [apply safe_get|]. intros t _.
    apply safe_bind; [apply safe_find_edge|]. intros x _. destruct (x =? j).
    - apply safe_bind; [apply safe_find_edge|]. intros y _. apply safe_require.
    - destruct (x =? length es); [|by right]. apply safe_bind; [apply safe_find_edge|]. intros y _. apply safe_require. }
  intros [] _. apply safe_bind.
  { apply safe_when. intros _. apply safe_each. intros e _. unfold check_length.
    apply safe_bind; [apply safe_ends|]. intros o _. apply safe_bind; [apply safe_point|]. intros p _.
    apply safe_bind; [apply safe_ends|]. intros t _. apply safe_bind; [apply safe_point|]. intros q _. apply safe_require. }
  intros [] _. apply safe_bind.
  { apply safe_when. intros _. apply safe_each. intros c _. unfold check_sides. apply safe_bind; [apply safe_number|]. intros n _.
    apply safe_each. intros j _. unfold check_side. do 2 (apply safe_bind; [apply safe_get|]; intros ? _).
    do 2 (apply safe_bind; [apply safe_find_edge|]; intros ? _). apply safe_require. }
  intros [] _. apply safe_bind.
  { apply safe_when. intros _. apply safe_each. intros c _. apply safe_each. intros d _. unfold check_two_cells.
    do 4 (apply safe_bind; [apply safe_row|]; intros ? _). apply safe_bind; [apply safe_require|]. intros [] _. apply safe_require. }
  intros [] _. cbn [when mbind outcome_bind]. apply safe_when. intros _. apply safe_each. intros c _. unfold check_area.
  apply safe_bind; [apply safe_cell_points|]. intros vs _. apply safe_bind; [|intros; apply safe_require].
  unfold PolygonArea. apply safe_bind; [apply safe_polygon_2D|]. intros [] _. apply safe_ok.
Qed.
Lemma check_decides k : Cell2D_CheckConvexity k = false -> CheckMesh2D A k m = Ok tt \/ CheckMesh2D A k m = Abort.
Proof. intros F. destruct (check_safe k F) as [[[] H]|H]; [by left|by right]. Qed.
End mesh.
