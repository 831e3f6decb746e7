(** * The steps of a refinement. *)
From Coq Require Import QArith Qcanon.
From Verif Require Import Base BaseProof QcTac FillModel GeoModel MapModel PointModel PolyModel CsrModel MeshModel MeshSpec
  UtilModel UtilSpec RefineModel RefineSpec RefineView RefineSplit RefineReplace RefineCut RefineStep RefineStep2 RefineWalk RefineFour RefineUndo.
Local Open Scope nat_scope.

(** Every step keeps the invariant; the state is the set of pending edges and the mesh. *)
Inductive move (A : arith) : gmap N pend * mesh -> gmap N pend * mesh -> Prop :=
| mv_split P m m1 e o t p q :
    inv P (view_of m) ->
    edge_split (N.of_nat e) (N.of_nat (num D0 m)) (N.of_nat (num D1 m)) (N.of_nat (S (num D1 m))) o t (view_of m) (view_of m1) ->
    o <> t -> P !! N.of_nat e = None ->
    Point A (N.to_nat o) m = Ok p -> Point A (N.to_nat t) m = Ok q ->
    (forall i, i < num D0 m -> Cell0DCoordinates i m1 = Cell0DCoordinates i m) ->
    (let c := vscale (Q2Qc (1 # 2)) (vadd p q) in Cell0DCoordinates (num D0 m) m1 = Ok (store A c.1.1, store A c.1.2, store A c.2)) ->
    inv (<[N.of_nat e := Pend o t (N.of_nat (num D0 m)) (N.of_nat (num D1 m)) (N.of_nat (S (num D1 m)))]> P) (view_of m1) ->
    move A (P, m) (<[N.of_nat e := Pend o t (N.of_nat (num D0 m)) (N.of_nat (num D1 m)) (N.of_nat (S (num D1 m)))]> P, m1)
| mv_cut P m m1 c rl l1 l2 f cells :
    inv P (view_of m) -> active D2 m c = true -> vp (view_of m) (N.of_nat c) = Some rl -> rot (virt P rl) (l1 ++ l2) ->
    was_cut P c l1 l2 f cells m m1 -> move A (P, m) (P, m1)
| mv_halve P m m1 y l :
    inv P (view_of m) -> va (view_of m) D2 y = true -> vp (view_of m) y = Some l -> replaced y [virt P l] (view_of m) (view_of m1) ->
    inv P (view_of m1) -> (forall i, Cell0DCoordinates i m1 = Cell0DCoordinates i m) -> move A (P, m) (P, m1)
| mv_drop P m e :
    inv P (view_of m) -> (forall c l v, va (view_of m) D2 c = true -> vp (view_of m) c = Some l -> (v, e) ∉ l) -> move A (P, m) (delete e P, m)
| mv_same m m1 :
    inv ∅ (view_of m) -> same (view_of m) (view_of m1) -> (forall i, i < num D0 m -> Cell0DCoordinates i m1 = Cell0DCoordinates i m) ->
    move A (∅, m) (∅, m1).
