(** * The outline is what the joining of polygons needs. *)
From Coq Require Import ZArith ZifyBool ZifyNat ZifyN.
From Verif Require Import Base BaseProof CsrModel MeshModel MeshSpec MeshHist JoinModel JoinSpec WeldModel WeldSpec WeldEnd
  OutlineModel OutlineSpec OutlineProof OutlineEnd.
Local Open Scope nat_scope.

Lemma outline_joined fuel order order2 fs m ws bs original : reachable m -> polygons_exist fs m -> 2 <= length fs -> NoDup fs -> has_outline fs m ws bs ->
  (N.of_nat (num D0 m) <= 2147483648)%N -> (forall l, order l ≡ₚ l) -> (forall l, order2 l ≡ₚ l) -> S (length ws) * S (length ws) <= fuel ->
  length original = num D2 m -> (forall v row, v ∈ ws -> RelRow R02 (N.to_nat v) m = Ok row -> N.of_nat (num D2 m) ∉ row) ->
  exists o m' l, PolygonsOutline fuel order order2 fs m = Ok o /\
    WeldPolygons order fs (ou_vertices o) (ou_edges o) (ou_gone0 o) (ou_gone1 o) original m = Ok (m', num D2 m, original ++ [l]) /\
    originals_of original fs l /\ reachable m' /\ polygons_joined fs (ou_vertices o) (ou_edges o) (ou_gone0 o) (ou_gone1 o) m m'.
Proof.
  intros RM PE L ND HO SM O O2 FU LO ST.
  destruct (outline_ok fuel order order2 fs m ws bs) as (vs & es & g0 & g1 & E & HO'); [done..|].
  destruct (outline_inside fuel order order2 fs m _ RM PE L O E) as (_ & _ & G1 & G0). cbn [ou_gone0 ou_gone1] in G0, G1.
  destruct (weld_ok order fs vs es g0 g1 original m) as (m' & l & W & OF & RM' & PJ); [done| |done|].
  - split; [done|done|..].
    + apply Forall_forall. intros f F. by apply PE.
    + split; [|apply (cl_vertices _ _ _ (ho_line _ _ _ _ HO'))]. apply Forall_forall. intros v V. apply (ho_vertices _ _ _ _ HO') in V as [V _]. by apply (corner_of_cell m fs PE).
    + apply Forall_forall. intros e V. apply (ho_edges _ _ _ _ HO') in V as [V _]. by apply (edge_of_cell m fs PE).
    + split; apply Forall_forall; [intros v [V _]%G0; by apply (corner_of_cell m fs PE)|intros e [V _]%G1; by apply (edge_of_cell m fs PE)].
    + done.
    + intros v row V. apply ST. apply (ho_vertices _ _ _ _ HO), (ho_vertices _ _ _ _ HO'). done.
  - exists (Outline vs es g0 g1), m', l. done.
Qed.
