(** * The check of the geometric data of plane meshes. *)
From Coq Require Import QArith Qcanon.
From Verif Require Import Base BaseProof QcTac FillModel GeoModel MapModel PointModel PointSpec PointProof PolyModel PolySpec PolyProof HullModel CsrModel
  MeshModel MeshSpec MeshRep MeshHist MeshProof MeshProof8 MeshProof9 MeshProofE UtilSpec RefineModel RefineSpec CheckModel CheckSpec CheckProof CheckProof2 CheckSolid.
From Coq Require Import ZifyBool ZifyNat ZifyN.
Local Open Scope nat_scope.

Lemma data_vacuous A k m d : num D3 m = 0 -> CheckMeshGeometricData2D A k m d = Ok tt.
Proof.
  intros Z. unfold CheckMeshGeometricData2D. rewrite Z. cbn [seq each].
  destruct (Data_Cell1D_CheckMeasure k), (Data_Cell1D_CheckNormals k), (Data_Cell2D_CheckMeasure k), (Data_Cell2D_CheckTriangles k); reflexivity.
Qed.
Lemma vget_some {X} (l : list X) i x : vget l i = Ok x -> l !! i = Some x.
Proof. apply vget_ok. Qed.
Lemma data_checked A k m d c : reachable m -> CheckMeshGeometricData2D A k m d = Ok tt -> c < num D3 m -> active D2 m c = true ->
  (Data_Cell1D_CheckMeasure k = true -> forall es e, RelRow E2 c m = Ok es -> e < length es ->
     exists ls l, Cell2DsEdgeLengths d !! c = Some ls /\ ls !! e = Some l /\ (0 <= MinTolerance (geo A) -> 0 < l)%Qc) /\
  (Data_Cell2D_CheckMeasure k = true -> exists a, Cell2DsAreas d !! c = Some a /\ (0 <= MinTolerance (geo A) -> 0 < a)%Qc).
Proof.
  intros RM H L AC. unfold CheckMeshGeometricData2D in H. rewrite !seq_bind_ok, !when_ok in H. destruct H as (H1 & _ & H3 & _).
  assert (forall x, when_active c m x = Ok tt -> x = Ok tt) as W.
  { intros x. unfold when_active. rewrite active_some by (done || by apply active_lt). rewrite AC. done. }
  assert (forall a t, IsValuePositive (geo A) a t = true -> (0 <= MinTolerance (geo A))%Qc -> (0 < a)%Qc) as P.
  { intros a t Q M. apply positive_iff in Q. revert Q. unfold max_tolerance. clear - M. generalize (qabs t). intros u. qcases; intros; qlra. }
  split.
  - intros K es e R LE. specialize (H1 K). rewrite each_ok in H1. specialize (H1 c ltac:(apply elem_of_seq; lia)). apply W in H1.
    rewrite (number_row m RM _ _ _ R) in H1. cbn [mbind outcome_bind] in H1. rewrite Nat2N.id, each_ok in H1.
    specialize (H1 e ltac:(apply elem_of_seq; lia)). apply bind_ok in H1 as (ls & LS & H1). apply bind_ok in H1 as (l & LL & H1). apply req in H1.
    exists ls, l. split; [by apply vget_some|]. split; [by apply vget_some|]. exact (P _ _ H1).
  - intros K. specialize (H3 K). rewrite each_ok in H3. specialize (H3 c ltac:(apply elem_of_seq; lia)). apply W in H3.
    apply bind_ok in H3 as (a & E & H3). apply req in H3. exists a. split; [by apply vget_some|]. exact (P _ _ H3).
Qed.
