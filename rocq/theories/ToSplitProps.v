(** * Property C104: whether an edge of a polygon is to be split, and why not. *)
From Coq Require Import QArith Qcanon.
From Coq Require Import ZArith ZifyBool ZifyNat ZifyN.
From Verif Require Import Base BaseProof QcTac FillModel GeoModel PointSpec PointProps CsrModel MeshModel MeshSpec MeshHist MeshWit JoinSpec
  WeldProps ToSplitModel ToSplitSpec ToSplitProof.
Local Open Scope nat_scope.

(** The answer is always given, and means what [split_type_spec] says; the edge is to be split exactly when the point is inside, the edge
    has a length, and it is long enough for the polygons on both sides. *)
Theorem C104_type g m e own inside k l a lengths qw aw quality aligned : exact g -> reachable m -> data_fits m e own k l a lengths quality aligned ->
  exists c, IsCell1DToSplit g e own inside k lengths qw aw quality aligned m = Ok c /\
    split_type_spec inside l m e own (good_quality qw quality l) (good_line aw lengths aligned m a l) (ec_type c) /\
    flags_spec m e (good_quality qw quality l) (good_line aw lengths aligned m a l) c.
Proof. exact (to_split_ok g m e own inside k l a lengths qw aw quality aligned). Qed.
Print Assumptions C104_type.

(** The three triangles of [tri_row]; edge 1 is common to the first two, edge 0 is on the border. *)
Definition qn (z : Z) : Qc := Q2Qc (inject_Z z).
Definition tri_lengths : list (list Qc) := [[qn 2; qn 3; qn 2]; [qn 2; qn 2; qn 3]; [qn 2; qn 3; qn 2]].
Definition tri_lines : list N := [0; 1; 2; 3; 1; 5; 6]%N.
Lemma tri_fits e own k l a quality : e < 7 -> (exists ls, tri_lengths !! N.to_nat own = Some ls /\ ls !! k = Some l) -> tri_lines !! e = Some a ->
  length quality = 3 -> data_fits tri_row e own k l a tri_lengths quality tri_lines.
Proof.
  intros E L A Q. split; [exact E|exact L|exact A|exact Q|reflexivity|].
  intros f (row & _ & _ & I). assert (f < 3)%N as F by exact I. clear - F.
  assert (f = 0 \/ f = 1 \/ f = 2)%N as [-> | [-> | ->]] by lia; eexists _, _;
    (split; [vm_compute; reflexivity|]; split; [vm_compute; reflexivity|]; split; [vm_compute; reflexivity|]);
    repeat (constructor; [vm_compute; reflexivity|]); constructor.
Qed.
Definition tri_asks (e : nat) (own : N) (inside : bool) (k : nat) (aw : Qc) (quality : list Qc) : outcome split_type :=
  c ← IsCell1DToSplit zero_tolerances e own inside k tri_lengths (qn 1) aw quality tri_lines tri_row; Ok (ec_type c).
Example C104_nonvacuous : exact zero_tolerances /\ reachable tri_row /\
  data_fits tri_row 1 0 1 (qn 3) 1 tri_lengths [qn 1; qn 1; qn 2] tri_lines /\
  tri_asks 1 0 true 1 (Q2Qc (1 # 2)) [qn 1; qn 1; qn 2] = Ok ToSplit /\
  tri_asks 1 0 false 1 (Q2Qc (1 # 2)) [qn 1; qn 1; qn 2] = Ok NotInside /\
  tri_asks 1 0 true 1 (qn 1) [qn 1; qn 2; qn 2] = Ok OnlyNeighQualityNotEnough /\
  tri_asks 1 0 true 1 (qn 1) [qn 2; qn 2; qn 2] = Ok BothQualityNotEnough /\
  tri_asks 1 0 true 1 (qn 1) [qn 1; qn 1; qn 2] = Ok OnlyNeighAlignedNotRespect /\
  tri_asks 1 1 true 2 (qn 1) [qn 1; qn 1; qn 2] = Ok BothAlignedNotRespect.
Proof.
  split; [done|]. split; [exact tri_row_reachable|]. split; [apply tri_fits; [lia|eexists; split; reflexivity|reflexivity|reflexivity]|].
  repeat (split; [vm_compute; reflexivity|]). vm_compute; reflexivity.
Qed.

(** There is an answer for the case in which only the polygon itself is against the split, and it is never given: the answer is that both
    polygons are against it, also when the other one is not and when there is no other one. *)
Theorem C104_local_refuted : reachable tri_row /\
  (data_fits tri_row 1 0 1 (qn 3) 1 tri_lengths [qn 2; qn 1; qn 1] tri_lines /\ neighbour tri_row 1 1 /\ good_quality (qn 1) [qn 2; qn 1; qn 1] (qn 3) 1 /\
   tri_asks 1 0 true 1 (qn 1) [qn 2; qn 1; qn 1] = Ok BothQualityNotEnough) /\
  (data_fits tri_row 0 0 0 (qn 2) 0 tri_lengths [qn 2; qn 1; qn 1] tri_lines /\ (forall f, neighbour tri_row 0 f -> f = 0%N) /\
   tri_asks 0 0 true 0 (qn 1) [qn 2; qn 1; qn 1] = Ok BothQualityNotEnough).
Proof.
  split; [exact tri_row_reachable|]. split.
  - split; [apply tri_fits; [lia|eexists; split; reflexivity|reflexivity|reflexivity]|]. split; [|split].
    + assert (exists row, RelRow R12 1 tri_row = Ok row /\ bool_decide (1%N ∈ row) = true) as (row & R & B) by (eexists; split; vm_compute; reflexivity).
      exists row. split; [exact R|]. split; [apply bool_decide_eq_true in B; exact B|vm_compute; reflexivity].
    + exists (qn 1). split; [reflexivity|vm_compute; discriminate].
    + vm_compute. reflexivity.
  - split; [apply tri_fits; [lia|eexists; split; reflexivity|reflexivity|reflexivity]|]. split; [|vm_compute; reflexivity].
    intros f (row & R & B & I).
    assert (exists r, RelRow R12 0 tri_row = Ok r /\ forallb (fun x => (3 <=? x) || (x =? 0))%N r = true) as (r & R' & F) by (eexists; split; vm_compute; reflexivity).
    assert (r = row) as -> by congruence. assert (f < 3)%N as L by exact I. clear - F B L.
    rewrite forallb_forall in F. specialize (F f). rewrite <-elem_of_list_In in F. specialize (F B). lia.
Qed.
Print Assumptions C104_local_refuted.
