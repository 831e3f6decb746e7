(** * Whether an edge of a polygon is to be split: what the callers expect. *)
From Coq Require Import QArith Qcanon.
From Verif Require Import Base QcTac CsrModel MeshModel MeshSpec MeshHist JoinSpec ToSplitModel.
Local Open Scope nat_scope.

(** The polygons on the two sides of the edge. *)
Definition neighbour (m : mesh) (e : nat) (f : N) : Prop := exists row, RelRow R12 e m = Ok row /\ f ∈ row /\ is_cell D2 m f.

(** Half of the edge, of length [l], is not shorter than the weighted quality of the polygon. *)
Definition good_quality (weight : Qc) (quality : list Qc) (l : Qc) (f : N) : Prop :=
  exists q, quality !! N.to_nat f = Some q /\ (weight * q <= l / Q2Qc 2)%Qc.

(** The lengths of the edges of the polygon which are on the line [a]. *)
Definition on_line_lengths (lengths : list (list Qc)) (aligned : list N) (m : mesh) (a f : N) : list Qc :=
  match RelRow E2 (N.to_nat f) m, lengths !! N.to_nat f with
  | Ok es, Some ls => (filter (fun x : N * Qc => aligned !! N.to_nat x.1 = Some a) (zip es ls)).*2
  | _, _ => []
  end.
(** Half of the edge is not shorter than the weighted mean of the lengths of these edges when there is one more of them. *)
Definition good_line (weight : Qc) (lengths : list (list Qc)) (aligned : list N) (m : mesh) (a : N) (l : Qc) (f : N) : Prop :=
  let on := on_line_lengths lengths aligned m a f in
  (weight * foldr Qcplus (Q2Qc 0) on / Q2Qc (inject_Z (Z.of_nat (length on + 1))) <= l / Q2Qc 2)%Qc.

(** The lists handed over are as long as they should be. *)
Record data_fits (m : mesh) (e : nat) (own : N) (k : nat) (l : Qc) (a : N) (lengths : list (list Qc)) (quality : list Qc) (aligned : list N) : Prop := {
  df_edge : e < num D1 m;
  df_length : exists ls, lengths !! N.to_nat own = Some ls /\ ls !! k = Some l;
  df_line : aligned !! e = Some a;
  df_quality : length quality = num D2 m;
  df_aligned : length aligned = num D1 m;
  df_lengths : forall f, neighbour m e f -> exists es ls, RelRow E2 (N.to_nat f) m = Ok es /\ lengths !! N.to_nat f = Some ls /\
    length es = length ls /\ Forall (is_cell D1 m) es
}.

(** What each answer means. *)
Definition split_type_spec (inside : bool) (l : Qc) (m : mesh) (e : nat) (own : N) (quality_ok line_ok : N -> Prop) (t : split_type) : Prop :=
  match t with
  | NotInside => inside = false
  | EdgeLengthNotEnough => inside = true /\ l = Q2Qc 0
  | OnlyNeighQualityNotEnough => inside = true /\ l <> Q2Qc 0 /\ (exists f, neighbour m e f /\ ~ quality_ok f) /\ (neighbour m e own -> quality_ok own)
  | BothQualityNotEnough => inside = true /\ l <> Q2Qc 0 /\ neighbour m e own /\ ~ quality_ok own
  | OnlyNeighAlignedNotRespect => inside = true /\ l <> Q2Qc 0 /\ (forall f, neighbour m e f -> quality_ok f) /\
      (exists f, neighbour m e f /\ ~ line_ok f) /\ (neighbour m e own -> line_ok own)
  | BothAlignedNotRespect => inside = true /\ l <> Q2Qc 0 /\ (forall f, neighbour m e f -> quality_ok f) /\ neighbour m e own /\ ~ line_ok own
  | ToSplit => inside = true /\ l <> Q2Qc 0 /\ forall f, neighbour m e f -> quality_ok f /\ line_ok f
  | OnlyLocalQualityNotEnough | OnlyLocalAlignedNotRespect | SUnknown => False
  end.

(** The flags: one for each place of a neighbour, saying what it says of the polygons which are there. *)
Definition flags_of (m : mesh) (e : nat) (ok : N -> Prop) (flags : list bool) : Prop :=
  exists row, RelRow R12 e m = Ok row /\ length flags = length row /\
    forall k f, row !! k = Some f -> is_cell D2 m f -> exists b, flags !! k = Some b /\ (b = true <-> ok f).
Definition flags_spec (m : mesh) (e : nat) (quality_ok line_ok : N -> Prop) (c : edge_check) : Prop :=
  (ec_to_split c = true <-> ec_type c = ToSplit) /\
  (ec_type c <> NotInside -> ec_type c <> EdgeLengthNotEnough -> flags_of m e quality_ok (ec_neigh_quality c)) /\
  (ec_type c = OnlyNeighAlignedNotRespect \/ ec_type c = BothAlignedNotRespect \/ ec_type c = ToSplit -> flags_of m e line_ok (ec_neigh_aligned c)).
