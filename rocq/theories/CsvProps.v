(** Saving a mesh and loading it again: the theorems. *)
From Verif Require Import Base StringsModel CsrModel MeshModel MeshSpec MeshHist MeshProof9 MeshWit CsvModel CsvSpec CsvFinal CsvWit.
From Coq Require Import Ascii.

(** A mesh which is written to files and read from them again is the same mesh. *)
Theorem C77_round_trip : forall k c finite fuel m fs,
  reachable m -> complete finite fuel m -> regular m -> suits c m -> codec_ok k (Separator c) finite ->
  exists fs' m', Export k fuel c m fs = Ok fs' /\ Import k c fs' empty_mesh = Ok m' /\ read_back fuel m m'.
Proof. exact csv_round_trip. Qed.
Print Assumptions C77_round_trip.

(** The default configuration suits every mesh whose properties have different names without blanks and separators. *)
Theorem C77_default : forall m, (forall d, NoDup (PropertyIds d m)) ->
  (forall d id, id ∈ PropertyIds d m -> id <> ""%string /\ CsvSpec.plain ";"%char (txt id)) -> suits default_configuration m.
Proof. exact default_suits. Qed.
Print Assumptions C77_default.

(** With a history of one generation, the whole history is read back. *)
Theorem C77_history : forall finite fuel m m', reachable m -> complete finite fuel m -> one_generation m -> read_back fuel m m' ->
  (forall d i j, i < num d m -> replaced_by d m' i j <-> replaced_by d m i j) /\
  (forall d j, d <> D0 -> j < num d m -> Original d j m' = Original d j m).
Proof. exact same_history. Qed.
Print Assumptions C77_history.

Example C77_nonvacuous : reachable (after w_csv) /\ complete fits 2 (after w_csv) /\ regular (after w_csv) /\
  suits default_configuration (after w_csv) /\ codec_ok plain_codec (Separator default_configuration) fits /\ one_generation (after w_csv) /\
  num D2 (after w_csv) = 3 /\ PropertyIds D2 (after w_csv) = ["area"%string] /\ replaced_by D2 (after w_csv) 0 2 /\
  RelRow R12 1 (after w_csv) = Ok [UINT_MAX; 2%N].
Proof.
  split; [exact csv_reachable|]. split; [exact csv_complete|]. split; [exact csv_regular|]. split; [exact csv_suits|].
  split; [apply plain_codec_ok, (su_separator _ _ csv_suits)|]. split; [exact csv_generation|].
  split; [vm_compute; reflexivity|]. split; [vm_compute; reflexivity|]. split; [unfold replaced_by; vm_compute; reflexivity|]. vm_compute; reflexivity.
Qed.

(** With two generations, the cell in between loses its place in the history. *)
Theorem C77_generations_refuted : exists m fs m', reachable m /\ complete fits 3 m /\ regular m /\ suits default_configuration m /\
  Export plain_codec 3 default_configuration m ∅ = Ok fs /\ Import plain_codec default_configuration fs empty_mesh = Ok m' /\
  replaced_by D1 m 0 1 /\ Original D1 1 m = Ok 0%N /\ ~ replaced_by D1 m' 0 1 /\ Original D1 1 m' = Ok UINT_MAX.
Proof. exact generations_lost. Qed.
Print Assumptions C77_generations_refuted.

(** A mesh of vertices only is written, but cannot be read. *)
Theorem C77_vertices_refuted : exists m fs, reachable m /\ complete fits 1 m /\ suits default_configuration m /\ num D0 m = 2 /\ mdim m = 0 /\
  Export plain_codec 1 default_configuration m ∅ = Ok fs /\ Import plain_codec default_configuration fs empty_mesh = Throw.
Proof. exact vertices_rejected. Qed.
Print Assumptions C77_vertices_refuted.

(** A mesh with a property whose name has a blank in it is written, but cannot be read. *)
Theorem C77_blank_refuted : exists m fs, reachable m /\ complete fits 1 m /\ regular m /\ PropertyIds D1 m = ["my length"%string] /\
  Export plain_codec 1 default_configuration m ∅ = Ok fs /\ Import plain_codec default_configuration fs empty_mesh = Abort.
Proof. exact blank_rejected. Qed.
Print Assumptions C77_blank_refuted.

(** A property of a dimension without cells is lost. *)
Theorem C77_cellless_refuted : exists m fs m', reachable m /\ regular m /\ suits default_configuration m /\ PropertyIds D2 m = ["area"%string] /\
  Export plain_codec 1 default_configuration m ∅ = Ok fs /\ Import plain_codec default_configuration fs empty_mesh = Ok m' /\ PropertyIds D2 m' = [].
Proof. exact cellless_lost. Qed.
Print Assumptions C77_cellless_refuted.
