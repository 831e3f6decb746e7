(** OFF files: the theorems. *)
From Verif Require Import Base BaseProof StringsModel CsvModel CsvSpec FillModel FillSpec FillProofB EdgesModel EdgesSpec OffModel OffSpec OffProof OffProof2.
From Verif Require Import CsrModel MeshModel MeshSpec MeshHist MeshWit FillProofH CsvWit.
From Coq Require Import Ascii.

(** ** C85: points and polygons survive the file; the edges are made again from the polygons *)

Theorem C85_round_trip : forall k finite m rows file fs new,
  codec_ok k " "%char finite -> reachable m -> describable finite m rows -> blank new ->
  exists fs' m', ExportMeshToFile k m file fs = Ok fs' /\ ImportMeshFromFile k file fs' new = Ok m' /\
    reachable m' /\ same_shape m m' rows.
Proof. exact off_round_trip. Qed.
Print Assumptions C85_round_trip.

Theorem C85_edges : forall m m' rows, same_shape m m' rows -> edges_are_sides m rows -> num D1 m' = num D1 m.
Proof. exact same_edges. Qed.
Print Assumptions C85_edges.

(** A triangle cut in two, with the halves. *)
Example C85_nonvacuous : codec_ok plain_codec " "%char CsvSpec.fits /\ reachable (after w_csv) /\
  describable CsvSpec.fits (after w_csv) csv_rows /\ edges_are_sides (after w_csv) csv_rows /\ blank empty_mesh /\
  csv_rows = [[0; 1; 2]; [0; 3; 2]; [3; 1; 2]]%N /\
  OFFMeshToStrings plain_codec (OffMesh 3 3 1 [(0, 0, 0); (5, 0, 0); (0, 7, 0)]%N [[0; 1; 2]]%Z) =
    Ok (map txt ["OFF"; "3 1 3"; "0 0 0"; "5 0 0"; "0 7 0"; "3 0 1 2"])%string.
Proof.
  split; [exact (plain_codec_ok _ blank_ok)|]. split; [exact csv_reachable|]. split; [exact csv_describable|].
  split; [exact csv_edges_are_sides|]. split; [exact blank_empty|]. split; [reflexivity|]. vm_compute. reflexivity.
Qed.

(** ** C86: states and markers survive the file: only those of a mesh where everything is active and unmarked *)

Theorem C86_partial : forall k finite m rows file fs new,
  codec_ok k " "%char finite -> reachable m -> describable finite m rows -> blank new ->
  (forall d i, d = D0 \/ d = D2 -> i < num d m -> IsActive d i m = Ok true /\ Marker d i m = Ok 0%N) ->
  exists fs' m', ExportMeshToFile k m file fs = Ok fs' /\ ImportMeshFromFile k file fs' new = Ok m' /\
    forall d i, d = D0 \/ d = D2 -> i < num d m -> IsActive d i m' = IsActive d i m /\ Marker d i m' = Marker d i m.
Proof. exact off_states. Qed.
Print Assumptions C86_partial.

(** After a refinement, the cells that were replaced come back as active cells, over the cells that replaced them. *)
Theorem C86_refuted : exists k finite m rows fs m', codec_ok k " "%char finite /\ reachable m /\ describable finite m rows /\
  ExportMeshToFile k m (txt "mesh.off") ∅ = Ok fs /\ ImportMeshFromFile k (txt "mesh.off") fs empty_mesh = Ok m' /\
  IsActive D2 0 m = Ok false /\ IsActive D2 0 m' = Ok true /\ replaced_by D2 m 0 1 /\
  Marker D0 0 m = Ok 7%N /\ Marker D0 0 m' = Ok 0%N.
Proof. exact off_states_refuted. Qed.
Print Assumptions C86_refuted.

(** ** C87: a damaged file is rejected *)

(** The numbers are announced by the second line; a file with too few lines is rejected, if their sum fits. *)
Theorem C87_truncated_partial : forall k l0 l1 ls n0 n1 n2 s1 s2 s3,
  get_uint l1 = Ok (n0, s1) -> get_uint s1 = Ok (n2, s2) -> get_uint s2 = Ok (n1, s3) ->
  (2 + n0 + n2 < 4294967296)%N -> (N.of_nat (length ls) < n0 + n2)%N ->
  (forall v l, (N.of_nat v < n0)%N -> ls !! v = Some l -> exists p, get_point k l = Ok p) ->
  StringsToOFFMesh k (l0 :: l1 :: ls) = Abort.
Proof. exact off_truncated. Qed.
Print Assumptions C87_truncated_partial.
Theorem C87_empty_partial : forall k, StringsToOFFMesh k [] = Abort.
Proof. exact off_empty. Qed.
Print Assumptions C87_empty_partial.

(** Four lines are missing. *)
Example C87_nonvacuous : StringsToOFFMesh plain_codec (map txt ["OFF"; "3 1 3"]%string) = Abort /\
  StringsToOFFMesh plain_codec (map txt ["OFF"; "3 1 3"; "0 0 0"; "5 0 0"; "0 7 0"]%string) = Abort /\
  StringsToOFFMesh plain_codec (map txt ["OFF"; "3 1 3"; "0 0 0"; "5 0 0"; "0 7 0"; "3 0 1 2"]%string) =
    Ok (OffMesh 3 3 1 [(0, 0, 0); (5, 0, 0); (0, 7, 0)]%N [[0; 1; 2]]%Z).
Proof. split; [vm_compute; reflexivity|]. split; vm_compute; reflexivity. Qed.

(** A file of one line: the line after the last one is read. *)
Theorem C87_one_line_refuted : forall k l, StringsToOFFMesh k [l] = UB.
Proof. exact off_one_line. Qed.
Print Assumptions C87_one_line_refuted.

(** The sum of the numbers overflows: the missing lines are read. *)
Theorem C87_overflow_refuted : forall k l0, StringsToOFFMesh k [l0; txt "4294967295 0 0"] = UB.
Proof. exact off_overflow_line. Qed.
Print Assumptions C87_overflow_refuted.

(** A polygon with a vertex that is not a point of the file. *)
Theorem C87_vertex_refuted : forall o m, blank m -> length (Points o) = N.to_nat (NumCell0Ds o) -> few (length (Points o)) ->
  ~ in_range (length (Points o)) (map (map to_uint) (Polygons o)) -> OFFMeshToMeshDAO o m = UB.
Proof. exact off_stray_vertex. Qed.
Print Assumptions C87_vertex_refuted.
Example C87_vertex_nonvacuous : exists o,
  StringsToOFFMesh plain_codec (map txt ["OFF"; "3 1 3"; "0 0 0"; "5 0 0"; "0 7 0"; "3 1 2 3"]%string) = Ok o /\
  length (Points o) = N.to_nat (NumCell0Ds o) /\ few (length (Points o)) /\
  ~ in_range (length (Points o)) (map (map to_uint) (Polygons o)).
Proof.
  eexists. split; [vm_compute; reflexivity|]. cbn [Points NumCell0Ds Polygons]. split; [vm_compute; reflexivity|].
  split; [vm_compute; discriminate|]. intros H. unfold in_range in H. apply Forall_cons in H as [H _].
  apply Forall_cons in H as [_ H]. apply Forall_cons in H as [_ H]. apply Forall_cons in H as [H _]. vm_compute in H. discriminate H.
Qed.

(** The first line is not looked at. *)
Theorem C87_magic_refuted : forall k l l' ls, StringsToOFFMesh k (l :: ls) = StringsToOFFMesh k (l' :: ls).
Proof. exact off_first. Qed.
Print Assumptions C87_magic_refuted.
