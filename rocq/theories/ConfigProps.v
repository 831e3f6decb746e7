(** * Properties C37-C39, C47-C49: the configuration.  The map and the notions are in ConfigSpec.v. *)
From Verif Require Import Base ConfigModel ConfigSpec ConfigProof ConfigProof2.
Local Open Scope nat_scope.

(** A platform for the examples. *)
Definition example_platform : platform := Platform show_N (fun _ => txt "0") ParseUInt map_to_list.
Lemma example_visits : visits_all example_platform.
Proof. intros m. reflexivity. Qed.

(** C37. On every history whose calls are [allowed], each answer is that of the map. *)
Theorem C37_history_partial env ops : visits_all env -> all_allowed env ops ∅ ->
  (run_ops env ops empty_store).1 = (spec_ops env ops ∅).1.
Proof. exact (history env ops). Qed.
Print Assumptions C37_history_partial.

(** Asking the type of an absent property creates it: it then exists, is not counted, and cannot be added any more. *)
Theorem C37_check_type_refuted : exists ops, (run_ops example_platform ops empty_store).1 <> (spec_ops example_platform ops ∅).1 /\
  (run_ops example_platform ops empty_store).1 = [Bool false; Bool true; Number 0; Fails; Fails; Fails].
Proof.
  exists [OCheckType (txt "a") TInt; OExists (txt "a"); ONumber; OAdd (txt "a") (VInt 1) []; ORemove (txt "a"); OReset].
  split; [|vm_compute; reflexivity]. intros E. assert (E' : (run_ops example_platform [OCheckType (txt "a") TInt; OExists (txt "a"); ONumber; OAdd (txt "a") (VInt 1) []; ORemove (txt "a"); OReset] empty_store).1 = [Bool false; Bool false; Number 0; Done; Done; Done]) by (rewrite E; vm_compute; reflexivity).
  vm_compute in E'. discriminate.
Qed.
Print Assumptions C37_check_type_refuted.

(** Setting a C string to a property of another type is undefined: the type is not checked. *)
Theorem C37_c_string_refuted :
  (run_ops example_platform [OAdd (txt "a") (VInt 1) []; OSetCString (txt "a") (txt "x")] empty_store).1 = [Done; Undefined].
Proof. vm_compute. reflexivity. Qed.
Print Assumptions C37_c_string_refuted.

Example C37_example :
  let ops := [OAdd (txt "a") (VInt 1) (txt "first"); OAdd (txt "b") (VBool true) []; OSet (txt "a") (VInt 7); OSet (txt "a") (VBool true);
              OGet (txt "a") TInt; OGet (txt "a") TBool; OGet (txt "c") TInt; ONumber; ORemove (txt "a"); OExists (txt "a"); OGet (txt "b") TBool;
              OConvert (txt "v") (txt "Vector_Int") (txt "[1,2]") []; OGet (txt "v") TVectorInt; OReset; ONumber] in
  all_allowed example_platform ops ∅ /\
  (run_ops example_platform ops empty_store).1 =
    [Done; Done; Done; Fails; Value (VInt 7); Fails; Fails; Number 2; Done; Bool false; Value (VBool true); Done; Value (VVectorInt [1; 2]%Z); Done; Number 0].
Proof.
  cbn zeta. split; [|vm_compute; reflexivity]. cbn [all_allowed]. 
  split_and!; try exact I; try (vm_compute; reflexivity). cbn [allowed]. right. exists (VVectorInt [1; 2]%Z). vm_compute. reflexivity.
Qed.

(** C38. False: the property is added with a default value before the text is read. *)
Theorem C38_refuted :
  (run_ops example_platform [OAdd (txt "a") (VInt 7) (txt "kept"); OConvert (txt "a") (txt "int") (txt "x") []; OGet (txt "a") TInt] empty_store).1 =
    [Done; Fails; Value (VInt 0)].
Proof. vm_compute. reflexivity. Qed.
Print Assumptions C38_refuted.

(** The other properties are unchanged whether the conversion fails or not; [m] is the content before. *)
Theorem C38_others_partial env ops id type value d r s : visits_all env -> all_allowed env ops ∅ ->
  ConvertPropertyFromString env id type value d (run_ops env ops empty_store).2 = (r, s) ->
  exists m', s = store_of m' /\ forall id', id' <> id -> m' !! id' = (spec_ops env ops ∅).2 !! id'.
Proof. exact (convert_history env ops id type value d r s). Qed.
Print Assumptions C38_others_partial.

(** Nothing changes when the type is not recognised. *)
Theorem C38_type_partial env id type value d s : StringToType type = Unknown -> ConvertPropertyFromString env id type value d s = (Throw, s).
Proof. exact (convert_unknown env id type value d s). Qed.
Print Assumptions C38_type_partial.

Example C38_example : StringToType (txt "integer") = Unknown /\
  (ConvertPropertyFromString example_platform (txt "a") (txt "int") (txt "x") [] (run_ops example_platform [OAdd (txt "b") (VInt 1) []] empty_store).2).1 = Throw.
Proof. split; vm_compute; reflexivity. Qed.

(** C39. *)
Theorem C39_types_partial t : t <> TMatrix -> StringToType (TypeToString t) = t.
Proof. exact (type_back t). Qed.
Print Assumptions C39_types_partial.

Theorem C39_case s s' : ToUpper s = ToUpper s' -> StringToType s = StringToType s'.
Proof. exact (type_upper s s'). Qed.
Print Assumptions C39_case.

(** Distinct types have distinct names. *)
Theorem C39_names t t' : TypeToString t = TypeToString t' -> t = t'.
Proof. exact (names_differ t t'). Qed.
Print Assumptions C39_names.

(** The text is put in lower case and then compared with "Matrix": no text is recognised as the type of a matrix. *)
Theorem C39_matrix_refuted : StringToType (TypeToString TMatrix) = Unknown /\ forall s, StringToType s <> TMatrix.
Proof. exact no_matrix. Qed.
Print Assumptions C39_matrix_refuted.

Example C39_example : StringToType (txt "vector_DOUBLE") = TVectorDouble /\ ToUpper (txt "vector_DOUBLE") = ToUpper (txt "Vector_double").
Proof. split; vm_compute; reflexivity. Qed.

(** C47. Exporting the configuration reached by any history and importing it in an empty configuration gives the same
    configuration. *)
Theorem C47_csv_partial env separator append ops : visits_all env -> all_allowed env ops ∅ -> separator <> newline ->
  (forall id v d, (spec_ops env ops ∅).2 !! id = Some (v, d) -> csv_ok env separator id v d) ->
  let s := (run_ops env ops empty_store).2 in
  exists content, ExportToCsv env append separator s = (Ok content, s) /\
    InitializeFromCsv env content (negb append) separator empty_store = (Ok tt, s).
Proof. exact (csv_history env separator append ops). Qed.
Print Assumptions C47_csv_partial.

(** Sets, matrices and large unsigned numbers are written but cannot be read: the import throws. *)
Definition reimport (v : cval) : outcome unit :=
  match ExportToCsv example_platform false ";" (run_ops example_platform [OAdd (txt "a") v []] empty_store).2 with
  | (Ok content, _) => (InitializeFromCsv example_platform content true ";" empty_store).1
  | _ => UB
  end.
Theorem C47_set_refuted : reimport (VSetUInt [1; 2]%N) = Throw.
Proof. vm_compute. reflexivity. Qed.
Print Assumptions C47_set_refuted.
Theorem C47_matrix_refuted : reimport (VMatrix [[1; 2]]%N) = Throw.
Proof. vm_compute. reflexivity. Qed.
Print Assumptions C47_matrix_refuted.
Theorem C47_large_refuted : reimport (VUInt 4294967295) = Throw.
Proof. vm_compute. reflexivity. Qed.
Print Assumptions C47_large_refuted.

Definition example_history : list cop :=
  [OAdd (txt "mesh") (VString (txt "a b")) (txt "path"); OAdd (txt "n") (VInt (-12)) []; OAdd (txt "ids") (VVectorUInt [3; 4]%N) []; OAdd (txt "verbose") (VBool true) []].
Example C47_example : all_allowed example_platform example_history ∅ /\
  (forall id v d, (spec_ops example_platform example_history ∅).2 !! id = Some (v, d) -> csv_ok example_platform ";" id v d) /\
  (ExportToCsv example_platform true ";" (run_ops example_platform [OAdd (txt "n") (VInt (-12)) (txt "size")] empty_store).2).1 = Ok (txt "n;int;-12;size" ++ [newline]).
Proof.
  assert (Hc : forall (c : ascii) (l : text), bool_decide (c ∉ l) = true -> c ∉ l) by (intros c l H; by apply bool_decide_eq_true in H).
  split_and!; [done..| |vm_compute; reflexivity]. cbn [example_history spec_ops spec_op type_of]. intros id v d.
  rewrite !decide_False by done. cbn [snd]. rewrite !lookup_insert_Some, lookup_empty. 
  intros H. repeat destruct H as [[<- [= <- <-]]|[_ H]]; [..|done].
  all: split; [cbn [readable]; try done; repeat constructor; done|]; repeat constructor; apply Hc; vm_compute; reflexivity.
Qed.

(** C48. The same for ini files, which do not keep the descriptions. *)
Theorem C48_ini_partial env section ops : visits_all env -> all_allowed env ops ∅ -> newline ∉ section ->
  let m := (spec_ops env ops ∅).2 in
  (forall id v d, m !! id = Some (v, d) -> ini_ok env id v d) ->
  let s := (run_ops env ops empty_store).2 in
  exists content, ExportToIni env false section s = (Ok content, s) /\
    InitializeFromIni env content empty_store = (Ok tt, store_of ((fun e => (e.1, [])) <$> m)).
Proof. exact (ini_history env section ops). Qed.
Print Assumptions C48_ini_partial.

(** A value with spaces and an empty value are lost silently. *)
Definition reimport_ini (v : cval) : option answer :=
  match ExportToIni example_platform false [] (run_ops example_platform [OAdd (txt "a") v []] empty_store).2 with
  | (Ok content, _) =>
      match InitializeFromIni example_platform content empty_store with
      | (Ok _, s) => Some (run_op example_platform (OExists (txt "a")) s).1
      | _ => None
      end
  | _ => None
  end.
Theorem C48_spaces_refuted : reimport_ini (VString (txt "a b")) = Some (Bool false) /\ reimport_ini (VString []) = Some (Bool false).
Proof. split; vm_compute; reflexivity. Qed.
Print Assumptions C48_spaces_refuted.

Example C48_example :
  let ops := [OAdd (txt "n") (VInt (-12)) (txt "the size")] in
  all_allowed example_platform ops ∅ /\ 
  (forall id v d, (spec_ops example_platform ops ∅).2 !! id = Some (v, d) -> ini_ok example_platform id v d) /\
  reimport_ini (VInt (-12)) = Some (Bool true).
Proof.
  assert (Hc : forall (c : ascii) (l : text), bool_decide (c ∉ l) = true -> c ∉ l) by (intros c l H; by apply bool_decide_eq_true in H).
  cbn zeta. split_and!; [done..| |vm_compute; reflexivity]. cbn [spec_ops spec_op type_of]. intros id v d.
  rewrite !decide_False by done. cbn [snd]. rewrite !lookup_insert_Some, lookup_empty. 
  intros H. repeat destruct H as [[<- [= <- <-]]|[_ H]]; [..|done].
  all: split_and!; try done; try (repeat constructor; apply Hc; vm_compute; reflexivity); apply Hc; vm_compute; reflexivity.
Qed.

(** C49. Command line arguments are the conversions one after the other, until one throws. *)
Theorem C49_arguments env c d l s : c <> d ->
  Forall (fun e : text * text * text => e.1.1 <> [] /\ e.2 <> [] /\ Forall (fun s : text => c ∉ s /\ d ∉ s) [e.1.1; e.1.2; e.2]) l ->
  Initialize env (map (fun e => e.1.1 ++ [c] ++ e.1.2 ++ [d] ++ e.2) l) (txt "id" ++ [c] ++ txt "type" ++ [d] ++ txt "value") s =
  foldl (fun (r : outcome unit * store) e => match r with (Ok _, s) => ConvertPropertyFromString env e.1.1 e.1.2 e.2 [] s | _ => r end) (Ok tt, s) l.
Proof. exact (initialize_ok env c d l s). Qed.
Print Assumptions C49_arguments.

Example C49_example :
  let '(r, s) := Initialize example_platform [txt "n:int=5"; txt "name=x"] (txt "id:type=value") empty_store in
  r = Ok tt /\ (run_op example_platform (OGet (txt "n") TInt) s).1 = Value (VInt 5) /\ (run_op example_platform (OGet (txt "name") TString) s).1 = Value (VString (txt "x")).
Proof. vm_compute. split_and!; reflexivity. Qed.
