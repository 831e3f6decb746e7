(** * Properties C35, C36, C40: splitting and parsing texts, stream operators.  The notions are in StringsSpec.v. *)
From Verif Require Import Base StringsModel StringsSpec StringsProof StringsProof2.
Local Open Scope nat_scope.

(** C35. One separator. *)
Theorem C35_split_join c tokens : Forall (fun t => c ∉ t) tokens -> Split (join [c] tokens) c = drop_trailing_empty tokens.
Proof. exact (split_join c tokens). Qed.
Print Assumptions C35_split_join.

Theorem C35_no_separator c s t : t ∈ Split s c -> c ∉ t.
Proof. exact (split_no_sep c s [] t (not_elem_of_nil c)). Qed.
Print Assumptions C35_no_separator.

Theorem C35_join_split c s : s = join [c] (Split s c) \/ s = join [c] (Split s c) ++ [c].
Proof. exact (join_split c s). Qed.
Print Assumptions C35_join_split.

(** Several separators: the non-empty parts are the maximal runs without separators. *)
Theorem C35_split_many s cs : List.filter (fun t => bool_decide (t <> [])) (SplitMany s cs) = words cs [] s.
Proof. exact (split_many_filter' s cs). Qed.
Print Assumptions C35_split_many.

Theorem C35_many_no_separator s cs t c : t ∈ SplitMany s cs -> c ∈ cs -> c ∉ t.
Proof. exact (split_many_no_sep s cs t c). Qed.
Print Assumptions C35_many_no_separator.

Example C35_example :
  Split (txt "ab;;c;") ";" = [txt "ab"; []; txt "c"] /\ join (txt ";") [txt "ab"; []; txt "c"; []] = txt "ab;;c;" /\
  Forall (fun t => ";"%char ∉ t) [txt "ab"; []; txt "c"; []] /\
  SplitMany (txt "[1,2 3]") vector_separators = [txt "1"; txt "2"; txt "3"].
Proof.
  split_and!; try (vm_compute; reflexivity). repeat constructor; cbn; rewrite ?elem_of_cons, ?elem_of_nil; naive_solver.
Qed.

(** C36. False when a space follows another separator: the empty part between them cannot be parsed. *)
Theorem C36_refuted : ParseVector ParseInt (txt "[1, 2]") = Throw.
Proof. vm_compute. reflexivity. Qed.
Print Assumptions C36_refuted.

(** It holds when between two numbers a space, if any, comes first: "1,2", "1;2", "1 2", "1 ,2", "1;;2", … *)
Theorem C36_vector_partial z l :
  int_range z = true -> Forall (fun p : text * Z => gap_ok p.1 /\ int_range p.2 = true) l ->
  ParseVector ParseInt (txt "[" ++ with_gaps show_Z z l ++ txt "]") = Ok (z :: map snd l).
Proof. exact (parse_int_vector z l). Qed.
Print Assumptions C36_vector_partial.

Theorem C36_unsigned_partial n l :
  (n <= 2147483647)%N -> Forall (fun p : text * N => gap_ok p.1 /\ (p.2 <= 2147483647)%N) l ->
  ParseVector ParseUInt (txt "[" ++ with_gaps show_N n l ++ txt "]") = Ok (n :: map snd l).
Proof. exact (parse_uint_vector n l). Qed.
Print Assumptions C36_unsigned_partial.

(** Unsigned numbers from 2^31 on are not accepted, although they can be stored. *)
Theorem C36_large_unsigned_refuted : ParseVector ParseUInt (txt "[3000000000]") = Throw.
Proof. vm_compute. reflexivity. Qed.
Print Assumptions C36_large_unsigned_refuted.

Theorem C36_empty : ParseVector ParseInt (txt "[]") = Ok [].
Proof. vm_compute. reflexivity. Qed.
Print Assumptions C36_empty.

Example C36_example :
  let l := [(txt ",", -20); (txt " ;", 300); (txt " ", 0)]%Z in
  txt "[" ++ with_gaps show_Z 7%Z l ++ txt "]" = txt "[7,-20 ;300 0]" /\
  Forall (fun p : text * Z => gap_ok p.1 /\ int_range p.2 = true) l.
Proof.
  split; [vm_compute; reflexivity|]. repeat constructor; try done; repeat eexists.
  - instantiate (1 := txt ","). instantiate (1 := []). done.
  - by left.
  - repeat constructor.
  - instantiate (1 := txt ";"). instantiate (1 := txt " "). done.
  - by right.
  - constructor; [by right|constructor].
  - instantiate (1 := []). instantiate (1 := txt " "). done.
  - by right.
  - constructor.
Qed.

(** C40. For any element type whose values are read back, and so for vectors of vectors; [rest] is what follows in the stream. *)
Theorem C40_integers z : int_range z = true -> reads_back show_Z get_int z.
Proof. exact (int_reads_back z). Qed.
Print Assumptions C40_integers.

Theorem C40_vectors {T} (put : T -> text) (get : text -> option (T * text)) v rest :
  (N.of_nat (length v) <= 4294967295)%N -> Forall (reads_back put get) v ->
  get_vector get (put_vector put v ++ rest) = Some (v, rest).
Proof. exact (fun Hn Hv => vector_reads_back_any put get v [] rest Hn Hv (Forall_nil_2 _)). Qed.
Print Assumptions C40_vectors.

Theorem C40_nested_vectors {T} (put : T -> text) (get : text -> option (T * text)) v :
  (N.of_nat (length v) <= 4294967295)%N -> Forall (reads_back put get) v -> reads_back (put_vector put) (get_vector get) v.
Proof. exact (vector_reads_back put get v). Qed.
Print Assumptions C40_nested_vectors.

Theorem C40_matrices {T} (put : T -> text) (get : text -> option (T * text)) m rest :
  well_formed m -> (N.of_nat (mrows m) <= 4294967295)%N -> (N.of_nat (mcols m) <= 4294967295)%N ->
  Forall (Forall (reads_back put get)) (mcolumns m) ->
  exists rest', get_matrix get (put_matrix put m ++ rest) = Some (m, rest') /\ (mrows m <> 0 \/ mcols m = 0 -> rest' = rest).
Proof. exact (matrix_back put get m rest). Qed.
Print Assumptions C40_matrices.

(** Without rows but with columns the reader stops too early, so that what follows in the stream is not found. *)
Theorem C40_position_refuted : exists m : matrix Z, well_formed m /\
  get_matrix get_int (put_matrix show_Z m ++ txt ",5") = Some (m, txt "}}" ++ txt ",5").
Proof.
  exists (Matrix 0 2 [[]; []]). split; [|vm_compute; reflexivity]. repeat split; repeat constructor.
Qed.
Print Assumptions C40_position_refuted.

Example C40_example :
  put_matrix show_Z (Matrix 2 2 [[1; -2]; [3; 4]]%Z) = txt "2,2,{{1, -2},{3, 4}}" /\ well_formed (Matrix 2 2 [[1; -2]; [3; 4]]%Z) /\
  put_vector (put_vector show_Z) [[1; 2]; []; [3]]%Z = txt "3,{2,{1,2},0,{},1,{3}}" /\
  get_vector (get_vector get_int) (txt "3,{2,{1,2},0,{},1,{3}};") = Some ([[1; 2]; []; [3]]%Z, txt ";").
Proof. split_and!; try (vm_compute; reflexivity). repeat split; repeat constructor. Qed.
