(** * The configuration as a finite map from identifiers to values with a description. *)
From Verif Require Export ConfigModel.
Local Open Scope nat_scope.

Notation config := (gmap text (cval * text)).

(** The calls of the interface and what they answer. *)
Inductive cop :=
| OAdd (id : text) (v : cval) (d : text) | OAddCString (id s d : text)
| OSet (id : text) (v : cval) | OSetCString (id s : text)
| OGet (id : text) (t : stype) | ORemove (id : text) | OReset | OExists (id : text) | OCheckType (id : text) (t : stype)
| OConvert (id type value d : text) | ONumber.
Inductive answer := Done | Bool (b : bool) | Value (v : cval) | Number (n : N) | Fails | Undefined.

Definition answer_of {A} (f : A -> answer) (o : outcome A) : answer :=
  match o with Ok a => f a | Throw => Fails | _ => Undefined end.

(** The calls on the model. *)
Definition run_op (env : platform) (o : cop) (s : store) : answer * store :=
  let unit_call (c : call unit) := let '(r, s') := c s in (answer_of (fun _ => Done) r, s') in
  match o with
  | OAdd id v d => unit_call (AddProperty id v d)
  | OAddCString id t d => unit_call (AddCString id t d)
  | OSet id v => unit_call (SetPropertyValue id v)
  | OSetCString id t => unit_call (SetCString id t)
  | OGet id t => let '(r, s') := GetPropertyValue id t s in (answer_of Value r, s')
  | ORemove id => unit_call (RemoveProperty id)
  | OReset => unit_call (Reset env)
  | OExists id => (Bool (ExistsProperty s id), s)
  | OCheckType id t => let '(r, s') := CheckPropertyType id t s in (answer_of Bool r, s')
  | OConvert id t v d => unit_call (ConvertPropertyFromString env id t v d)
  | ONumber => (Number (NumberProperties s), s)
  end.
Fixpoint run_ops (env : platform) (ops : list cop) (s : store) : list answer * store :=
  match ops with
  | [] => ([], s)
  | o :: ops' => let '(a, s') := run_op env o s in let '(l, s'') := run_ops env ops' s' in (a :: l, s'')
  end.

(** The calls on the map. *)
Definition spec_op (env : platform) (o : cop) (m : config) : answer * config :=
  match o with
  | OAdd id v d => if decide (type_of v = Unknown) then (Fails, m) else (Done, <[id := (v, d)]> m)
  | OAddCString id t d => (Done, <[id := (VString t, d)]> m)
  | OSet id v => match m !! id with
                 | Some (w, d) => if decide (type_of w = type_of v) then (Done, <[id := (v, d)]> m) else (Fails, m)
                 | None => (Fails, m)
                 end
  | OSetCString id t => match m !! id with
                        | Some (w, d) => if decide (type_of w = TString) then (Done, <[id := (VString t, d)]> m) else (Fails, m)
                        | None => (Fails, m)
                        end
  | OGet id t => match m !! id with
                 | Some (w, _) => if decide (type_of w = t) then (Value w, m) else (Fails, m)
                 | None => (Fails, m)
                 end
  | ORemove id => (Done, delete id m)
  | OReset => (Done, ∅)
  | OExists id => (Bool (bool_decide (is_Some (m !! id))), m)
  | OCheckType id t => (Bool (match m !! id with Some (w, _) => bool_decide (type_of w = t) | None => false end), m)
  | OConvert id t v d =>
      match parse_value env (StringToType t) v with
      | Ok w => (Done, <[id := (w, d)]> m)
      | _ => (Fails, m)
      end
  | ONumber => (Number (N.of_nat (size m)), m)
  end.
Fixpoint spec_ops (env : platform) (ops : list cop) (m : config) : list answer * config :=
  match ops with
  | [] => ([], m)
  | o :: ops' => let '(a, m') := spec_op env o m in let '(l, m'') := spec_ops env ops' m' in (a :: l, m'')
  end.

(** The calls for which the interface keeps its promise. *)
Definition allowed (env : platform) (o : cop) (m : config) : Prop :=
  match o with
  | OCheckType id _ => is_Some (m !! id)
  | OSetCString id _ => forall w d, m !! id = Some (w, d) -> type_of w = TString
  | OConvert id t v _ => StringToType t = Unknown \/ exists w, parse_value env (StringToType t) v = Ok w
  | ONumber => (N.of_nat (size m) < 4294967296)%N
  | _ => True
  end.
Fixpoint all_allowed (env : platform) (ops : list cop) (m : config) : Prop :=
  match ops with
  | [] => True
  | o :: ops' => allowed env o m /\ all_allowed env ops' (spec_op env o m).2
  end.

(** The platform visits every element of a map once. *)
Definition visits_all (env : platform) : Prop := forall types, visit env types ≡ₚ map_to_list types.

(** The store with this content. *)
Definition store_of (m : config) : store :=
  Store (N.of_nat (size m) `mod` 4294967296) ((fun e => type_of e.1) <$> m) ((fun e => Some (Property e.1 e.2)) <$> m).

(** The values which are read back from their text; [double] values when the platform's text of the number determines it. *)
Definition readable (env : platform) (v : cval) : Prop :=
  match v with
  | VInt z => int_range z = true
  | VChar _ | VString _ | VBool _ => True
  | VUInt n => (n <= 2147483647)%N
  | VVectorInt l => Forall (fun z => int_range z = true) l
  | VVectorUInt l => Forall (fun n => n <= 2147483647)%N l
  | VDouble d => parse_double env (show_double env d) = Ok d
  | VVectorDouble l => Forall (fun d => parse_double env (show_double env d) = Ok d /\ show_double env d <> [] /\
                                        forall c, c ∈ show_double env d -> c ∉ vector_separators) l
  | VSetUInt _ | VMatrix _ | VOther _ => False
  end.

(** The properties which a csv file with this separator can hold. *)
Definition csv_ok (env : platform) (separator : ascii) (id : text) (v : cval) (d : text) : Prop :=
  readable env v /\ Forall (fun t => separator ∉ t /\ newline ∉ t) [id; TypeToString (type_of v); show_value env v; d].

(** The properties which an ini file can hold; the description is a comment. *)
Definition ini_ok (env : platform) (id : text) (v : cval) (d : text) : Prop :=
  readable env v /\ id <> [] /\ head id <> Some "#"%char /\ show_value env v <> [] /\
  Forall (fun t => " "%char ∉ t /\ newline ∉ t) [id; show_value env v] /\ newline ∉ d.
