(** * Model of GeDiM/src/IO/Configurations.{hpp,cpp} and ConfigurationPropertySupportedTypes.hpp.

    The content of a file is a text.  Not modelled: failures to open a file. *)
From Verif Require Export StringsModel.
Local Open Scope nat_scope.

Global Instance ascii_eq_dec' : EqDecision ascii := Ascii.ascii_dec.
Global Program Instance ascii_countable : Countable ascii := inj_countable' Ascii.N_of_ascii Ascii.ascii_of_N _.
Next Obligation. intros c. apply Ascii.ascii_N_embedding. Qed.

(** SupportedTypes, ConfigurationPropertySupportedTypes.hpp:26-40. *)
Inductive stype :=
| Unknown | TInt | TChar | TString | TDouble | TVectorInt | TVectorDouble | TBool | TSetUInt | TUInt | TVectorUInt | TMatrix.
Global Instance stype_eq_dec : EqDecision stype.
Proof. solve_decision. Defined.

(** A value together with its C++ type; numbers of type [double] are opaque; a set is the increasing list of its elements;
    [VOther] is a value of any other type. *)
Inductive cval :=
| VInt (z : Z) | VChar (c : ascii) | VString (s : text) | VDouble (d : N) | VVectorInt (l : list Z) | VVectorDouble (l : list N)
| VBool (b : bool) | VSetUInt (l : list N) | VUInt (n : N) | VVectorUInt (l : list N) | VMatrix (m : list (list N)) | VOther (x : N).
Global Instance cval_eq_dec : EqDecision cval.
Proof. solve_decision. Defined.

(** GetSupportedType, 43-81. *)
Definition type_of (v : cval) : stype :=
  match v with
  | VInt _ => TInt | VChar _ => TChar | VString _ => TString | VDouble _ => TDouble | VVectorInt _ => TVectorInt
  | VVectorDouble _ => TVectorDouble | VBool _ => TBool | VSetUInt _ => TSetUInt | VUInt _ => TUInt
  | VVectorUInt _ => TVectorUInt | VMatrix _ => TMatrix | VOther _ => Unknown
  end.

(** TypeToString, 89-118. *)
Definition TypeToString (t : stype) : text :=
  match t with
  | TInt => txt "int" | TChar => txt "char" | TString => txt "string" | TDouble => txt "double" | TVectorInt => txt "vector_int"
  | TVectorDouble => txt "vector_double" | TBool => txt "bool" | TUInt => txt "uint" | TSetUInt => txt "set_uint"
  | TVectorUInt => txt "vector_uint" | TMatrix => txt "Matrix" | Unknown => txt "unknown"
  end.

(** StringToType, 121-149. *)
Definition StringToType (s : text) : stype :=
  let l := ToLower s in
  if decide (l = txt "int") then TInt
  else if decide (l = txt "char") then TChar
  else if decide (l = txt "string") then TString
  else if decide (l = txt "double") then TDouble
  else if decide (l = txt "vector_int") then TVectorInt
  else if decide (l = txt "vector_double") then TVectorDouble
  else if decide (l = txt "bool") then TBool
  else if decide (l = txt "set_uint") then TSetUInt
  else if decide (l = txt "uint") then TUInt
  else if decide (l = txt "vector_uint") then TVectorUInt
  else if decide (l = txt "Matrix") then TMatrix
  else Unknown.

(** ConfigurationProperty, Configurations.hpp:26-31 (Id, never read, is left out). *)
Record property := Property { pvalue : cval; pdescription : text }.

(** The static members, 39-41; in [properties] [None] is the null pointer. *)
Record store := Store { numberProperties : N; propertyTypes : gmap text stype; properties : gmap text (option property) }.
Definition empty_store : store := Store 0 ∅ ∅.

(** What the platform decides: the text of a [double] and of a matrix, reading a [double], the order in which the elements of
    an [unordered_map] are visited. *)
Record platform := Platform {
  show_double : N -> text; show_matrix : list (list N) -> text; parse_double : text -> outcome N;
  visit : gmap text stype -> list (text * stype) }.

(** A call gives an outcome and the store, also when it throws. *)
Definition call A := store -> outcome A * store.
Global Instance call_ret : MRet call := fun A a s => (Ok a, s).
Global Instance call_bind : MBind call := fun A B f m s =>
  match m s with
  | (Ok a, s') => f a s'
  | (Abort, s') => (Abort, s')
  | (Throw, s') => (Throw, s')
  | (UB, s') => (UB, s')
  | (OutOfFuel, s') => (OutOfFuel, s')
  end.
Definition stop {A} (o : outcome A) : call A := fun s => (o, s).
Definition skip : call unit := mret tt.
Definition modify (f : store -> store) : call unit := fun s => (Ok tt, f s).
Definition look {A} (f : store -> call A) : call A := fun s => f s s.

(** [map.insert]: an existing key keeps its value. *)
Definition map_insert {A} (k : text) (x : A) (m : gmap text A) : gmap text A :=
  match m !! k with Some _ => m | None => <[k := x]> m end.

Definition number_add (n k : N) : N := ((n + k) `mod` 4294967296)%N.

(** GetPropertyType, 47-50: [operator[]] creates the entry when it is absent. *)
Definition GetPropertyType (id : text) : call stype := fun s =>
  match propertyTypes s !! id with
  | Some t => (Ok t, s)
  | None => (Ok Unknown, Store (numberProperties s) (<[id := Unknown]> (propertyTypes s)) (properties s))
  end.

(** GetProperty, 53-56: the pointer is read as a pointer to a property with type [t]; undefined when it is null or when the
    object has another type. *)
Definition GetProperty (id : text) (t : stype) : call property := fun s =>
  match properties s !! id with
  | Some (Some p) => if decide (type_of (pvalue p) = t) then (Ok p, s) else (UB, s)
  | Some None => (UB, s)
  | None => (UB, Store (numberProperties s) (propertyTypes s) (<[id := None]> (properties s)))
  end.
Definition put_property (id : text) (p : property) : call unit := fun s =>
  (Ok tt, Store (numberProperties s) (propertyTypes s) (<[id := Some p]> (properties s))).

Definition ExistsProperty (s : store) (id : text) : bool := bool_decide (is_Some (propertyTypes s !! id)).
Definition NumberProperties (s : store) : N := numberProperties s.

(** RemoveProperty by type, Configurations.cpp:29-72: [delete] of a null pointer does nothing, of an object with another type is
    undefined. *)
Definition RemoveTyped (id : text) (t : stype) : call unit := fun s =>
  if decide (t = Unknown) then (Throw, s)
  else
    match properties s !! id with
    | Some (Some p) => if decide (type_of (pvalue p) = t)
                       then (Ok tt, Store (number_add (numberProperties s) 4294967295) (propertyTypes s) (delete id (properties s)))
                       else (UB, s)
    | _ => (Ok tt, Store (number_add (numberProperties s) 4294967295) (propertyTypes s) (delete id (properties s)))
    end.

(** RemoveProperty, 513-520. *)
Definition RemoveProperty (id : text) : call unit := look (fun s =>
  if ExistsProperty s id then
    t ← GetPropertyType id; RemoveTyped id t;;
    modify (fun s => Store (numberProperties s) (delete id (propertyTypes s)) (properties s))
  else skip).

(** [T()], the value of a new property. *)
Definition default_value (t : stype) : cval :=
  match t with
  | TInt => VInt 0 | TChar => VChar Ascii.zero | TString => VString [] | TDouble => VDouble 0 | TVectorInt => VVectorInt []
  | TVectorDouble => VVectorDouble [] | TBool => VBool false | TSetUInt => VSetUInt [] | TUInt => VUInt 0
  | TVectorUInt => VVectorUInt [] | TMatrix => VMatrix [] | Unknown => VOther 0
  end.

(** AddProperty, Configurations.hpp:113-133. *)
Definition AddProperty (id : text) (v : cval) (description : text) : call unit :=
  if decide (type_of v = Unknown) then stop Throw
  else
    RemoveProperty id;;
    modify (fun s => Store (number_add (numberProperties s) 1) (map_insert id (type_of v) (propertyTypes s))
                       (map_insert id (Some (Property (default_value (type_of v)) [])) (properties s)));;
    GetProperty id (type_of v);; put_property id (Property v description).

(** AddProperty of a C string, Configurations.cpp:240-253. *)
Definition AddCString (id value description : text) : call unit :=
  RemoveProperty id;;
  modify (fun s => Store (number_add (numberProperties s) 1) (map_insert id TString (propertyTypes s))
                     (map_insert id (Some (Property (VString []) [])) (properties s)));;
  GetProperty id TString;; put_property id (Property (VString value) description).

(** CheckPropertyType, Configurations.hpp:101-104. *)
Definition CheckPropertyType (id : text) (t : stype) : call bool := t' ← GetPropertyType id; mret (bool_decide (t' = t)).

(** SetPropertyValue, 138-153. *)
Definition SetPropertyValue (id : text) (v : cval) : call unit := look (fun s =>
  if ExistsProperty s id then
    b ← CheckPropertyType id (type_of v);
    if b : bool then p ← GetProperty id (type_of v); put_property id (Property v (pdescription p)) else stop Throw
  else stop Throw).

(** SetPropertyValue of a C string, Configurations.cpp:255-262: the type is not checked. *)
Definition SetCString (id value : text) : call unit := look (fun s =>
  if ExistsProperty s id then
    p ← GetProperty id TString; put_property id (Property (VString value) (pdescription p))
  else stop Throw).

(** GetPropertyValue, Configurations.hpp:158-173. *)
Definition GetPropertyValue (id : text) (t : stype) : call cval := look (fun s =>
  if ExistsProperty s id then
    b ← CheckPropertyType id t; if b : bool then p ← GetProperty id t; mret (pvalue p) else stop Throw
  else stop Throw).

Section platform.
Context (env : platform).

(** Reset, Configurations.cpp:499-511. *)
Fixpoint remove_all (l : list (text * stype)) : call unit :=
  match l with
  | [] => skip
  | (id, t) :: l' => RemoveTyped id t;; remove_all l'
  end.
Definition Reset : call unit := look (fun s =>
  remove_all (visit env (propertyTypes s));; modify (fun s => Store 0 ∅ (properties s))).

(** The Parse functions, StringsUtilities.cpp:117-244. *)
Definition parse_value (t : stype) (s : text) : outcome cval :=
  match t with
  | TInt => z ← ParseInt s; Ok (VInt z)
  | TChar => Ok (VChar (ParseChar s))
  | TString => Ok (VString s)
  | TDouble => d ← parse_double env s; Ok (VDouble d)
  | TVectorInt => l ← ParseVector ParseInt s; Ok (VVectorInt l)
  | TVectorDouble => l ← ParseVector (parse_double env) s; Ok (VVectorDouble l)
  | TBool => b ← ParseBool s; Ok (VBool b)
  | TSetUInt => l ← ParseSetUInt s; Ok (VSetUInt l)
  | TUInt => n ← ParseUInt s; Ok (VUInt n)
  | TVectorUInt => l ← ParseVector ParseUInt s; Ok (VVectorUInt l)
  | TMatrix | Unknown => Throw
  end.

(** ConvertPropertyFromString, 149-238: the property is added with the default value, then the text is read. *)
Definition ConvertPropertyFromString (id type value description : text) : call unit :=
  let t := StringToType type in
  if decide (t = Unknown \/ t = TMatrix) then stop Throw
  else
    AddProperty id (default_value t) description;;
    v ← stop (parse_value t value);
    SetPropertyValue id v.

(** [operator<<] of vectors and sets, IOStream.hpp:104-117, 282-308, with MaxElementToPrint = 0 (its default). *)
Definition show_list {T} (opening closing : text) (show : T -> text) (l : list T) : text :=
  opening ++ put_elements show (txt ",") true l ++ closing.

Definition show_value (v : cval) : text :=
  match v with
  | VInt z => show_Z z
  | VChar c => [c]
  | VString s => s
  | VDouble d => show_double env d
  | VVectorInt l => show_list (txt "[") (txt "]") show_Z l
  | VVectorDouble l => show_list (txt "[") (txt "]") (show_double env) l
  | VBool b => if b then txt "1" else txt "0"
  | VSetUInt l => show_list (txt "{") (txt "}") show_N l
  | VUInt n => show_N n
  | VVectorUInt l => show_list (txt "[") (txt "]") show_N l
  | VMatrix m => show_matrix env m
  | VOther _ => []
  end.

(** GetPropertyForExport, 74-147: value and description as text. *)
Definition GetPropertyForExport (id : text) (t : stype) : call (text * text) :=
  if decide (t = Unknown) then stop Throw
  else p ← GetProperty id t; mret (show_value (pvalue p), pdescription p).

(** ExportToCsv, 417-456: what is written. *)
Definition newline : ascii := ascii_of_N 10.
Fixpoint export_csv (separator : ascii) (l : list (text * stype)) : call text :=
  match l with
  | [] => mret []
  | (id, t) :: l' =>
      '(value, description) ← GetPropertyForExport id t;
      rest ← export_csv separator l';
      mret (id ++ [separator] ++ TypeToString t ++ [separator] ++ value ++ [separator] ++ description ++ [newline] ++ rest)
  end.
Definition ExportToCsv (append : bool) (separator : ascii) : call text := look (fun s =>
  body ← export_csv separator (visit env (propertyTypes s));
   mret ((if append then [] else txt "Id" ++ [separator] ++ txt "Type" ++ [separator] ++ txt "Value" ++ [separator] ++ txt "Description" ++ [newline])
         ++ body)).

(** The lines which [getline] gives until [eof]: also the empty line after a final end of line. *)
Fixpoint lines_loop (line s : text) : list text :=
  match s with
  | [] => [line]
  | x :: s' => if decide (x = newline) then line :: lines_loop [] s' else lines_loop (line ++ [x]) s'
  end.
Definition lines (s : text) : list text := lines_loop [] s.

Fixpoint run_lines (f : text -> call unit) (l : list text) : call unit :=
  match l with
  | [] => skip
  | x :: l' => f x;; run_lines f l'
  end.

(** InitializeFromCsv, 264-326. *)
Definition csv_line (separator : ascii) (line : text) : call unit :=
  match Split line separator with
  | [id; value] => ConvertPropertyFromString id (txt "string") value []
  | [id; type; value] => ConvertPropertyFromString id type value []
  | [id; type; value; description] => ConvertPropertyFromString id type value description
  | _ => skip
  end.
Definition InitializeFromCsv (content : text) (hasHeader : bool) (separator : ascii) : call unit :=
  run_lines (csv_line separator) (if hasHeader then tail (lines content) else lines content).

(** ExportToIni, 458-497. *)
Fixpoint export_ini (l : list (text * stype)) : call text :=
  match l with
  | [] => mret []
  | (id, t) :: l' =>
      '(value, description) ← GetPropertyForExport id t;
      rest ← export_ini l';
      mret ((if bool_decide (id = []) || bool_decide (value = []) || bool_decide (TypeToString t = []) then []
             else txt "#####################################################" ++ [newline] ++
                  (if bool_decide (description = []) then [] else txt "# " ++ description ++ [newline]) ++
                  id ++ txt " " ++ TypeToString t ++ txt " " ++ value ++ [newline]) ++ rest)
  end.
Definition ExportToIni (append : bool) (section : text) : call text := look (fun s =>
  body ← export_ini (visit env (propertyTypes s));
   mret ((if append || bool_decide (section = []) then [] else txt "# " ++ section ++ [newline]) ++ body)).

(** InitializeFromIni, 328-382. *)
Definition ini_line (line : text) : call unit :=
  match line with
  | c :: _ => if decide (c = "#"%char) then skip
              else match Split line " " with
                   | [id; value] => ConvertPropertyFromString id (txt "string") value []
                   | [id; type; value] => ConvertPropertyFromString id type value []
                   | _ => skip
                   end
  | [] => skip
  end.
Definition InitializeFromIni (content : text) : call unit := run_lines ini_line (lines content).

(** Initialize, 384-415. *)
Definition argument (typeSeparator valueSeparator : ascii) (arg : text) : call unit :=
  match SplitMany arg [typeSeparator; valueSeparator] with
  | [id; value] => ConvertPropertyFromString id (txt "string") value []
  | [id; type; value] => ConvertPropertyFromString id type value []
  | _ => skip
  end.
Definition Initialize (argv : list text) (format : text) : call unit :=
  typeSeparator ← stop (FindSeparator format (txt "id") (txt "type"));
  valueSeparator ← stop (FindSeparator format (txt "type") (txt "value"));
  run_lines (argument typeSeparator valueSeparator) argv.
End platform.
