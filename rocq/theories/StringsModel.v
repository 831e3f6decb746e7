(** * Model of GeDiM/src/IO/StringsUtilities.cpp and GeDiM/src/IO/ImportExportUtilities.hpp on lists of characters.

    Locale "C"; text in ASCII. *)
From Verif Require Export Base.
From Coq Require Export Ascii.
From Coq Require Import Decimal DecimalN.
Local Open Scope nat_scope.


Notation text := (list Ascii.ascii).
Definition txt (s : string) : text := String.list_ascii_of_string s.

Definition code (c : ascii) : N := Ascii.N_of_ascii c.
Definition is_space (c : ascii) : bool := ((9 <=? code c)%N && (code c <=? 13)%N) || (code c =? 32)%N.
Definition is_digit (c : ascii) : bool := (48 <=? code c)%N && (code c <=? 57)%N.
Definition digit_value (c : ascii) : N := (code c - 48)%N.

(** [std::tolower] and [std::toupper]; ToLower and ToUpper, StringsUtilities.cpp:101-115. *)
Definition lower (c : ascii) : ascii := if ((65 <=? code c)%N && (code c <=? 90)%N) then Ascii.ascii_of_N (code c + 32) else c.
Definition upper (c : ascii) : ascii := if ((97 <=? code c)%N && (code c <=? 122)%N) then Ascii.ascii_of_N (code c - 32) else c.
Definition ToLower (s : text) : text := map lower s.
Definition ToUpper (s : text) : text := map upper s.

(** Split by one character, StringsUtilities.cpp:24-34.  [getline] takes the characters up to the separator; it fails, which
    ends the loop, when no character at all is left.  [line] is what the current [getline] has taken so far. *)
Fixpoint split_loop (c : ascii) (line : text) (s : text) : list text :=
  match s with
  | [] => match line with [] => [] | _ => [line] end
  | x :: s' => if decide (x = c) then line :: split_loop c [] s' else split_loop c (line ++ [x]) s'
  end.
Definition Split (s : text) (c : ascii) : list text := split_loop c [] s.

(** Split by several characters, one after the other, 36-62. *)
Definition SplitMany (s : text) (characters : list ascii) : list text :=
  fold_left (fun strings c => concat (map (fun t => Split t c) strings)) characters [s].

(** [std::string::find]: the first position where the key occurs. *)
Fixpoint find_text (key s : text) : option nat :=
  if decide (take (length key) s = key) then Some 0
  else match s with [] => None | _ :: s' => S <$> find_text key s' end.

(** FindSeparator, 64-99; positions are [size_t], so the differences wrap. *)
Definition size_sub (a b : nat) : Z := ((Z.of_nat a - Z.of_nat b) `mod` 18446744073709551616)%Z.
Definition FindSeparator (s keyOne keyTwo : text) : outcome ascii :=
  match find_text keyOne s with
  | None => Throw
  | Some one =>
      match find_text keyTwo s with
      | None => Throw
      | Some two =>
          if two =? one then Throw
          else if one <? two then
            let p := length keyOne + one in
            if negb (size_sub two p =? 1)%Z then Throw else vget s p
          else
            let p := length keyTwo + two in
            if negb (size_sub one p =? 1)%Z then Throw else vget s p
      end
  end.

(** The decimal number at the beginning of a text, and what follows it. *)
Fixpoint digits_from (acc : N) (s : text) : N * text :=
  match s with
  | c :: s' => if is_digit c then digits_from (10 * acc + digit_value c)%N s' else (acc, s)
  | [] => (acc, [])
  end.
Fixpoint skip_spaces (s : text) : text :=
  match s with c :: s' => if is_space c then skip_spaces s' else s | [] => [] end.
Definition minus : ascii := "-"%char.
Definition plus : ascii := "+"%char.

(** [strtol] with base 10 without its range check: the number and what follows, when there is at least one digit. *)
Definition strtol (s : text) : option (Z * text) :=
  let s1 := skip_spaces s in
  let '(negative, s2) := match s1 with
                         | c :: s' => if decide (c = minus) then (true, s') else if decide (c = plus) then (false, s') else (false, s1)
                         | [] => (false, s1)
                         end in
  match s2 with
  | c :: _ => if is_digit c then let '(n, rest) := digits_from 0 s2 in
                Some ((if negative : bool then - Z.of_N n else Z.of_N n)%Z, rest) else None
  | [] => None
  end.

Definition int_range (z : Z) : bool := (-2147483648 <=? z)%Z && (z <=? 2147483647)%Z.

(** [std::stoi]: [invalid_argument] without digits, [out_of_range] out of the range of [int]; what follows is ignored. *)
Definition stoi (s : text) : outcome Z :=
  match strtol s with
  | Some (z, _) => if int_range z then Ok z else Throw
  | None => Throw
  end.

(** The Parse functions, 117-165. *)
Definition ParseChar (s : text) : ascii := match s with c :: _ => c | [] => Ascii.zero end.
Definition ParseInt (s : text) : outcome Z := stoi s.
Definition ParseUInt (s : text) : outcome N := z ← stoi s; Ok (Z.to_N (z `mod` 4294967296)).
Definition ParseBool (s : text) : outcome bool :=
  let l := ToLower s in
  if bool_decide (l = txt "false") || bool_decide (l = txt "f") || bool_decide (l = txt "0") then Ok false
  else if bool_decide (l = txt "true") || bool_decide (l = txt "t") || bool_decide (l = txt "1") then Ok true
  else Throw.

(** Parse of vectors, 168-225: [parse] is the Parse function of the elements. *)
Definition vector_separators : list ascii := ["["; ","; ";"; "]"; " "]%char.
Definition ParseVector {T} (parse : text -> outcome T) (s : text) : outcome (list T) :=
  omapM parse (SplitMany s vector_separators).

(** Parse of sets, 228-244, as the increasing list of the elements. *)
Fixpoint set_insert (x : N) (l : list N) : list N :=
  match l with
  | [] => [x]
  | y :: l' => if (x <? y)%N then x :: l else if (y <? x)%N then y :: set_insert x l' else l
  end.
Definition ParseSetUInt (s : text) : outcome (list N) :=
  numbers ← omapM ParseUInt (SplitMany s vector_separators);
  Ok (fold_left (fun l x => set_insert x l) numbers []).

(** Decimal output of integers. *)
Fixpoint uint_text (d : Decimal.uint) : text :=
  match d with
  | Nil => []
  | D0 d => "0"%char :: uint_text d | D1 d => "1"%char :: uint_text d | D2 d => "2"%char :: uint_text d
  | D3 d => "3"%char :: uint_text d | D4 d => "4"%char :: uint_text d | D5 d => "5"%char :: uint_text d
  | D6 d => "6"%char :: uint_text d | D7 d => "7"%char :: uint_text d | D8 d => "8"%char :: uint_text d
  | D9 d => "9"%char :: uint_text d
  end.
Definition show_N (n : N) : text := uint_text (N.to_uint n).
Definition show_Z (z : Z) : text := if (z <? 0)%Z then minus :: show_N (Z.to_N (- z)) else show_N (Z.to_N z).

(** ** Streams

    [in >> x] gives the value and what is left, or [None] when the stream fails. *)
Definition get_char (s : text) : option (ascii * text) :=
  match skip_spaces s with [] => None | c :: s' => Some (c, s') end.
Definition get_int (s : text) : option (Z * text) :=
  match strtol s with Some (z, rest) => if int_range z then Some (z, rest) else None | None => None end.
Definition get_unsigned (s : text) : option (nat * text) :=
  match strtol s with
  | Some (z, rest) => if (Z.abs z <=? 4294967295)%Z then Some (Z.to_nat (z `mod` 4294967296), rest) else None
  | None => None
  end.

(** [operator<<] of a vector (also of an array), ImportExportUtilities.hpp:37-65. *)
Fixpoint put_elements {T} (put : T -> text) (separator : text) (first : bool) (v : list T) : text :=
  match v with
  | [] => []
  | x :: v' => (if first then [] else separator) ++ put x ++ put_elements put separator false v'
  end.
Definition put_vector {T} (put : T -> text) (v : list T) : text :=
  show_N (N.of_nat (length v)) ++ txt "," ++ txt "{" ++ put_elements put (txt ",") true v ++ txt "}".

(** [operator>>] of a vector, 117-138 (of an array 95-115); [get] is [operator>>] of the elements. *)
Fixpoint get_elements {T} (get : text -> option (T * text)) (n : nat) (s : text) : option (list T * text) :=
  match n with
  | 0 => Some ([], s)
  | S n => '(x, s) ← get s; '(_, s) ← get_char s; '(v, s) ← get_elements get n s; Some (x :: v, s)
  end.
Definition get_vector {T} (get : text -> option (T * text)) (s : text) : option (list T * text) :=
  '(size, s) ← get_unsigned s;
  '(_, s) ← get_char s;
  '(_, s) ← get_char s;
  '(v, s) ← get_elements get size s;
  if size =? 0 then '(_, s) ← get_char s; Some (v, s) else Some (v, s).

(** A matrix with dynamic sizes; the entries by columns. *)
Record matrix T := Matrix { mrows : nat; mcols : nat; mcolumns : list (list T) }.
Arguments Matrix {_} _ _ _. Arguments mrows {_} _. Arguments mcols {_} _. Arguments mcolumns {_} _.

(** [operator<<] of a matrix, 20-35. *)
Fixpoint put_columns {T} (put : T -> text) (first : bool) (l : list (list T)) : text :=
  match l with
  | [] => []
  | c :: l' => (if first then txt "{" else txt ",{") ++ put_elements put (txt ", ") true c ++ txt "}" ++ put_columns put false l'
  end.
Definition put_matrix {T} (put : T -> text) (m : matrix T) : text :=
  show_N (N.of_nat (mrows m)) ++ txt "," ++ show_N (N.of_nat (mcols m)) ++ txt "," ++ txt "{" ++
  put_columns put true (mcolumns m) ++ txt "}".

(** [operator>>] of a matrix, 67-93. *)
Fixpoint get_columns {T} (get : text -> option (T * text)) (rows cols : nat) (s : text) : option (list (list T) * text) :=
  match cols with
  | 0 => Some ([], s)
  | S cols => '(_, s) ← get_char s;
              '(c, s) ← get_elements get rows s;
              '(_, s) ← get_char s;
              '(l, s) ← get_columns get rows cols s;
              Some (c :: l, s)
  end.
Definition get_matrix {T} (get : text -> option (T * text)) (s : text) : option (matrix T * text) :=
  '(rows, s) ← get_unsigned s;
  '(_, s) ← get_char s;
  '(cols, s) ← get_unsigned s;
  '(_, s) ← get_char s;
  '(_, s) ← get_char s;
  '(l, s) ← get_columns get rows cols s;
  if cols =? 0 then '(_, s) ← get_char s; Some (Matrix rows cols l, s) else Some (Matrix rows cols l, s).
