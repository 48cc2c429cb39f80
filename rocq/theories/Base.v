(** Base.v -- strings, literals, and the small parts of Python's [str], [dict]
    and [int] that reqif relies on.  Python's [str] is a list of code points. *)
From Coq Require Export List NArith ZArith Bool Lia.
From Coq.Init Require Import Byte.
From Coq.Strings Require Import Byte.
Export ListNotations.

Notation str := (list N).

(** String literals: "abc" denotes a list of code points (source text of this
    development is ASCII, so bytes are code points). *)
Definition str_of_bytes (l : list Byte.byte) : str := List.map Byte.to_N l.
(** the inverse of [str_of_bytes], for printing literals *)
Definition str_to_bytes (l : str) : option (list Byte.byte) :=
  List.fold_right
    (fun c acc => match Byte.of_N c, acc with
                  | Some b, Some r => Some (b :: r) | _, _ => None end)
    (Some nil) l.
Declare Scope str_scope.
Delimit Scope str_scope with str.
String Notation str str_of_bytes str_to_bytes : str_scope.
Global Open Scope str_scope.
Global Open Scope list_scope.

(** Line feed, used for the "\n" escapes of the Python sources. *)
Definition nl : str := [10%N].

(** ** Equality and membership on strings *)
Fixpoint str_eqb (a b : str) : bool :=
  match a, b with
  | [], [] => true
  | x :: a', y :: b' => N.eqb x y && str_eqb a' b'
  | _, _ => false
  end.

(** Optional strings (Python [Optional[str]]). *)
Definition ostr_eqb (a b : option str) : bool :=
  match a, b with
  | None, None => true
  | Some x, Some y => str_eqb x y
  | _, _ => false
  end.

(** [x in list] for lists of strings / optional strings. *)
Definition str_mem (x : str) (l : list str) : bool := existsb (str_eqb x) l.
(** the same for optional strings: [tag in tags], used for child tags (spec_object_parser.py:70-71) *)
Definition ostr_mem (x : option str) (l : list (option str)) : bool :=
  existsb (ostr_eqb x) l.

(** [s.startswith(p)] and [sub in s]. *)
Fixpoint starts_with (p s : str) : bool :=
  match p, s with
  | [], _ => true
  | x :: p', y :: s' => N.eqb x y && starts_with p' s'
  | _, _ => false
  end.
(** [sub in s] (data_type_parser.py:31, lxml.py:253) *)
Fixpoint contains (sub s : str) : bool :=
  starts_with sub s ||
  match s with [] => false | _ :: s' => contains sub s' end.

(** [s.endswith(p)]. *)
Definition ends_with (p s : str) : bool := starts_with (rev p) (rev s).

(** [s.replace(c, new)] for a one-character [c]: the only form reqif uses
    (helpers/lxml.py:23-31, helpers/string/escape.py:10-17, html.escape). *)
Definition replace_char (c : N) (new : str) (s : str) : str :=
  flat_map (fun x => if N.eqb x c then new else [x]) s.

(** Python's [str.isspace] characters, used by [strip]/[rstrip]. *)
Definition py_space (c : N) : bool :=
  (N.leb 9 c && N.leb c 13) || (N.leb 28 c && N.leb c 32) || N.eqb c 133
  || N.eqb c 160 || N.eqb c 5760 || (N.leb 8192 c && N.leb c 8202)
  || N.eqb c 8232 || N.eqb c 8233 || N.eqb c 8239 || N.eqb c 8287
  || N.eqb c 12288.

(** [s.lstrip()] *)
Fixpoint lstrip (s : str) : str :=
  match s with
  | [] => []
  | c :: s' => if py_space c then lstrip s' else s
  end.
(** [s.rstrip()] *)
Definition rstrip (s : str) : str := rev (lstrip (rev s)).
(** [s.strip()] (parser.py:173) *)
Definition strip (s : str) : str := rstrip (lstrip s).

(** [f"{x}"] for an optional string: [None] prints as "None". *)
Definition fmt (o : option str) : str :=
  match o with Some s => s | None => "None" end.

(** Python truthiness of an optional string: [if x:]. *)
Definition truthy (o : option str) : bool :=
  match o with Some (_ :: _) => true | _ => false end.

(** [" ".join(l)]. *)
Fixpoint join (sep : str) (l : list str) : str :=
  match l with
  | [] => []
  | [x] => x
  | x :: l' => x ++ sep ++ join sep l'
  end.

(** [" " * n]. *)
Definition spaces (n : nat) : str := repeat 32%N n.

(** ** Python dictionaries with (optional) string keys: insertion ordered,
    overwriting keeps the position of the key. *)
Definition dict (V : Type) := list (option str * V).

(** [d.get(k)] *)
Fixpoint dict_get {V} (d : dict V) (k : option str) : option V :=
  match d with
  | [] => None
  | (k', v) :: d' => if ostr_eqb k k' then Some v else dict_get d' k
  end.
(** [d[k] = v] *)
Fixpoint dict_set {V} (d : dict V) (k : option str) (v : V) : dict V :=
  match d with
  | [] => [(k, v)]
  | (k', v') :: d' =>
      if ostr_eqb k k' then (k', v) :: d' else (k', v') :: dict_set d' k v
  end.
(** [k in d] *)
Definition dict_mem {V} (d : dict V) (k : option str) : bool :=
  match dict_get d k with Some _ => true | None => false end.
(** [list(d)] *)
Definition dict_keys {V} (d : dict V) : list (option str) := map fst d.
(** [list(d.values())] *)
Definition dict_values {V} (d : dict V) : list V := map snd d.

(** ** Decimal numbers *)
Fixpoint dec_digits (fuel : nat) (n : N) (acc : str) : str :=
  match fuel with
  | O => acc
  | S f =>
      let d := (48 + N.modulo n 10)%N in
      let q := N.div n 10 in
      if N.eqb q 0 then d :: acc else dec_digits f q (d :: acc)
  end.
(** [str(n)] for a natural number; the fuel (binary size + 1) always suffices. *)
Definition str_of_N (n : N) : str := dec_digits (S (N.to_nat (N.size n))) n [].
(** [str(z)]. *)
Definition str_of_Z (z : Z) : str :=
  match z with
  | Z0 => str_of_N 0
  | Zpos p => str_of_N (Npos p)
  | Zneg p => 45%N :: str_of_N (Npos p)
  end.

(** ASCII digits *)
Definition is_digit (c : N) : bool := N.leb 48 c && N.leb c 57.

(** str.isdecimal: the decimal digits of Unicode 14 (Python 3.11), in runs of ten
    that begin with these zeros *)
Definition digit_zeros : list N :=
  [48; 1632; 1776; 1984; 2406; 2534; 2662; 2790; 2918; 3046; 3174; 3302; 3430; 3558; 3664; 3792; 3872; 4160; 4240; 6112; 6160;
   6470; 6608; 6784; 6800; 6992; 7088; 7232; 7248; 42528; 43216; 43264; 43472; 43504; 43600; 44016; 65296; 66720; 68912; 69734;
   69872; 69942; 70096; 70384; 70736; 70864; 71248; 71360; 71472; 71904; 72016; 72784; 73040; 73120; 92768; 92864; 93008; 120782;
   120792; 120802; 120812; 120822; 123200; 123632; 125264; 130032]%N.
(** the value of a decimal digit *)
Definition digit_value (c : N) : option N :=
  option_map (fun z => (c - z)%N) (find (fun z => N.leb z c && N.leb c (z + 9)) digit_zeros).
(** [c.isdecimal()] *)
Definition is_decimal (c : N) : bool := match digit_value c with Some _ => true | None => false end.
(** White space around the number: str.isspace without U+001C to U+001F
    (_PyUnicode_TransformDecimalAndSpaceToASCII and Py_ISSPACE) *)
Definition int_space (c : N) : bool := py_space c && negb (N.leb 28 c && N.leb c 31).
(** leading white space of a number *)
Fixpoint drop_blanks (s : str) : str :=
  match s with
  | [] => []
  | c :: s' => if int_space c then drop_blanks s' else s
  end.
(** [int(s)] (data_type_parser.py:126).  Python accepts surrounding blanks, a
    sign, decimal digits and single underscores between digits.  Simplified: no
    limit of 4300 digits. *)
Fixpoint int_digits (s : str) (acc : N) (prev_digit : bool) : option N :=
  match s with
  | [] => if prev_digit then Some acc else None
  | c :: s' =>
      match digit_value c with
      | Some v => int_digits s' (acc * 10 + v)%N true
      | None =>
          if N.eqb c 95 && prev_digit
          then match s' with
               | d :: _ => if is_decimal d then int_digits s' acc false else None
               | [] => None
               end
          else None
      end
  end.
(** [int(s)]: the sign, then the digits (data_type_parser.py:126) *)
Definition py_int (s : str) : option Z :=
  match rev (drop_blanks (rev (drop_blanks s))) with
  | [] => None
  | c :: s' =>
      if N.eqb c 45 then option_map (fun n => Z.opp (Z.of_N n)) (int_digits s' 0 false)
      else if N.eqb c 43 then option_map Z.of_N (int_digits s' 0 false)
      else option_map Z.of_N (int_digits (c :: s') 0 false)
  end.

(** ** Lists *)
Definition map_opt {A B} (f : A -> option B) : list A -> option (list B) :=
  fix go (l : list A) : option (list B) :=
    match l with
    | [] => Some []
    | x :: l' =>
        match f x, go l' with
        | Some y, Some ys => Some (y :: ys)
        | _, _ => None
        end
    end.

(** Longest prefix satisfying a test. *)
Fixpoint take_while {A} (f : A -> bool) (l : list A) : list A :=
  match l with
  | [] => []
  | x :: l' => if f x then x :: take_while f l' else []
  end.
