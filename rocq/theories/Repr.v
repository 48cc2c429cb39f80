(** Repr.v -- how a list of references is shown: jinja2 renders
    {{attribute.value}} (reqif/commands/dump/templates/index.jinja.html:131) with
    str(), which for a list is Python's repr.  Modelled after CPython's
    unicode_repr and list_repr, since the code relies on them. *)
From Verif Require Import Base.

(** a hexadecimal digit, lower case *)
Definition hex_char (n : N) : N := if N.ltb n 10 then (48 + n)%N else (87 + n)%N.
(** [k] digits *)
Fixpoint hex_fixed (k : nat) (n : N) : str :=
  match k with O => [] | S k' => hex_fixed k' (n / 16) ++ [hex_char (n mod 16)] end.

Section Repr.
(** str.isprintable of a single character beyond ASCII, from the Unicode database *)
Variable printable : N -> bool.
(** unicode_repr, one character of a string written with the quotation mark [q] *)
Definition repr_char (q c : N) : str :=
  if N.eqb c q || N.eqb c 92 then [92%N; c]
  else if N.eqb c 9 then "\t"
  else if N.eqb c 10 then "\n"
  else if N.eqb c 13 then "\r"
  else if N.ltb c 32 || N.eqb c 127 then "\x" ++ hex_fixed 2 c
  else if N.ltb c 127 then [c]
  else if printable c then [c]
  else if N.leb c 255 then "\x" ++ hex_fixed 2 c
  else if N.leb c 65535 then "\u" ++ hex_fixed 4 c
  else "\U" ++ hex_fixed 8 c.
(** double quotation marks if there is a single one and no double one in it *)
Definition repr_mark (s : str) : N :=
  if existsb (N.eqb 39) s && negb (existsb (N.eqb 34) s) then 34%N else 39%N.
Definition py_repr (s : str) : str := repr_mark s :: flat_map (repr_char (repr_mark s)) s ++ [repr_mark s].
(** list_repr; the items are strings or None *)
Definition repr_item (o : option str) : str := match o with Some s => py_repr s | None => "None" end.
Definition py_repr_list (l : list (option str)) : str := "[" ++ join ", " (map repr_item l) ++ "]".
End Repr.
