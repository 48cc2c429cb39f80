(** SpecRepr.v -- lists of strings in the syntax of Python
    (The Python Language Reference, 2.4.1 and 6.2.5) *)
From Verif Require Import Base.

(** the value of hexadecimal digits *)
Definition hex_digit (c v : N) : Prop :=
  ((48 <= c <= 57 /\ v = c - 48) \/ (97 <= c <= 102 /\ v = c - 87) \/ (65 <= c <= 70 /\ v = c - 55))%N.
Inductive hex_number : str -> N -> Prop :=
| hex_none : hex_number [] 0
| hex_more ds n c v : hex_number ds n -> hex_digit c v -> hex_number (ds ++ [c]) (16 * n + v)%N.

(** [literal q t s]: between quotation marks [q], the text [t] denotes the string [s] *)
Inductive literal (q : N) : str -> str -> Prop :=
| lit_end : literal q [] []
| lit_char c t s : c <> q -> c <> 92%N -> c <> 10%N -> literal q t s -> literal q (c :: t) (c :: s)
| lit_same c t s : c = 92%N \/ c = 39%N \/ c = 34%N -> literal q t s -> literal q (92%N :: c :: t) (c :: s)
| lit_tab t s : literal q t s -> literal q ("\t" ++ t) (9%N :: s)
| lit_line t s : literal q t s -> literal q ("\n" ++ t) (10%N :: s)
| lit_return t s : literal q t s -> literal q ("\r" ++ t) (13%N :: s)
| lit_hex ds c t s : length ds = 2 -> hex_number ds c -> literal q t s -> literal q ("\x" ++ ds ++ t) (c :: s)
| lit_short ds c t s : length ds = 4 -> hex_number ds c -> literal q t s -> literal q ("\u" ++ ds ++ t) (c :: s)
| lit_long ds c t s : length ds = 8 -> hex_number ds c -> literal q t s -> literal q ("\U" ++ ds ++ t) (c :: s).
(** None, or a string in quotation marks *)
Inductive item : str -> option str -> Prop :=
| item_none : item "None" None
| item_string q t s : q = 39%N \/ q = 34%N -> literal q t s -> item (q :: t ++ [q]) (Some s).
(** a list of these *)
Definition list_display (t : str) (l : list (option str)) : Prop :=
  exists items, Forall2 item items l /\ t = "[" ++ join ", " items ++ "]".
(** on one line, and to be seen *)
Definition legible (printable : N -> bool) (t : str) : Prop :=
  forall c, In c t -> (32 <= c < 127)%N \/ (127 < c)%N /\ printable c = true.
