(** SpecIndent.v -- texts without surrounding white space, and lines *)
From Verif Require Import Base.

(** What str.isspace holds of: white space in Unicode, by number. *)
Definition python_blanks : list N :=
  [9; 10; 11; 12; 13; 28; 29; 30; 31; 32; 133; 160; 5760; 8192; 8193; 8194; 8195; 8196; 8197; 8198; 8199; 8200;
   8201; 8202; 8232; 8233; 8239; 8287; 12288]%N.
Definition python_blank (c : N) : Prop := In c python_blanks.
(** [t] is [s] without the white space at both ends. *)
Definition trimmed (s t : str) : Prop :=
  exists a b, s = a ++ t ++ b /\ Forall python_blank a /\ Forall python_blank b
    /\ (forall c r, t = c :: r -> ~ python_blank c) /\ (forall c r, t = r ++ [c] -> ~ python_blank c).
Definition run_of_16_spaces (t : str) : Prop := exists a b, t = a ++ repeat 32%N 16 ++ b.
(** lines separated by line feeds *)
Fixpoint joined (lines : list str) : str :=
  match lines with
  | [] => []
  | [l] => l
  | l :: lines' => l ++ nl ++ joined lines'
  end.
Definition is_line (l : str) : Prop := ~ In 10%N l.
