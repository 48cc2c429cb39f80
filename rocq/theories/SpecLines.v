(** SpecLines.v -- texts that differ only in how their lines end *)
From Verif Require Import Base.

(** [line_end e s]: [e], followed by [s], ends a line: CR LF, LF, or a CR that
    is not part of a CR LF. *)
Definition line_end (e s : str) : Prop :=
  e = [13; 10]%N \/ e = [10]%N \/ (e = [13]%N /\ hd_error s <> Some 10%N).
Inductive same_lines : str -> str -> Prop :=
| same_nil : same_lines [] []
| same_char c s t : c <> 10%N -> c <> 13%N -> same_lines s t -> same_lines (c :: s) (c :: t)
| same_end e e' s t : line_end e s -> line_end e' t -> same_lines s t -> same_lines (e ++ s) (e' ++ t).
(** the text with LF written as CR LF *)
Definition crlf (s : str) : str := flat_map (fun c => if N.eqb c 10 then [13; 10]%N else [c]) s.
