(** SpecEscape.v -- escaping as one simultaneous substitution *)
From Verif Require Import Base Xml.

Fixpoint entry (c : N) (t : list (N * str)) : option str :=
  match t with
  | [] => None
  | (c', e) :: t' => if N.eqb c c' then Some e else entry c t'
  end.
(** Every character that has an entry is replaced by it, once; the others stay. *)
Definition substitute (t : list (N * str)) (s : str) : str :=
  flat_map (fun c => match entry c t with Some e => e | None => [c] end) s.

(** & < > double quote, single quote; no-break space; tab *)
Definition markup_table : list (N * str) :=
  [(38, "&amp;"); (60, "&lt;"); (62, "&gt;"); (34, "&quot;"); (39, "&#x27;")]%N.
Definition lxml_table : list (N * str) := markup_table ++ [(160, "&#xA0;"); (9, "&#9;")]%N.
Definition reqif_table : list (N * str) := markup_table ++ [(9, "&#9;")]%N.

(** Texts of XML characters without the given ones. *)
Definition xml_text_without (bad : list N) (s : str) : Prop :=
  Forall (fun c => is_xml_char c = true /\ ~ In c bad) s.
