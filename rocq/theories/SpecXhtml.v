(** SpecXhtml.v -- XHTML content, independently of how it is stored *)
From Verif Require Import Base Xml SpecEscape.

(** A forest of characters and elements; all elements are in the XHTML
    namespace, attributes in none. *)
Inductive xh : Type :=
| XT (c : N)
| XE (name : str) (attrs : list (str * str)) (kids : list xh).

(** Names without colon, and lists of distinct names usable for attributes. *)
Definition plain_name (s : str) : bool :=
  (match s with c :: s' => is_name_start c && forallb is_name_char s' | [] => false end)
  && negb (existsb (N.eqb 58) s).
Fixpoint distinct (l : list str) : bool :=
  match l with [] => true | x :: l' => negb (str_mem x l') && distinct l' end.
Definition attr_names (l : list str) : bool :=
  forallb (fun k => plain_name k && negb (str_eqb k "xmlns")) l && distinct l.

(** XML characters without carriage return; attribute values on one line *)
Fixpoint xh_ok (x : xh) : Prop :=
  match x with
  | XT c => is_xml_char c = true /\ c <> 13%N
  | XE n attrs kids =>
      plain_name n = true /\ attr_names (map fst attrs) = true
      /\ Forall (fun kv => xml_text_without [10; 13]%N (snd kv)) attrs
      /\ (fix all ks := match ks with [] => True | k :: ks' => xh_ok k /\ all ks' end) kids
  end.
Definition forest_ok (f : list xh) : Prop := Forall xh_ok f.

(** The text of a forest whose elements carry the prefix [p] (no prefix when
    it is empty).  [closed] says which childless elements get an explicit
    closing tag. *)
Definition show_attrs (l : list (str * str)) : str :=
  flat_map (fun kv => " " ++ fst kv ++ "=""" ++ substitute lxml_table (snd kv) ++ """") l.
Fixpoint show_node (closed : str -> bool) (p : str) (x : xh) : str :=
  match x with
  | XT c => substitute lxml_table [c]
  | XE n attrs kids =>
      "<" ++ p ++ n ++ show_attrs attrs
      ++ (if match kids with [] => closed n | _ => true end
          then ">" ++ flat_map (show_node closed p) kids ++ "</" ++ p ++ n ++ ">"
          else "/>")
  end.
Definition show_forest (closed : str -> bool) (p : str) (f : list xh) : str :=
  flat_map (show_node closed p) f.
(** with the prefix of the document: childless elements are self-closed *)
Definition show (p : str) (f : list xh) : str := show_forest (fun _ => false) (p ++ ":") f.

(** Without prefix: a childless object element is closed explicitly, in upper
    or lower case. *)
Definition lower (c : N) : N := if (N.leb 65 c && N.leb c 90)%bool then (c + 32)%N else c.
Definition is_object (n : str) : bool := str_eqb (map lower n) "object".
Definition bare (f : list xh) : str := show_forest is_object [] f.

(** The text before the first element, and the elements with the text that
    follows each. *)
Fixpoint leading (f : list xh) : str :=
  match f with XT c :: f' => c :: leading f' | _ => [] end.
Fixpoint followed (f : list xh) : list (xh * str) :=
  match f with
  | [] => []
  | XT _ :: f' => followed f'
  | x :: f' => (x, leading f') :: followed f'
  end.
(** What the code makes of a forest without prefix: the leading text is not
    escaped, and the text after each element comes twice, escaped and not. *)
Definition bare_doubled (f : list xh) : str :=
  leading f ++ flat_map (fun kt => show_node is_object [] (fst kt)
                                   ++ substitute lxml_table (snd kt) ++ snd kt) (followed f).

Definition is_text (x : xh) : bool := match x with XT _ => true | _ => false end.
Definition has_markup (f : list xh) : bool := existsb (fun x => negb (is_text x)) f.

(** What an XML reader sees of a forest with the prefix [p] *)
Fixpoint named (p : str) (x : xh) : xnode :=
  match x with
  | XT c => XChar c
  | XE n attrs kids => XElem (p ++ ":" ++ n) attrs (map (named p) kids)
  end.
