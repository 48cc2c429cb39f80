(** SpecObjectTexts.v -- objects that differ only in the texts anonymizing should hide *)
From Verif Require Import Base Lxml Models.

(** the values that are free texts *)
Definition free_text (t : attr_type) : Prop := t = AT_STRING \/ t = AT_XHTML.
(** the order in which the children of the element were found, if there was one *)
Definition layout (n : option node) : option (list (option str)) := option_map (fun x => map tag (children x)) n.

(** A free text may differ, and so may the element it was read from *)
Definition same_but_text (a a' : spec_attr) : Prop :=
  sa_type a = sa_type a' /\ sa_definition_ref a = sa_definition_ref a'
  /\ (free_text (sa_type a) \/ (sa_value a = sa_value a' /\ sa_xml_node a = sa_xml_node a')).
Definition same_object_but_texts (o o' : spec_object) : Prop :=
  so_identifier o = so_identifier o' /\ so_description o = so_description o' /\ so_last_change o = so_last_change o'
  /\ so_long_name o = so_long_name o' /\ so_spec_object_type o = so_spec_object_type o'
  /\ layout (so_xml_node o) = layout (so_xml_node o')
  /\ Forall2 same_but_text (so_attributes o) (so_attributes o').
Definition both {A} (R : A -> A -> Prop) (o o' : option A) : Prop :=
  match o, o' with Some x, Some y => R x y | None, None => True | _, _ => False end.
(** The names of specifications may differ if there are any *)
Definition same_specification_but_texts (s s' : specification) : Prop :=
  sp_identifier s = sp_identifier s' /\ sp_description s = sp_description s' /\ sp_last_change s = sp_last_change s'
  /\ both (fun n n' => n = [] <-> n' = []) (sp_long_name s) (sp_long_name s')
  /\ sp_specification_type s = sp_specification_type s' /\ sp_children s = sp_children s'
  /\ layout (sp_xml_node s) = layout (sp_xml_node s')
  /\ both (Forall2 same_but_text) (sp_values s) (sp_values s').
