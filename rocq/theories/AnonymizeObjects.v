(** AnonymizeObjects.v -- commands/anonymize/anonymize.py:122-143: the helpers that
    change objects in place.  The command does not call them; a program may. *)
From Verif Require Import Base Py Models.

(** ANONYMIZED, anonymize.py:17 *)
Definition ANONYMIZED : str := "Anonymized".
(** [attribute.value = v] *)
Definition set_value (v : attr_value) (a : spec_attr) : spec_attr :=
  SpecAttr (sa_type a) (sa_definition_ref a) v (sa_value_stripped_xhtml a) (sa_xml_node a).
(** _anonymize_attribute, anonymize.py:137-143; the assertion holds of every
    [spec_attr] *)
Definition anonymize_attribute (a : spec_attr) : spec_attr :=
  match sa_type a with
  | AT_STRING => set_value (VStr ANONYMIZED) a
  | AT_XHTML => set_value (VStr ("<xhtml:div>" ++ ANONYMIZED ++ "</xhtml:div>")) a
  | _ => a
  end.
(** _anonymize_spec_objects, anonymize.py:122-126.  Simplified: the
    objects are values, so the result is a new list; that a change is also seen
    through other references to the same object is not modelled. *)
Definition anonymize_spec_objects (l : list spec_object) : list spec_object :=
  map (fun o => SpecObject (so_identifier o) (map anonymize_attribute (so_attributes o)) (so_spec_object_type o)
                  (so_description o) (so_last_change o) (so_long_name o) (so_xml_node o)) l.
(** _anonymize_specifications, anonymize.py:128-135 *)
Definition anonymize_specification (s : specification) : specification :=
  Specification (sp_identifier s) (sp_description s) (sp_last_change s)
    (match sp_long_name s with
     | Some (_ :: _) => Some ANONYMIZED
     | other => other
     end)
    (match sp_values s with
     | Some vs => Some (map anonymize_attribute vs)
     | None => None
     end)
    (sp_specification_type s) (sp_children s) (sp_xml_node s).
(** _anonymize_specifications, anonymize.py:128-135 *)
Definition anonymize_specifications (l : list specification) : list specification := map anonymize_specification l.
