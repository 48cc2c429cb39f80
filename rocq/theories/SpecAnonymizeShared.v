(** SpecAnonymizeShared.v -- a document whose objects have their texts hidden *)
From Verif Require Import Base Py Models.

(** The attribute with its text hidden *)
Definition covered_attribute (a : spec_attr) : spec_attr :=
  SpecAttr (sa_type a) (sa_definition_ref a)
    (match sa_type a with
     | AT_STRING => VStr "Anonymized"
     | AT_XHTML => VStr "<xhtml:div>Anonymized</xhtml:div>"
     | _ => sa_value a
     end) (sa_value_stripped_xhtml a) (sa_xml_node a).
(** The object with all its texts hidden *)
Definition covered (o : spec_object) : spec_object :=
  SpecObject (so_identifier o) (map covered_attribute (so_attributes o)) (so_spec_object_type o) (so_description o)
             (so_last_change o) (so_long_name o) (so_xml_node o).
(** The document with all its objects covered, in the list and in the lookup *)
Definition covered_content (c : content) : content :=
  Content (rc_data_types c) (rc_spec_types c) (option_map (map covered) (rc_spec_objects c))
          (rc_spec_relations c) (rc_specifications c) (rc_spec_relation_groups c).
Definition covered_bundle (b : bundle) : bundle :=
  Bundle (b_namespace_info b) (b_header b) (option_map (option_map covered_content) (b_core_content b)) (b_tool_extensions b)
    (Lookup (lk_data_types (b_lookup b)) (lk_spec_types (b_lookup b))
            (map (fun e => (fst e, covered (snd e))) (lk_spec_objects (b_lookup b)))
            (lk_parents (b_lookup b)) (lk_parents_default (b_lookup b)))
    (b_exceptions b).
