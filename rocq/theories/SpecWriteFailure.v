(** SpecWriteFailure.v -- which exception writing a bundle raises: the
    requirements of each element in the order in which they are looked at, in
    the style of SpecFailure.  Nothing is assumed about where the bundle comes
    from. *)
From Verif Require Import Base Xml Lxml Py Models SpecAccept SpecFailure.

(** the children an element is written with: those of the XML element it was
    read from, or the usual ones if it was not read from a file *)
Definition layout (n : option node) (usual : list str) : list (option str) :=
  match n with Some x => map tag (children x) | None => map Some usual end.
Definition is_tag (t : str) (o : option str) : bool :=
  match o with Some x => str_eqb x t | None => false end.
Definition laid_out (t : str) (l : list (option str)) : bool := existsb (is_tag t) l.

Definition namespace_writing (i : namespace_info) : list requirement :=
  [(existsb present [ni_dump i; ni_namespace i; ni_schema_namespace i; ni_configuration i; ni_namespace_id i;
                     ni_namespace_xhtml i; ni_schema_location i; ni_language i], EAssertionError)].
Definition header_writing (h : header) : list requirement :=
  [(match hd_identifier h with Some (_ :: _) => true | _ => false end, ENotImplementedError)].

(** the kinds of default values that are written with their definition *)
Definition names_definition (t : attr_type) : bool :=
  match t with AT_ENUMERATION | AT_XHTML | AT_BOOLEAN => true | _ => false end.
Definition default_writing (a : attr_def) : list requirement :=
  match ad_default_value a with
  | DVStr _ => if names_definition (ad_type a)
               then [(present (ad_default_value_definition_ref a), EAssertionError)] else []
  | _ => []
  end.
Definition attr_def_writing (a : attr_def) : list requirement :=
  flat_map (fun t => if is_tag "DEFAULT-VALUE" t then default_writing a
                     else [(is_tag "TYPE" t, ENotImplementedError)])
           (layout (ad_xml_node a) ["DEFAULT-VALUE"; "TYPE"]).
Definition attributes_of_type (t : spec_type) : list attr_def :=
  match (match t with
         | STObject x => sot_attribute_definitions x
         | STRelation x => srt_attribute_definitions x
         | STSpecification x => spt_spec_attributes x
         | STGroup x => rgt_attribute_definitions x
         end) with Some l => l | None => [] end.
Definition spec_type_writing (t : spec_type) : list requirement := flat_map attr_def_writing (attributes_of_type t).

Definition is_list (v : attr_value) : bool := match v with VList _ => true | VStr _ => false end.
Definition attr_value_writing (a : spec_attr) : list requirement :=
  match sa_type a with
  | AT_ENUMERATION =>
      let l := layout (sa_xml_node a) ["VALUES"; "DEFINITION"] in
      [(laid_out "VALUES" l, EValueError); (laid_out "DEFINITION" l, EValueError); (is_list (sa_value a), EAssertionError)]
  | _ => [(negb (is_list (sa_value a)), EAssertionError)]
  end.
Definition spec_object_writing (o : spec_object) : list requirement :=
  let l := layout (so_xml_node o) ["VALUES"; "TYPE"] in
  [(laid_out "VALUES" l, EAssertionError); (laid_out "TYPE" l, EAssertionError)]
  ++ flat_map attr_value_writing (so_attributes o).
Definition spec_relation_writing (r : spec_relation) : list requirement :=
  flat_map (fun t => if is_tag "VALUES" t
                     then match sr_values_attribute r with Some a => attr_value_writing a | None => [] end
                     else [(existsb (fun x => is_tag x t) ["TYPE"; "SOURCE"; "TARGET"], ENotImplementedError)])
           (layout (sr_xml_node r) ["TYPE"; "SOURCE"; "TARGET"; "VALUES"]).
(** a hierarchy and those below it: levels count from 1 *)
Fixpoint hierarchy_writing (h : hier) : list requirement :=
  (0 <? h_level h, EAssertionError)
  :: match h with
     | Hier _ _ _ (Some l) _ _ _ _ _ _ _ => flat_map hierarchy_writing l
     | _ => []
     end.
Definition specification_writing (s : specification) : list requirement :=
  flat_map (fun t => if is_tag "CHILDREN" t
                     then match sp_children s with Some l => flat_map hierarchy_writing l | None => [] end
                     else if is_tag "VALUES" t
                     then match sp_values s with Some l => flat_map attr_value_writing l | None => [] end
                     else [])
           (layout (sp_xml_node s) ["TYPE"; "CHILDREN"; "VALUES"]).

Definition opt_list {A} (o : option (list A)) : list A := match o with Some l => l | None => [] end.
(** Data types and relation groups are always written. *)
Definition content_writing (c : content) : list requirement :=
  flat_map spec_type_writing (opt_list (rc_spec_types c))
  ++ flat_map spec_object_writing (opt_list (rc_spec_objects c))
  ++ flat_map spec_relation_writing (opt_list (rc_spec_relations c))
  ++ flat_map specification_writing (opt_list (rc_specifications c)).
Definition bundle_writing (b : bundle) : list requirement :=
  namespace_writing (b_namespace_info b)
  ++ match b_header b with Some h => header_writing h | None => [] end
  ++ match b_core_content b with Some (Some c) => content_writing c | _ => [] end.

(** the exception that writing a bundle ends with *)
Definition write_failure (b : bundle) : option exn := first_unmet (bundle_writing b).
