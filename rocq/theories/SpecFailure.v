(** SpecFailure.v -- which exception a document that is not accepted raises.
    Each element comes with a list of requirements in the order in which they
    are looked at; the first one that is not met decides.  The requirements are
    stated with the vocabulary of SpecAccept. *)
From Verif Require Import Base Xml Utf8 Lxml Py Models Progress Parser SpecParse SpecAccept.

Definition requirement := (bool * exn)%type.
Fixpoint first_unmet (l : list requirement) : option exn :=
  match l with
  | [] => None
  | (true, _) :: l' => first_unmet l'
  | (false, e) :: _ => Some e
  end.
(** the children of the section [t]; none if there is no such section *)
Definition items (t : str) (n : node) : list node :=
  match section_items t n with Some ks => ks | None => [] end.
Definition is_element (n : node) : bool := present (tag n).
Definition some_namespace (n : node) : bool := match node_nsmap n with [] => false | _ => true end.
(** the requirements of the element at the end of a path of child tags *)
Definition below (p : list str) (f : node -> list requirement) (n : node) : list requirement :=
  match path_node p n with Some k => f k | None => [] end.

Definition header_needs (n : node) : list requirement :=
  [(at_path ["REQ-IF-HEADER"] (has_attr "IDENTIFIER") n, ENotImplementedError)].

Definition enum_value_needs (n : node) : list requirement :=
  [(has_attr "IDENTIFIER" n, EKeyError);
   (has_path ["PROPERTIES"; "EMBEDDED-VALUE"] n, EAttributeError);
   (at_path ["PROPERTIES"; "EMBEDDED-VALUE"] (has_attr "KEY") n, EKeyError)].
Definition data_type_needs (n : node) : list requirement :=
  [(is_element n, ETypeError); (tag_has "DATATYPE-DEFINITION-" n, EAssertionError);
   (has_attr "IDENTIFIER" n, EKeyError); (tag_in data_type_tags n, ENotImplementedError)]
  ++ (if tag_is "DATATYPE-DEFINITION-ENUMERATION" n then flat_map enum_value_needs (items "SPECIFIED-VALUES" n)
      else if tag_is "DATATYPE-DEFINITION-REAL" n
           then [(match attr_opt "ACCURACY" n with Some s => present (py_int s) | None => true end, EValueError)]
           else []).

Definition default_needs (t : attr_type) (d : node) : list requirement :=
  let v := "ATTRIBUTE-VALUE-" ++ at_name t in
  let ref := "ATTRIBUTE-DEFINITION-" ++ at_name t ++ "-REF" in
  match t with
  | AT_STRING =>
      if no_content d then [] else [(has_path [v] d, ENotImplementedError); (at_path [v] (has_attr "THE-VALUE") d, EKeyError)]
  | AT_INTEGER | AT_REAL | AT_DATE | AT_BOOLEAN =>
      [(has_path [v] d, EAssertionError); (at_path [v] (has_attr "THE-VALUE") d, EKeyError)]
  | AT_XHTML =>
      if no_content d then []
      else [(has_path [v] d, ENotImplementedError); (at_path [v] (if_child "DEFINITION" (has_path [ref])) d, EAssertionError);
            (has_path [v; "THE-VALUE"] d, EAttributeError); (at_path [v; "THE-VALUE"] some_namespace d, EAssertionError);
            (at_path [v; "THE-VALUE"] elements_only d, EValueError)]
  | AT_ENUMERATION =>
      if no_content d then []
      else [(has_path [v] d, ENotImplementedError); (at_path [v] (if_child "DEFINITION" (has_path [ref])) d, EAttributeError)]
  end.
(** what the seven kinds of definitions and of values need, by tag *)
Definition by_type (prefix : str) (f : attr_type -> list requirement) (n : node) : list requirement :=
  match find (fun t => tag_is (prefix ++ at_name t) n) all_types with
  | Some t => f t
  | None => [(false, ENotImplementedError)]
  end.
Definition attr_def_needs (n : node) : list requirement :=
  (has_attr "IDENTIFIER" n, EKeyError)
  :: by_type "ATTRIBUTE-DEFINITION-" (fun t =>
       (has_path ["TYPE"; "DATATYPE-DEFINITION-" ++ at_name t ++ "-REF"] n, ENotImplementedError)
       :: below ["DEFAULT-VALUE"] (default_needs t) n) n.
Definition spec_type_needs (n : node) : list requirement :=
  if is_comment n then []
  else [(tag_in spec_type_tags n, ENotImplementedError); (has_attr "IDENTIFIER" n, ENotImplementedError)]
       ++ (if tag_is "SPEC-RELATION-TYPE" n then [(has_attr "LONG-NAME" n, ENotImplementedError)] else [])
       ++ (if tag_is "SPECIFICATION-TYPE" n then [(has_attr "LAST-CHANGE" n, ENotImplementedError)] else [])
       ++ flat_map attr_def_needs (items "SPEC-ATTRIBUTES" n)
       ++ (if tag_is "SPECIFICATION-TYPE" n
           then map (fun a => (has_attr "LONG-NAME" a, EAssertionError)) (items "SPEC-ATTRIBUTES" n) else []).

Definition markup_needs (v : node) : list requirement :=
  [(if some_namespace v then elements_only v else pi_free v, EValueError)].
Definition attr_value_needs (n : node) : list requirement :=
  if is_comment n then []
  else by_type "ATTRIBUTE-VALUE-" (fun t =>
         let defined := (has_path ["DEFINITION"; "ATTRIBUTE-DEFINITION-" ++ at_name t ++ "-REF"] n, EAttributeError) in
         match t with
         | AT_STRING => [(has_attr "THE-VALUE" n, EKeyError); (has_grandchild n, EIndexError)]
         | AT_INTEGER | AT_REAL | AT_BOOLEAN | AT_DATE => [(has_attr "THE-VALUE" n, EKeyError); defined]
         | AT_ENUMERATION => [defined; (has_path ["VALUES"] n, EAssertionError)]
         | AT_XHTML => (has_path ["THE-VALUE"] n, EAttributeError) :: below ["THE-VALUE"] markup_needs n ++ [defined]
         end) n.
Definition spec_object_needs (n : node) : list requirement :=
  if is_comment n then []
  else [(is_element n, ETypeError); (tag_has "SPEC-OBJECT" n, EAssertionError); (has_attr "IDENTIFIER" n, ENotImplementedError);
        (has_path ["TYPE"; "SPEC-OBJECT-TYPE-REF"] n, EAttributeError)]
       ++ flat_map attr_value_needs (items "VALUES" n).

Definition relation_value_needs (n : node) : list requirement :=
  if tag_is "ATTRIBUTE-VALUE-XHTML" n then attr_value_needs n
  else [(tag_in ["ATTRIBUTE-VALUE-STRING"; "ATTRIBUTE-VALUE-INTEGER"] n, ENotImplementedError);
        (has_attr "THE-VALUE" n, EKeyError); (has_grandchild n, EIndexError)].
(** A relation without SOURCE or TARGET is skipped; only reporting it can fail. *)
Definition spec_relation_needs (n : node) : list requirement :=
  [(tag_is "SPEC-RELATION" n, EAssertionError); (has_child "TYPE" n, EAssertionError)]
  ++ (if incomplete n then [(pi_free n, EValueError)]
      else [(has_attr "IDENTIFIER" n, EAssertionError); (has_path ["TYPE"; "SPEC-RELATION-TYPE-REF"] n, EAttributeError);
            (has_path ["SOURCE"; "SPEC-OBJECT-REF"] n, EAttributeError); (has_path ["TARGET"; "SPEC-OBJECT-REF"] n, EAttributeError)]
           ++ match items "VALUES" n with v :: _ => relation_value_needs v | [] => [] end).

(** a hierarchy element and those below it, [depth] levels deep *)
Fixpoint hierarchy_needs (depth : nat) (n : node) : list requirement :=
  [(tag_is "SPEC-HIERARCHY" n, EAssertionError); (has_attr "IDENTIFIER" n, ENotImplementedError);
   (has_path ["OBJECT"; "SPEC-OBJECT-REF"] n, EAttributeError)]
  ++ match depth with O => [] | S d => flat_map (hierarchy_needs d) (items "CHILDREN" n) end.
Fixpoint height (n : node) : nat :=
  match n with El _ _ _ _ _ k => S (list_max (map height k)) | _ => O end.
Definition specification_needs (n : node) : list requirement :=
  [(is_element n, ETypeError); (tag_has "SPECIFICATION" n, EAssertionError); (has_attr "IDENTIFIER" n, ENotImplementedError)]
  ++ flat_map (hierarchy_needs (height n)) (match last_section "CHILDREN" n with Some ks => ks | None => [] end)
  ++ flat_map attr_value_needs (items "VALUES" n).
Definition relation_group_needs (n : node) : list requirement :=
  [(is_element n, ETypeError); (tag_has "RELATION-GROUP" n, EAssertionError); (has_attr "IDENTIFIER" n, ENotImplementedError)].

(** the sections in the order in which they are read *)
Definition content_needs (rc : node) : list requirement :=
  flat_map data_type_needs (items "DATATYPES" rc)
  ++ flat_map spec_type_needs (items "SPEC-TYPES" rc)
  ++ flat_map specification_needs (items "SPECIFICATIONS" rc)
  ++ flat_map spec_relation_needs (items "SPEC-RELATIONS" rc)
  ++ flat_map spec_object_needs (items "SPEC-OBJECTS" rc)
  ++ flat_map relation_group_needs (items "SPEC-RELATION-GROUPS" rc).
Definition document_needs (r : node) : list requirement :=
  below ["THE-HEADER"] header_needs r ++ below ["CORE-CONTENT"; "REQ-IF-CONTENT"] content_needs r.

(** the exception that parsing a text ends with *)
Definition text_failure (s : str) : option exn :=
  match lxml_parse s with
  | None => Some EReqIFXMLParsingError
  | Some (_, root) =>
      if present (ns_get (node_nsmap root) None) && negb (pi_free root) then Some ETypeError
      else match document_root s with
           | None => Some EReqIFXMLParsingError
           | Some r => first_unmet (document_needs r)
           end
  end.
