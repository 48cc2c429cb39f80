(** SpecAccept.v -- which documents the parser accepts, said in terms of tags,
    attributes and children only. *)
From Verif Require Import Base Xml Utf8 Lxml Py Models Progress Parser SpecParse.

Definition present {A} (o : option A) : bool := match o with Some _ => true | None => false end.
Definition has_attr (k : str) (n : node) : bool := present (attr_opt k n).
(** the path of child tags leads to an element satisfying [f] *)
Definition at_path (p : list str) (f : node -> bool) (n : node) : bool :=
  match path_node p n with Some k => f k | None => false end.
Definition has_path (p : list str) : node -> bool := at_path p (fun _ => true).
(** the child [t], if there is one, satisfies [f] *)
Definition if_child (t : str) (f : node -> bool) (n : node) : bool :=
  match find_child t n with Some k => f k | None => true end.
(** every child of the section [t], if there is one, satisfies [f] *)
Definition each (t : str) (f : node -> bool) (n : node) : bool :=
  match section_items t n with Some ks => forallb f ks | None => true end.
Definition no_content (n : node) : bool :=
  match children n with [] => negb (present (text n)) | _ => false end.
Definition has_grandchild (n : node) : bool :=
  match children n with d :: _ => match children d with _ :: _ => true | [] => false end | [] => false end.
(** neither comments nor processing instructions anywhere below *)
Fixpoint elements_only (n : node) : bool :=
  match n with El _ _ _ _ _ k => forallb elements_only k | Chr _ => true | _ => false end.

Definition accepted_header (n : node) : bool := at_path ["REQ-IF-HEADER"] (has_attr "IDENTIFIER") n.

Definition accepted_enum_value (n : node) : bool :=
  has_attr "IDENTIFIER" n && at_path ["PROPERTIES"; "EMBEDDED-VALUE"] (has_attr "KEY") n.
Definition accepted_data_type (n : node) : bool :=
  tag_in data_type_tags n && has_attr "IDENTIFIER" n
  && (if tag_is "DATATYPE-DEFINITION-ENUMERATION" n then each "SPECIFIED-VALUES" accepted_enum_value n
      else if tag_is "DATATYPE-DEFINITION-REAL" n
           then match attr_opt "ACCURACY" n with Some s => present (py_int s) | None => true end
           else true).

(** The contents of a markup value.  A default needs a namespace prefix in
    scope; with one in scope comments are refused too. *)
Definition accepted_markup_default (v : node) : bool :=
  negb (match node_nsmap v with [] => true | _ => false end) && elements_only v.
Definition accepted_markup (v : node) : bool :=
  match node_nsmap v with [] => pi_free v | _ => elements_only v end.

Definition accepted_default (t : attr_type) (d : node) : bool :=
  let v := "ATTRIBUTE-VALUE-" ++ at_name t in
  let ref := "ATTRIBUTE-DEFINITION-" ++ at_name t ++ "-REF" in
  match t with
  | AT_STRING => no_content d || at_path [v] (has_attr "THE-VALUE") d
  | AT_INTEGER | AT_REAL | AT_DATE | AT_BOOLEAN => at_path [v] (has_attr "THE-VALUE") d
  | AT_XHTML => no_content d
                || at_path [v] (fun x => if_child "DEFINITION" (has_path [ref]) x
                                         && at_path ["THE-VALUE"] accepted_markup_default x) d
  | AT_ENUMERATION => no_content d || at_path [v] (if_child "DEFINITION" (has_path [ref])) d
  end.
Definition all_types : list attr_type :=
  [AT_STRING; AT_INTEGER; AT_REAL; AT_BOOLEAN; AT_XHTML; AT_ENUMERATION; AT_DATE].
Definition accepted_attr_def (n : node) : bool :=
  has_attr "IDENTIFIER" n
  && existsb (fun t => tag_is ("ATTRIBUTE-DEFINITION-" ++ at_name t) n
                       && has_path ["TYPE"; "DATATYPE-DEFINITION-" ++ at_name t ++ "-REF"] n
                       && if_child "DEFAULT-VALUE" (accepted_default t) n) all_types.
Definition accepted_spec_type (n : node) : bool :=
  is_comment n
  || tag_in spec_type_tags n && has_attr "IDENTIFIER" n
     && each "SPEC-ATTRIBUTES" accepted_attr_def n
     && (if tag_is "SPEC-RELATION-TYPE" n then has_attr "LONG-NAME" n
         else if tag_is "SPECIFICATION-TYPE" n
              then has_attr "LAST-CHANGE" n && each "SPEC-ATTRIBUTES" (has_attr "LONG-NAME") n
              else true).

Definition accepted_attr_value (n : node) : bool :=
  is_comment n
  || existsb (fun t => tag_is ("ATTRIBUTE-VALUE-" ++ at_name t) n
       && let ref := "ATTRIBUTE-DEFINITION-" ++ at_name t ++ "-REF" in
          match t with
          | AT_STRING => has_attr "THE-VALUE" n && has_grandchild n
          | AT_INTEGER | AT_REAL | AT_BOOLEAN | AT_DATE => has_attr "THE-VALUE" n && has_path ["DEFINITION"; ref] n
          | AT_ENUMERATION => has_path ["VALUES"] n && has_path ["DEFINITION"; ref] n
          | AT_XHTML => at_path ["THE-VALUE"] accepted_markup n && has_path ["DEFINITION"; ref] n
          end) all_types.
Definition accepted_spec_object (n : node) : bool :=
  is_comment n
  || tag_has "SPEC-OBJECT" n && has_attr "IDENTIFIER" n
     && has_path ["TYPE"; "SPEC-OBJECT-TYPE-REF"] n && each "VALUES" accepted_attr_value n.

Definition accepted_relation_value (n : node) : bool :=
  tag_in ["ATTRIBUTE-VALUE-STRING"; "ATTRIBUTE-VALUE-INTEGER"] n && has_attr "THE-VALUE" n && has_grandchild n
  || tag_is "ATTRIBUTE-VALUE-XHTML" n && accepted_attr_value n.
(** Faulty relations (SpecParse) are skipped and reported. *)
Definition accepted_spec_relation (n : node) : bool :=
  faulty n
  || tag_is "SPEC-RELATION" n && has_attr "IDENTIFIER" n
     && has_path ["TYPE"; "SPEC-RELATION-TYPE-REF"] n
     && has_path ["SOURCE"; "SPEC-OBJECT-REF"] n && has_path ["TARGET"; "SPEC-OBJECT-REF"] n
     && match section_items "VALUES" n with Some (v :: _) => accepted_relation_value v | _ => true end.

(** hierarchies all the way down; comments are refused *)
Inductive accepted_hier : node -> Prop :=
| accepted_hier_intro n :
    tag_is "SPEC-HIERARCHY" n = true ->
    has_attr "IDENTIFIER" n = true ->
    has_path ["OBJECT"; "SPEC-OBJECT-REF"] n = true ->
    (forall ks k, section_items "CHILDREN" n = Some ks -> In k ks -> accepted_hier k) ->
    accepted_hier n.
Definition accepted_specification (n : node) : Prop :=
  tag_has "SPECIFICATION" n = true /\ has_attr "IDENTIFIER" n = true
  /\ each "VALUES" accepted_attr_value n = true
  /\ match last_section "CHILDREN" n with Some ks => Forall accepted_hier ks | None => True end.
Definition accepted_relation_group (n : node) : bool := tag_has "RELATION-GROUP" n && has_attr "IDENTIFIER" n.

(** The REQ-IF-CONTENT element: only its first six sections of these names count. *)
Record accepted_content (rc : node) : Prop := {
  acc_data_types : each "DATATYPES" accepted_data_type rc = true;
  acc_spec_types : each "SPEC-TYPES" accepted_spec_type rc = true;
  acc_spec_objects : each "SPEC-OBJECTS" accepted_spec_object rc = true;
  acc_spec_relations : each "SPEC-RELATIONS" accepted_spec_relation rc = true;
  acc_specifications : every "SPECIFICATIONS" accepted_specification rc;
  acc_relation_groups : each "SPEC-RELATION-GROUPS" accepted_relation_group rc = true }.

(** The REQ-IF element. *)
Definition accepted_document (r : node) : Prop :=
  if_child "THE-HEADER" accepted_header r = true
  /\ forall rc, path_node ["CORE-CONTENT"; "REQ-IF-CONTENT"] r = Some rc -> accepted_content rc.

(** The root element of a document text as the parser looks at it: without
    namespaces if there is a default namespace. *)
Definition document_root (s : str) : option node :=
  match lxml_parse s with
  | Some (_, root) =>
      match strip_if_namespaced root with
      | Ok r => if tag_is "REQ-IF" r then Some r else None
      | Raise _ => None
      end
  | None => None
  end.
(** ... which exists for well-formed documents with a REQ-IF root, free of
    processing instructions if there is a default namespace *)
Definition reqif_text (s : str) : Prop :=
  exists decl root, lxml_parse s = Some (decl, root) /\ reqif_root root
    /\ (ns_get (node_nsmap root) None <> None -> pi_free root = true).
