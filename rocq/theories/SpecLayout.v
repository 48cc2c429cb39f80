(** SpecLayout.v -- documents that differ only in their layout *)
From Coq Require Import Permutation.
From Verif Require Import Base Xml Lxml Py Models SpecPrint SpecDocument SpecFormat.

(** The element structure of a ReqIF document: the places where elements occur
    that only hold other elements. *)
Inductive place : Type :=
| InReqIF | InTheHeader | InHeader | InCore | InContent
| InDatatypes | InDatatype | InSpecifiedValues | InEnumValue | InProperties
| InSpecTypes | InType | InSpecAttributes | InDefinition | InDefault
| InObjects | InObject | InValues | InValue | InXhtml
| InRelations | InRelation
| InSpecifications | InSpecification | InChildren | InHierarchy
| InGroups | InGroup
| InLast.
(** the element types of ReqIF attributes *)
Definition kinds : list str := ["STRING"; "INTEGER"; "REAL"; "BOOLEAN"; "DATE"; "XHTML"; "ENUMERATION"].
Definition kinds_of (prefix : str) : list str := map (fun k => prefix ++ k) kinds.
(** The elements in each place, and the place inside of them.  Elements that
    are not listed, such as THE-VALUE and the references, hold text. *)
Definition table (p : place) : list (str * place) :=
  match p with
  | InReqIF => [("THE-HEADER", InTheHeader); ("CORE-CONTENT", InCore)]
  | InTheHeader => [("REQ-IF-HEADER", InHeader)]
  | InCore => [("REQ-IF-CONTENT", InContent)]
  | InContent => [("DATATYPES", InDatatypes); ("SPEC-TYPES", InSpecTypes); ("SPEC-OBJECTS", InObjects);
                  ("SPEC-RELATIONS", InRelations); ("SPECIFICATIONS", InSpecifications);
                  ("SPEC-RELATION-GROUPS", InGroups)]
  | InDatatypes => map (fun t => (t, InDatatype)) (kinds_of "DATATYPE-DEFINITION-")
  | InDatatype => [("SPECIFIED-VALUES", InSpecifiedValues)]
  | InSpecifiedValues => [("ENUM-VALUE", InEnumValue)]
  | InEnumValue => [("PROPERTIES", InProperties)]
  | InProperties => [("EMBEDDED-VALUE", InLast)]
  | InSpecTypes => [("SPEC-OBJECT-TYPE", InType); ("SPEC-RELATION-TYPE", InType);
                    ("SPECIFICATION-TYPE", InType); ("RELATION-GROUP-TYPE", InType)]
  | InType => [("SPEC-ATTRIBUTES", InSpecAttributes)]
  | InSpecAttributes => map (fun t => (t, InDefinition)) (kinds_of "ATTRIBUTE-DEFINITION-")
  | InDefinition => [("TYPE", InLast); ("DEFAULT-VALUE", InDefault)]
  | InDefault | InValues =>
      [("ATTRIBUTE-VALUE-STRING", InValue); ("ATTRIBUTE-VALUE-INTEGER", InValue); ("ATTRIBUTE-VALUE-REAL", InValue);
       ("ATTRIBUTE-VALUE-BOOLEAN", InValue); ("ATTRIBUTE-VALUE-DATE", InValue); ("ATTRIBUTE-VALUE-XHTML", InXhtml);
       ("ATTRIBUTE-VALUE-ENUMERATION", InValue)]
  | InValue => [("DEFINITION", InLast); ("VALUES", InLast)]
  | InXhtml => [("DEFINITION", InLast)]
  | InObjects => [("SPEC-OBJECT", InObject)]
  | InObject => [("TYPE", InLast); ("VALUES", InValues)]
  | InRelations => [("SPEC-RELATION", InRelation)]
  | InRelation => [("TYPE", InLast); ("SOURCE", InLast); ("TARGET", InLast); ("VALUES", InValues)]
  | InSpecifications => [("SPECIFICATION", InSpecification)]
  | InSpecification => [("TYPE", InLast); ("VALUES", InValues); ("CHILDREN", InChildren)]
  | InChildren => [("SPEC-HIERARCHY", InHierarchy)]
  | InHierarchy => [("OBJECT", InLast); ("CHILDREN", InChildren)]
  | InGroups => [("RELATION-GROUP", InGroup)]
  | InGroup => [("TYPE", InLast); ("SOURCE-SPECIFICATION", InLast); ("TARGET-SPECIFICATION", InLast);
                ("SPEC-RELATIONS", InLast)]
  | InHeader | InLast => []
  end.
(** places where the text of a comment would be taken for a value *)
Definition comments_read (p : place) : bool :=
  match p with InValue | InLast => true | _ => false end.

(** Elements whose content is not read: tool extensions, alternative
    identifiers, lists of editable attributes and original values.  The content
    of an XHTML value is kept as it is, so white space in it matters ([x]: it may
    differ nevertheless). *)
Definition free (x : bool) (p : place) (l : str) : bool :=
  match p with
  | InReqIF => str_eqb l "TOOL-EXTENSIONS"
  | InDatatype | InEnumValue | InType | InDefinition | InObject | InRelation | InSpecification | InGroup =>
      str_eqb l "ALTERNATIVE-ID"
  | InHierarchy => if str_eqb l "ALTERNATIVE-ID" then true else str_eqb l "EDITABLE-ATTS"
  | InXhtml => if str_eqb l "THE-ORIGINAL-VALUE" then true else if str_eqb l "THE-VALUE" then x else false
  | _ => false
  end.

(** places where the order of elements of different names does not matter.
    Everywhere else it is kept, because it is the order of a list, or because
    the order in which an object was read is the order in which it is written. *)
Definition unordered (p : place) : bool :=
  match p with
  | InReqIF | InTheHeader | InHeader | InCore | InContent | InDatatype | InEnumValue | InProperties | InType | InGroup => true
  | _ => false
  end.

(** child elements and comments, without the text between them *)
Definition items (kids : list node) : list node :=
  filter (fun k => match k with Chr _ => false | _ => true end) kids.

Definition names (l : list node) : list str :=
  flat_map (fun n => match n with El _ l _ _ _ _ => [l] | _ => [] end) l.
Definition rearranged (p : place) (l l' : list node) : Prop :=
  l = l' \/ unordered p = true /\ Permutation l l' /\ NoDup (names l).

(** [relaid x p n n']: in the place [p], the nodes [n] and [n'] differ only in
    the order of attributes, in the order of children where it does not matter,
    in the text between the child elements of elements that only hold
    elements, in the text of comments, and in the white space next to markup
    (SpecFormat.v) in elements whose content is not read and, if [x], in XHTML
    values.  An element without child elements
    keeps its content, since an empty element is not the same as a self-closed
    one. *)
Inductive relaid (x : bool) : place -> node -> node -> Prop :=
| relaid_same p n : relaid x p n n
| relaid_comment p s s' : comments_read p = false -> relaid x p (Cmt s) (Cmt s')
| relaid_free p ns l defs inh attrs kids n' :
    free x p l = true -> respaced false (El ns l defs inh attrs kids) n' -> relaid x p (El ns l defs inh attrs kids) n'
| relaid_element p p' ns l defs inh attrs attrs' kids kids' :
    In (l, p') (table p) ->
    Permutation attrs attrs' -> attrs = attrs' \/ NoDup (map a_key attrs) ->
    kids = kids'
    \/ items kids <> [] /\ (exists mid, rearranged p' (items kids) mid /\ Forall2 (relaid x p') mid (items kids')) ->
    relaid x p (El ns l defs inh attrs kids) (El ns l defs inh attrs' kids').
(** of the root element, the order of attributes is kept *)
Definition relaid_root (x : bool) (n n' : node) : Prop :=
  exists ns l defs inh attrs kids kids',
    n = El ns l defs inh attrs kids /\ n' = El ns l defs inh attrs kids'
    /\ (kids = kids'
        \/ items kids <> []
           /\ (exists mid, rearranged InReqIF (items kids) mid /\ Forall2 (relaid x InReqIF) mid (items kids'))).

(** ** Documents in the ReqIF structure *)
(** comments and processing instructions in ASCII *)
Inductive ascii_markup : node -> Prop :=
| ascii_chr c : ascii_markup (Chr c)
| ascii_cmt s : ascii s -> ascii_markup (Cmt s)
| ascii_pin s : ascii s -> ascii_markup (Pin s)
| ascii_el ns l defs inh attrs kids : Forall ascii_markup kids -> ascii_markup (El ns l defs inh attrs kids).
(** [tidy x p n]: in the place [p], [n] is a comment or an element that holds
    text only or that is listed or free in this place, and so on in it.
    Comments in free elements, and where they would be taken for values, are in
    ASCII. *)
Inductive tidy (x : bool) : place -> node -> Prop :=
| tidy_comment p s : (comments_read p = true -> ascii s) -> tidy x p (Cmt s)
| tidy_text p ns l defs inh attrs kids : Forall is_text kids -> tidy x p (El ns l defs inh attrs kids)
| tidy_free p ns l defs inh attrs kids :
    free x p l = true -> Forall ascii_markup kids -> tidy x p (El ns l defs inh attrs kids)
| tidy_element p p' ns l defs inh attrs kids :
    In (l, p') (table p) -> Forall (tidy x p') (items kids) -> tidy x p (El ns l defs inh attrs kids).
Definition tidy_root (x : bool) (n : node) : Prop :=
  exists ns l defs inh attrs kids, n = El ns l defs inh attrs kids /\ Forall (tidy x InReqIF) (items kids).

(** ** What the two documents have in common when parsed: everything but the
    XML nodes stored in the objects *)
Definition map_dict {V W} (f : V -> W) (d : dict V) : dict W := map (fun kv => (fst kv, f (snd kv))) d.
Definition erase_lookup (l : lookup) : lookup :=
  Lookup (lk_data_types l) (map_dict erase_spec_type (lk_spec_types l))
         (map_dict erase_spec_object (lk_spec_objects l)) (lk_parents l) (lk_parents_default l).
(** the same exception, up to the XML node that it carries *)
Definition same_exception (e e' : exn) : Prop :=
  match e, e' with
  | EMissingTag _ t, EMissingTag _ t' => t = t'
  | _, _ => e = e'
  end.
Definition same_bundle (b b' : bundle) : Prop :=
  b_namespace_info b = b_namespace_info b' /\ b_header b = b_header b'
  /\ option_map (option_map erase_content) (b_core_content b)
     = option_map (option_map erase_content) (b_core_content b')
  /\ b_tool_extensions b = b_tool_extensions b'
  /\ erase_lookup (b_lookup b) = erase_lookup (b_lookup b')
  /\ Forall2 same_exception (b_exceptions b) (b_exceptions b').
Definition same_result {A} (R : A -> A -> Prop) (r r' : result A) : Prop :=
  match r, r' with
  | Ok a, Ok a' => R a a'
  | Raise e, Raise e' => same_exception e e'
  | _, _ => False
  end.

(** ** XHTML values without their white space; a tab is kept as the reference
    "&#9;" by the parser *)
Fixpoint untab (skip : nat) (s : str) : str :=
  match s, skip with
  | [], _ => []
  | _ :: s', S k => untab k s'
  | c :: s', O => if starts_with "&#9;" s then untab 3 s' else c :: untab 0 s'
  end.
Definition squeeze (s : str) : str := untab 0 (filter (fun c => negb (py_space c)) s).
Definition squeeze_value (a : spec_attr) : spec_attr :=
  match sa_type a with
  | AT_XHTML =>
      SpecAttr (sa_type a) (sa_definition_ref a)
        (match sa_value a with VStr s => VStr (squeeze s) | VList l => VList l end)
        (option_map squeeze (sa_value_stripped_xhtml a)) (sa_xml_node a)
  | _ => a
  end.
Definition squeeze_attr_def (a : attr_def) : attr_def :=
  match ad_type a with
  | AT_XHTML =>
      AttrDef (ad_type a) (ad_identifier a) (ad_datatype_definition a) (ad_xml_node a) (ad_description a) (ad_last_change a)
        (ad_long_name a) (ad_editable a) (ad_default_value_definition_ref a)
        (match ad_default_value a with DVStr s => DVStr (squeeze s) | d => d end) (ad_multi_valued a)
  | _ => a
  end.
Definition squeeze_spec_type : spec_type -> spec_type := map_spec_type squeeze_attr_def.
Definition squeeze_spec_object (o : spec_object) : spec_object :=
  SpecObject (so_identifier o) (map squeeze_value (so_attributes o)) (so_spec_object_type o) (so_description o)
    (so_last_change o) (so_long_name o) (so_xml_node o).
Definition squeeze_spec_relation (r : spec_relation) : spec_relation :=
  SpecRelation (sr_identifier r) (sr_relation_type_ref r) (sr_source r) (sr_target r) (sr_xml_node r)
    (sr_description r) (sr_last_change r) (sr_long_name r) (option_map squeeze_value (sr_values_attribute r)).
Definition squeeze_specification (s : specification) : specification :=
  Specification (sp_identifier s) (sp_description s) (sp_last_change s) (sp_long_name s)
    (map_list squeeze_value (sp_values s)) (sp_specification_type s) (sp_children s) (sp_xml_node s).
Definition squeeze_content : content -> content :=
  map_content (fun x => x) squeeze_spec_type squeeze_spec_object squeeze_spec_relation squeeze_specification (fun x => x).
Definition squeeze_lookup (l : lookup) : lookup :=
  Lookup (lk_data_types l) (map_dict squeeze_spec_type (lk_spec_types l))
         (map_dict squeeze_spec_object (lk_spec_objects l)) (lk_parents l) (lk_parents_default l).
Definition squeeze_bundle (b : bundle) : bundle :=
  Bundle (b_namespace_info b) (b_header b) (option_map (option_map squeeze_content) (b_core_content b))
    (b_tool_extensions b) (squeeze_lookup (b_lookup b)) (b_exceptions b).

(** a bundle, as if read from a document with the declaration
    <?xml version="1.0" encoding="UTF-8"?> *)
Definition declared (b : bundle) : bundle :=
  let n := b_namespace_info b in
  Bundle (NamespaceInfo (ni_dump n) true "UTF-8" (ni_namespace n) (ni_configuration n) (ni_namespace_id n)
            (ni_namespace_xhtml n) (ni_schema_namespace n) (ni_schema_location n) (ni_language n))
    (b_header b) (b_core_content b) (b_tool_extensions b) (b_lookup b) (b_exceptions b).
