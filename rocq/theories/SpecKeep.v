(** SpecKeep.v -- what of a document is found again in another one, said in
    terms of the two XML trees only *)
From Verif Require Import Base Xml Lxml Py Models SpecInteger SpecPrint SpecParse.

(** ** Single facts about an element [n] and its counterpart [n'] *)
(** the value of an attribute; if it is empty, the attribute may be missing *)
Definition same_value (o o' : option str) : Prop := o' = o \/ o = Some [] /\ o' = None.
Definition same_attributes (ks : list str) (n n' : node) : Prop :=
  Forall (fun k => same_value (attr_opt k n) (attr_opt k n')) ks.
Definition labels_kept : node -> node -> Prop :=
  same_attributes ["IDENTIFIER"; "DESC"; "LAST-CHANGE"; "LONG-NAME"].
(** whether there is such a value, and whether it is "true" *)
Definition same_flag (o o' : option str) : Prop :=
  (o = None <-> o' = None) /\ (o = Some "true" <-> o' = Some "true").
(** the integer an attribute stands for *)
Definition same_number (o o' : option str) : Prop :=
  match o, o' with
  | None, None => True
  | Some s, Some s' => exists z, integer_text s z /\ integer_text s' z
  | _, _ => False
  end.
(** the text reached by following child tags; if there is none, "None" may stand
    there *)
Definition same_ref (o o' : option str) : Prop := o' = o \/ o = None /\ o' = Some "None".
Definition ref_kept (path : list str) (n n' : node) : Prop := same_ref (path_text path n) (path_text path n').
Definition text_kept (path : list str) (n n' : node) : Prop := path_text path n' = path_text path n.
Definition attribute_at (path : list str) (k : str) (n : node) : option str :=
  match path_node path n with Some x => attr_opt k x | None => None end.
(** one to one, in order, or absent in both *)
Inductive matched {A} (R : A -> A -> Prop) : option (list A) -> option (list A) -> Prop :=
| matched_none : matched R None None
| matched_some l l' : Forall2 R l l' -> matched R (Some l) (Some l').

(** The same characters and elements, in order: elements have the same local name
    and the same attributes (the namespace of the elements may differ, see
    C67_namespace_changed_refuted) *)
Inductive same_markup : node -> node -> Prop :=
| same_char c : same_markup (Chr c) (Chr c)
| same_element ns ns' l d d' i i' a ks ks' :
    Forall2 same_markup ks ks' -> same_markup (El (Some ns) l d i a ks) (El (Some ns') l d' i' a ks').
Definition content_same (tv tv' : node) : Prop := Forall2 same_markup (kids_of tv) (kids_of tv').
(** the content of the element THE-VALUE.  Where no namespace is in scope, the
    text must be free of elements, "<" and "&" (see C67_escaped_markup_refuted). *)
Definition harmless (tv : node) : Prop :=
  node_nsmap tv <> [] \/ Forall (fun k => exists c, k = Chr c /\ c <> 60%N /\ c <> 38%N) (kids_of tv).
Definition xhtml_kept (n n' : node) : Prop :=
  exists tv tv', find_child "THE-VALUE" n = Some tv /\ find_child "THE-VALUE" n' = Some tv'
    /\ (harmless tv -> content_same tv tv').
(** the part of a tree at a path *)
Definition part_kept (path : list str) (R : node -> node -> Prop) (n n' : node) : Prop :=
  match path_node path n, path_node path n' with
  | None, None => True
  | Some x, Some x' => R x x'
  | _, _ => False
  end.

(** ** Header *)
Definition header_kept (n n' : node) : Prop :=
  attribute_at ["REQ-IF-HEADER"] "IDENTIFIER" n' = attribute_at ["REQ-IF-HEADER"] "IDENTIFIER" n
  /\ Forall (fun t => text_kept ["REQ-IF-HEADER"; t] n n')
       ["COMMENT"; "CREATION-TIME"; "REPOSITORY-ID"; "REQ-IF-TOOL-ID"; "REQ-IF-VERSION"; "SOURCE-TOOL-ID"; "TITLE"]
  /\ (path_node ["REQ-IF-HEADER"; "REPOSITORY-ID"] n = None <-> path_node ["REQ-IF-HEADER"; "REPOSITORY-ID"] n' = None).

(** ** Data types *)
Definition enum_value_kept (n n' : node) : Prop :=
  labels_kept n n'
  /\ exists e e', path_node ["PROPERTIES"; "EMBEDDED-VALUE"] n = Some e
       /\ path_node ["PROPERTIES"; "EMBEDDED-VALUE"] n' = Some e'
       /\ attr_opt "KEY" e' = attr_opt "KEY" e /\ attr_opt "OTHER-CONTENT" e' = attr_opt "OTHER-CONTENT" e.
(** attributes of their own *)
Definition own_attributes (t : str) : list str :=
  if str_eqb t "DATATYPE-DEFINITION-STRING" then ["MAX-LENGTH"]
  else if str_eqb t "DATATYPE-DEFINITION-INTEGER" || str_eqb t "DATATYPE-DEFINITION-REAL" then ["MAX"; "MIN"] else [].
Definition data_type_kept (n n' : node) : Prop :=
  exists t, tag n = Some t /\ tag n' = Some t /\ labels_kept n n' /\ same_attributes (own_attributes t) n n'
  /\ (t = "DATATYPE-DEFINITION-REAL" -> same_number (attr_opt "ACCURACY" n) (attr_opt "ACCURACY" n'))
  /\ (t = "DATATYPE-DEFINITION-ENUMERATION" ->
      matched enum_value_kept (section_items "SPECIFIED-VALUES" n) (section_items "SPECIFIED-VALUES" n')).

(** ** Types *)
(** The default value of a definition of the kind [k]: THE-VALUE, and for
    enumerations the first reference; the definition it names where the parser
    looks at it; and an empty DEFAULT-VALUE. *)
Definition default_kept (k : str) (n n' : node) : Prop :=
  let at_ := ["DEFAULT-VALUE"; "ATTRIBUTE-VALUE-" ++ k] in
  let definition := at_ ++ ["DEFINITION"; "ATTRIBUTE-DEFINITION-" ++ k ++ "-REF"] in
  let first := at_ ++ ["VALUES"; "ENUM-VALUE-REF"] in
  let empty := fun n => exists d, find_child "DEFAULT-VALUE" n = Some d /\ empty_element d in
  (In k ["STRING"; "INTEGER"; "REAL"; "BOOLEAN"; "DATE"] -> attribute_at at_ "THE-VALUE" n' = attribute_at at_ "THE-VALUE" n)
  /\ (k = "XHTML" -> part_kept (at_ ++ ["THE-VALUE"]) content_same n n')
  /\ (k = "ENUMERATION" -> text_kept first n n')
  /\ (In k ["BOOLEAN"; "XHTML"] -> text_kept definition n n')
  /\ (k = "ENUMERATION" -> path_text first n <> None -> text_kept definition n n')
  /\ (In k ["STRING"; "XHTML"; "ENUMERATION"] -> (empty n <-> empty n')).
Definition attr_def_kept (n n' : node) : Prop :=
  exists k, tag n = Some ("ATTRIBUTE-DEFINITION-" ++ k) /\ tag n' = Some ("ATTRIBUTE-DEFINITION-" ++ k)
  /\ labels_kept n n' /\ same_flag (attr_opt "IS-EDITABLE" n) (attr_opt "IS-EDITABLE" n')
  /\ ref_kept ["TYPE"; "DATATYPE-DEFINITION-" ++ k ++ "-REF"] n n'
  /\ (k = "ENUMERATION" ->
      same_flag (drop_empty (attr_opt "MULTI-VALUED" n)) (drop_empty (attr_opt "MULTI-VALUED" n')))
  /\ default_kept k n n'.
Definition spec_type_kept (n n' : node) : Prop :=
  (exists t, tag n = Some t /\ tag n' = Some t) /\ labels_kept n n'
  /\ matched attr_def_kept (section_items "SPEC-ATTRIBUTES" n) (section_items "SPEC-ATTRIBUTES" n').

(** ** Attribute values *)
Definition grandchild (n : node) : option node :=
  match children n with d :: _ => hd_error (children d) | [] => None end.
Definition grandchild_kept (n n' : node) : Prop :=
  exists r r', grandchild n = Some r /\ grandchild n' = Some r' /\ same_ref (text r) (text r').
Definition texts_at (path : list str) (n : node) : option (list (option str)) :=
  option_map (fun x => map text (children x)) (path_node path n).
Definition value_kept (n n' : node) : Prop :=
  exists k, tag n = Some ("ATTRIBUTE-VALUE-" ++ k) /\ tag n' = Some ("ATTRIBUTE-VALUE-" ++ k)
  /\ (if str_eqb k "STRING" then grandchild_kept n n'
      else ref_kept ["DEFINITION"; "ATTRIBUTE-DEFINITION-" ++ k ++ "-REF"] n n')
  /\ (if str_eqb k "ENUMERATION" then matched same_ref (texts_at ["VALUES"] n) (texts_at ["VALUES"] n')
      else if str_eqb k "XHTML" then xhtml_kept n n' else attr_opt "THE-VALUE" n' = attr_opt "THE-VALUE" n).
(** the elements in VALUES; none if it is absent *)
Definition values (n : node) : list node :=
  match section_items "VALUES" n with Some l => no_comments l | None => [] end.

(** ** Objects, relations, specifications, relation groups *)
Definition spec_object_kept (n n' : node) : Prop :=
  labels_kept n n' /\ ref_kept ["TYPE"; "SPEC-OBJECT-TYPE-REF"] n n' /\ Forall2 value_kept (values n) (values n').
(** of a relation, the first value *)
Definition relation_value_kept (n n' : node) : Prop :=
  exists k, tag n = Some ("ATTRIBUTE-VALUE-" ++ k) /\ tag n' = Some ("ATTRIBUTE-VALUE-" ++ k)
  /\ (if str_eqb k "XHTML" then ref_kept ["DEFINITION"; "ATTRIBUTE-DEFINITION-XHTML-REF"] n n' /\ xhtml_kept n n'
      else grandchild_kept n n' /\ attr_opt "THE-VALUE" n' = attr_opt "THE-VALUE" n).
Definition first_value (n : node) : list node :=
  match section_items "VALUES" n with Some (v :: _) => [v] | _ => [] end.
Definition spec_relation_kept (n n' : node) : Prop :=
  labels_kept n n' /\ ref_kept ["TYPE"; "SPEC-RELATION-TYPE-REF"] n n'
  /\ ref_kept ["SOURCE"; "SPEC-OBJECT-REF"] n n' /\ ref_kept ["TARGET"; "SPEC-OBJECT-REF"] n n'
  /\ Forall2 relation_value_kept (first_value n) (first_value n').
Inductive hierarchy_kept : node -> node -> Prop :=
| hierarchy_kept_intro n n' :
    same_attributes ["IDENTIFIER"; "LAST-CHANGE"; "LONG-NAME"] n n' ->
    same_flag (attr_opt "IS-EDITABLE" n) (attr_opt "IS-EDITABLE" n') ->
    same_flag (attr_opt "IS-TABLE-INTERNAL" n) (attr_opt "IS-TABLE-INTERNAL" n') ->
    ref_kept ["OBJECT"; "SPEC-OBJECT-REF"] n n' ->
    matched hierarchy_kept (section_items "CHILDREN" n) (section_items "CHILDREN" n') ->
    hierarchy_kept n n'.
Definition specification_kept (n n' : node) : Prop :=
  labels_kept n n' /\ text_kept ["TYPE"; "SPECIFICATION-TYPE-REF"] n n'
  /\ matched hierarchy_kept (last_section "CHILDREN" n) (last_section "CHILDREN" n')
  /\ matched value_kept (option_map no_comments (section_items "VALUES" n)) (option_map no_comments (section_items "VALUES" n')).
Definition relation_group_kept (n n' : node) : Prop :=
  labels_kept n n'
  /\ text_kept ["TYPE"; "RELATION-GROUP-TYPE-REF"] n n'
  /\ text_kept ["SOURCE-SPECIFICATION"; "SPECIFICATION-REF"] n n'
  /\ text_kept ["TARGET-SPECIFICATION"; "SPECIFICATION-REF"] n n'
  /\ matched same_ref (texts_at ["SPEC-RELATIONS"] n) (texts_at ["SPEC-RELATIONS"] n').

(** ** Documents.  Relations without SOURCE or TARGET are not counted. *)
Definition section_kept (t : str) (counted : node -> bool) (R : node -> node -> Prop) (n n' : node) : Prop :=
  matched R (option_map (filter counted) (section_items t n)) (option_map (filter counted) (section_items t n')).
Definition every_node (n : node) : bool := true.
Definition no_comment (n : node) : bool := negb (is_comment n).
Definition content_kept (n n' : node) : Prop :=
  section_kept "DATATYPES" every_node data_type_kept n n'
  /\ section_kept "SPEC-TYPES" no_comment spec_type_kept n n'
  /\ section_kept "SPEC-OBJECTS" no_comment spec_object_kept n n'
  /\ section_kept "SPEC-RELATIONS" (fun k => negb (incomplete k)) spec_relation_kept n n'
  /\ section_kept "SPECIFICATIONS" every_node specification_kept n n'
  /\ section_kept "SPEC-RELATION-GROUPS" every_node relation_group_kept n n'.
Definition document_kept (n n' : node) : Prop :=
  part_kept ["THE-HEADER"] header_kept n n'
  /\ part_kept ["CORE-CONTENT"] (fun _ _ => True) n n'
  /\ part_kept ["CORE-CONTENT"; "REQ-IF-CONTENT"] content_kept n n'
  /\ part_kept ["TOOL-EXTENSIONS"] (fun _ _ => True) n n'.
