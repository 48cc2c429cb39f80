(** SpecParse.v -- which object an XML element stands for, said in terms of the
    element's tag, attributes and children only; which elements are supported;
    what a faulty relation is. *)
From Verif Require Import Base Xml Lxml Py LxmlStr Models SpecInteger.

(** The children of the section [t], absent when there is no such element. *)
Definition section_items (t : str) (n : node) : option (list node) :=
  option_map children (find_child t n).
(** Elements only: comments dropped. *)
Definition no_comments (l : list node) : list node := filter (fun n => negb (is_comment n)) l.

(** The text of the element reached by following child tags. *)
Fixpoint path_node (p : list str) (n : node) : option node :=
  match p with
  | [] => Some n
  | t :: p' => match find_child t n with Some k => path_node p' k | None => None end
  end.
Definition path_text (p : list str) (n : node) : option str :=
  match path_node p n with Some k => text k | None => None end.

(** ** Correspondence of elements and objects *)
Definition labels (n : node) (identifier : str) (desc last_change long_name : option str) : Prop :=
  attr_opt "IDENTIFIER" n = Some identifier /\ attr_opt "DESC" n = desc
  /\ attr_opt "LAST-CHANGE" n = last_change /\ attr_opt "LONG-NAME" n = long_name.

Definition enum_value_of (n : node) (v : enum_value) : Prop :=
  labels n (ev_identifier v) (ev_description v) (ev_last_change v) (ev_long_name v)
  /\ exists e, path_node ["PROPERTIES"; "EMBEDDED-VALUE"] n = Some e
               /\ attr_opt "KEY" e = Some (ev_key v)
               /\ attr_opt "OTHER-CONTENT" e = ev_other_content v.

(** [o] lists the images of the children of section [t], if it is present *)
Definition images {A} (t : str) (R : node -> A -> Prop) (n : node) (o : option (list A)) : Prop :=
  match section_items t n, o with
  | None, None => True
  | Some ks, Some l => Forall2 R ks l
  | _, _ => False
  end.

Definition data_type_of (n : node) (d : data_type) : Prop :=
  labels n (dt_id d) (dt_description (dt_c d)) (dt_last_change (dt_c d)) (dt_long_name (dt_c d))
  /\ match d with
     | DTString _ m => tag n = Some "DATATYPE-DEFINITION-STRING" /\ attr_opt "MAX-LENGTH" n = m
     | DTBoolean _ => tag n = Some "DATATYPE-DEFINITION-BOOLEAN"
     | DTInteger _ mx mn => tag n = Some "DATATYPE-DEFINITION-INTEGER"
                            /\ attr_opt "MAX" n = mx /\ attr_opt "MIN" n = mn
     | DTReal _ a mx mn => tag n = Some "DATATYPE-DEFINITION-REAL"
                           /\ attr_opt "MAX" n = mx /\ attr_opt "MIN" n = mn
                           /\ match attr_opt "ACCURACY" n with
                              | None => a = None
                              | Some s => exists z, a = Some z /\ integer_text s z end
     | DTEnumeration _ vs => tag n = Some "DATATYPE-DEFINITION-ENUMERATION"
                             /\ images "SPECIFIED-VALUES" enum_value_of n vs
     | DTXhtml _ => tag n = Some "DATATYPE-DEFINITION-XHTML"
     | DTDate _ => tag n = Some "DATATYPE-DEFINITION-DATE"
     end.

(** IS-EDITABLE and IS-TABLE-INTERNAL: true exactly for the text "true" *)
Definition flag (o : option str) (b : option bool) : Prop :=
  match o, b with
  | None, None => True
  | Some s, Some true => s = "true"
  | Some s, Some false => s <> "true"
  | _, _ => False
  end.

(** What is stored for the content of a THE-VALUE element: where a namespace is
    in scope the text with the prefix of the first one (what this text is, is the
    subject of C44), elsewhere the text of C45. *)
Definition stored_text (tv : node) (v : str) : Prop :=
  match node_nsmap tv with
  | [] => stringify_children tv = Ok v
  | _ => stringify_namespaced_children tv None = Ok v
  end.
(** The default value of a definition.  Without DEFAULT-VALUE there is none;
    an empty DEFAULT-VALUE of a string, XHTML or enumeration definition is
    remembered as such; otherwise it is THE-VALUE (an attribute) of the
    ATTRIBUTE-VALUE below it, for XHTML the content of the element THE-VALUE, in
    which a namespace must be in scope, or the first ENUM-VALUE-REF.  Booleans,
    XHTML and enumerations also carry the reference below DEFINITION. *)
Definition empty_element (n : node) : Prop := children n = [] /\ text n = None.
Definition default_of (n : node) (a : attr_def) : Prop :=
  let t := ad_type a in
  match find_child "DEFAULT-VALUE" n with
  | None => ad_default_value a = DVNone /\ ad_default_value_definition_ref a = None
  | Some d =>
      (empty_element d /\ ad_default_value a = DVEmptyTag /\ ad_default_value_definition_ref a = None
       /\ In t [AT_STRING; AT_XHTML; AT_ENUMERATION])
      \/ exists v, find_child ("ATTRIBUTE-VALUE-" ++ at_name t) d = Some v
         /\ match t with
            | AT_XHTML => exists s tv, ad_default_value a = DVStr s
                          /\ find_child "THE-VALUE" v = Some tv /\ node_nsmap tv <> [] /\ stored_text tv s
            | AT_ENUMERATION => ad_default_value a
                                = match path_text ["VALUES"; "ENUM-VALUE-REF"] v with
                                  | Some s => DVStr s | None => DVNone end
            | _ => exists s, attr_opt "THE-VALUE" v = Some s /\ ad_default_value a = DVStr s
            end
         /\ ad_default_value_definition_ref a
            = match t with
              | AT_BOOLEAN | AT_XHTML | AT_ENUMERATION =>
                  path_text ["DEFINITION"; "ATTRIBUTE-DEFINITION-" ++ at_name t ++ "-REF"] v
              | _ => None end
  end.
(** MULTI-VALUED of an enumeration definition: as [flag], but the empty text
    counts as absent. *)
Definition multi_of (n : node) (a : attr_def) : Prop :=
  match ad_type a with
  | AT_ENUMERATION => flag (match attr_opt "MULTI-VALUED" n with Some [] => None | o => o end) (ad_multi_valued a)
  | _ => ad_multi_valued a = None
  end.

Definition attr_def_of (n : node) (a : attr_def) : Prop :=
  tag n = Some ("ATTRIBUTE-DEFINITION-" ++ at_name (ad_type a))
  /\ labels n (ad_identifier a) (ad_description a) (ad_last_change a) (ad_long_name a)
  /\ flag (attr_opt "IS-EDITABLE" n) (ad_editable a)
  /\ path_text ["TYPE"; "DATATYPE-DEFINITION-" ++ at_name (ad_type a) ++ "-REF"] n
     = ad_datatype_definition a
  /\ default_of n a /\ multi_of n a.

Definition spec_type_of (n : node) (t : spec_type) : Prop :=
  match t with
  | STObject t => tag n = Some "SPEC-OBJECT-TYPE"
      /\ labels n (sot_identifier t) (sot_description t) (sot_last_change t) (sot_long_name t)
      /\ images "SPEC-ATTRIBUTES" attr_def_of n (sot_attribute_definitions t)
  | STRelation t => tag n = Some "SPEC-RELATION-TYPE"
      /\ labels n (srt_identifier t) (srt_description t) (srt_last_change t) (srt_long_name t)
      /\ images "SPEC-ATTRIBUTES" attr_def_of n (srt_attribute_definitions t)
  | STSpecification t => tag n = Some "SPECIFICATION-TYPE"
      /\ labels n (spt_identifier t) (spt_description t) (spt_last_change t) (spt_long_name t)
      /\ images "SPEC-ATTRIBUTES" attr_def_of n (spt_spec_attributes t)
  | STGroup t => tag n = Some "RELATION-GROUP-TYPE"
      /\ labels n (rgt_identifier t) (rgt_description t) (rgt_last_change t) (rgt_long_name t)
      /\ images "SPEC-ATTRIBUTES" attr_def_of n (rgt_attribute_definitions t)
  end.

(** An attribute value: its type is given by its tag; STRING values refer to
    their definition by the first grandchild, the others by name; the value is
    the attribute THE-VALUE or, for enumerations, the texts under VALUES, and for
    XHTML the content of the element THE-VALUE. *)
Definition attr_value_of (n : node) (a : spec_attr) : Prop :=
  tag n = Some ("ATTRIBUTE-VALUE-" ++ at_name (sa_type a))
  /\ match sa_type a with
     | AT_STRING => exists d r more more', children n = d :: more /\ children d = r :: more'
                                          /\ text r = sa_definition_ref a
     | t => path_text ["DEFINITION"; "ATTRIBUTE-DEFINITION-" ++ at_name t ++ "-REF"] n
            = sa_definition_ref a
     end
  /\ match sa_type a with
     | AT_XHTML => exists v tv, sa_value a = VStr v /\ find_child "THE-VALUE" n = Some tv /\ stored_text tv v
     | AT_ENUMERATION => exists vs, find_child "VALUES" n = Some vs
                                    /\ sa_value a = VList (map text (children vs))
     | _ => exists v, attr_opt "THE-VALUE" n = Some v /\ sa_value a = VStr v
     end.
(** The attribute values of an element: the non-comment children of VALUES. *)
Definition values_of (n : node) (l : option (list spec_attr)) : Prop :=
  match section_items "VALUES" n, l with
  | None, None => True
  | Some ks, Some l => Forall2 attr_value_of (no_comments ks) l
  | _, _ => False
  end.

Definition spec_object_of (n : node) (o : spec_object) : Prop :=
  labels n (so_identifier o) (so_description o) (so_last_change o) (so_long_name o)
  /\ path_text ["TYPE"; "SPEC-OBJECT-TYPE-REF"] n = so_spec_object_type o
  /\ match section_items "VALUES" n with
     | None => so_attributes o = []
     | Some ks => Forall2 attr_value_of (no_comments ks) (so_attributes o)
     end.

(** The value of a relation: the first child of VALUES, which must be a string,
    integer or XHTML value; for the first two the definition is the first
    grandchild. *)
Definition relation_value_of (n : node) (a : spec_attr) : Prop :=
  tag n = Some ("ATTRIBUTE-VALUE-" ++ at_name (sa_type a))
  /\ match sa_type a with
     | AT_STRING | AT_INTEGER =>
         (exists d r more more', children n = d :: more /\ children d = r :: more'
                                /\ text r = sa_definition_ref a)
         /\ exists v, attr_opt "THE-VALUE" n = Some v /\ sa_value a = VStr v
     | AT_XHTML => attr_value_of n a
     | _ => False
     end.
Definition relation_values_of (n : node) (o : option spec_attr) : Prop :=
  match section_items "VALUES" n, o with
  | None, None | Some [], None => True
  | Some (v :: _), Some a => relation_value_of v a
  | _, _ => False
  end.
Definition spec_relation_of (n : node) (r : spec_relation) : Prop :=
  tag n = Some "SPEC-RELATION"
  /\ labels n (sr_identifier r) (sr_description r) (sr_last_change r) (sr_long_name r)
  /\ path_text ["TYPE"; "SPEC-RELATION-TYPE-REF"] n = sr_relation_type_ref r
  /\ path_text ["SOURCE"; "SPEC-OBJECT-REF"] n = sr_source r
  /\ path_text ["TARGET"; "SPEC-OBJECT-REF"] n = sr_target r
  /\ relation_values_of n (sr_values_attribute r).

(** A hierarchy element at depth [level] *)
Inductive hier_of : nat -> node -> hier -> Prop :=
| hier_of_intro level n h :
    tag n = Some "SPEC-HIERARCHY" ->
    attr_opt "IDENTIFIER" n = Some (h_identifier h) ->
    attr_opt "LAST-CHANGE" n = h_last_change h ->
    attr_opt "LONG-NAME" n = h_long_name h ->
    flag (attr_opt "IS-EDITABLE" n) (h_editable h) ->
    flag (attr_opt "IS-TABLE-INTERNAL" n) (h_table h) ->
    path_text ["OBJECT"; "SPEC-OBJECT-REF"] n = h_spec_object h ->
    h_level h = level ->
    (section_items "CHILDREN" n = None <-> h_children h = None) ->
    (forall ks hs, section_items "CHILDREN" n = Some ks -> h_children h = Some hs ->
       Forall2 (hier_of (S level)) ks hs) ->
    hier_of level n h.

(** The last CHILDREN element counts. *)
Definition last_section (t : str) (n : node) : option (list node) :=
  option_map children (find_list t (rev (kids_of n))).
Definition specification_of (n : node) (s : specification) : Prop :=
  labels n (sp_identifier s) (sp_description s) (sp_last_change s) (sp_long_name s)
  /\ path_text ["TYPE"; "SPECIFICATION-TYPE-REF"] n = sp_specification_type s
  /\ match last_section "CHILDREN" n, sp_children s with
     | None, None => True
     | Some ks, Some hs => Forall2 (hier_of 1) ks hs
     | _, _ => False
     end
  /\ values_of n (sp_values s).

Definition relation_group_of (n : node) (g : relation_group) : Prop :=
  labels n (rg_identifier g) (rg_description g) (rg_last_change g) (rg_long_name g)
  /\ path_text ["TYPE"; "RELATION-GROUP-TYPE-REF"] n = rg_type_ref g
  /\ path_text ["SOURCE-SPECIFICATION"; "SPECIFICATION-REF"] n = rg_source_specification_ref g
  /\ path_text ["TARGET-SPECIFICATION"; "SPECIFICATION-REF"] n = rg_target_specification_ref g
  /\ rg_spec_relations g = option_map (map text) (section_items "SPEC-RELATIONS" n).

(** ** Faulty relations *)
Definition has_child (t : str) (n : node) : bool :=
  match find_child t n with Some _ => true | None => false end.
(** The tag a SPEC-RELATION lacks: SOURCE is looked for first. *)
Definition lacks (n : node) : option str :=
  if negb (has_child "SOURCE" n) then Some "SOURCE"
  else if negb (has_child "TARGET" n) then Some "TARGET" else None.
Definition incomplete (n : node) : bool := match lacks n with Some _ => true | None => false end.
(** No processing instruction anywhere below. *)
Fixpoint pi_free (n : node) : bool :=
  match n with El _ _ _ _ _ k => forallb pi_free k | Pin _ => false | _ => true end.
(** A fault the parser can go on after: the element is a SPEC-RELATION with a
    TYPE but without SOURCE or TARGET.  (A processing instruction inside it
    makes the error report itself fail, see C15_pi_in_faulty_relation_refuted.) *)
Definition faulty (n : node) : bool :=
  tag_is "SPEC-RELATION" n && has_child "TYPE" n && incomplete n && pi_free n.
Definition report (n : node) : list exn :=
  match lacks n with Some t => [EMissingTag n t] | None => [] end.

(** The content element without the faulty relations of its SPEC-RELATIONS. *)
Definition drop_from (n : node) : node :=
  match n with
  | El ns l d i a k => El ns l d i a (filter (fun x => negb (faulty x)) k)
  | _ => n
  end.
Fixpoint on_first (f : node -> bool) (g : node -> node) (l : list node) : list node :=
  match l with
  | [] => []
  | x :: l' => if f x then g x :: l' else x :: on_first f g l'
  end.
Definition drop_faulty (n : node) : node :=
  match n with
  | El ns l d i a k => El ns l d i a (on_first (tag_is "SPEC-RELATIONS") drop_from k)
  | _ => n
  end.
(** The faulty relations, in document order. *)
Definition faulty_relations (n : node) : list node :=
  match section_items "SPEC-RELATIONS" n with
  | Some ks => filter faulty ks
  | None => []
  end.

(** ** Supported elements per section *)
Definition tag_in (l : list str) (n : node) : bool :=
  match tag n with Some t => str_mem t l | None => false end.
Definition tag_has (sub : str) (n : node) : bool :=
  match tag n with Some t => contains sub t | None => false end.
Definition data_type_tags : list str :=
  ["DATATYPE-DEFINITION-STRING"; "DATATYPE-DEFINITION-BOOLEAN"; "DATATYPE-DEFINITION-INTEGER";
   "DATATYPE-DEFINITION-REAL"; "DATATYPE-DEFINITION-ENUMERATION"; "DATATYPE-DEFINITION-XHTML";
   "DATATYPE-DEFINITION-DATE"].
Definition spec_type_tags : list str :=
  ["SPEC-OBJECT-TYPE"; "SPEC-RELATION-TYPE"; "SPECIFICATION-TYPE"; "RELATION-GROUP-TYPE"].
Definition attr_def_tags : list str :=
  ["ATTRIBUTE-DEFINITION-STRING"; "ATTRIBUTE-DEFINITION-INTEGER"; "ATTRIBUTE-DEFINITION-REAL";
   "ATTRIBUTE-DEFINITION-BOOLEAN"; "ATTRIBUTE-DEFINITION-XHTML"; "ATTRIBUTE-DEFINITION-ENUMERATION";
   "ATTRIBUTE-DEFINITION-DATE"].
Definition attr_value_tags : list str :=
  ["ATTRIBUTE-VALUE-STRING"; "ATTRIBUTE-VALUE-INTEGER"; "ATTRIBUTE-VALUE-REAL";
   "ATTRIBUTE-VALUE-BOOLEAN"; "ATTRIBUTE-VALUE-XHTML"; "ATTRIBUTE-VALUE-ENUMERATION";
   "ATTRIBUTE-VALUE-DATE"].
Definition or_comment (ok : node -> bool) (n : node) : bool := is_comment n || ok n.
(** hierarchies all the way down *)
Inductive hier_supported : node -> Prop :=
| hier_supported_intro n :
    tag n = Some "SPEC-HIERARCHY" ->
    (forall ks k, section_items "CHILDREN" n = Some ks -> In k ks -> hier_supported k) ->
    hier_supported n.

(** Every child of the section [t] satisfies [P]. *)
Definition every (t : str) (P : node -> Prop) (n : node) : Prop :=
  forall ks k, section_items t n = Some ks -> In k ks -> P k.
(** An attribute VALUES list with supported entries only *)
Definition values_supported (n : node) : Prop :=
  every "VALUES" (fun v => or_comment (tag_in attr_value_tags) v = true) n.
Record supported (rc : node) : Prop := {
  sup_data_types : every "DATATYPES" (fun k => tag_in data_type_tags k = true) rc;
  sup_spec_types : every "SPEC-TYPES" (fun k =>
      or_comment (tag_in spec_type_tags) k = true
      /\ every "SPEC-ATTRIBUTES" (fun a => tag_in attr_def_tags a = true) k) rc;
  sup_spec_objects : every "SPEC-OBJECTS" (fun k =>
      or_comment (tag_has "SPEC-OBJECT") k = true /\ values_supported k) rc;
  sup_spec_relations : every "SPEC-RELATIONS" (fun k =>
      tag_is "SPEC-RELATION" k = true
      /\ (incomplete k = false -> forall v more, section_items "VALUES" k = Some (v :: more) ->
          tag_in ["ATTRIBUTE-VALUE-STRING"; "ATTRIBUTE-VALUE-INTEGER"; "ATTRIBUTE-VALUE-XHTML"] v = true)) rc;
  sup_specifications : every "SPECIFICATIONS" (fun k =>
      tag_has "SPECIFICATION" k = true /\ values_supported k
      /\ match last_section "CHILDREN" k with Some hs => Forall hier_supported hs | None => True end) rc;
  sup_relation_groups : every "SPEC-RELATION-GROUPS" (fun k => tag_has "RELATION-GROUP" k = true) rc }.

(** ** The root *)
(** The root element counts as REQ-IF when this is its local name and it is in
    no namespace, or a default namespace is declared and it is not in the XHTML
    namespace. *)
Definition reqif_root (n : node) : Prop :=
  match n with
  | El ns l defs inh _ _ =>
      l = "REQ-IF"
      /\ (ns = None \/ (dict_get (extend defs inh) None <> None
                        /\ contains "http://www.w3.org/1999/xhtml" (clark ns l) = false))
  | _ => False
  end.
