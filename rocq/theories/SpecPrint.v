(** SpecPrint.v -- which objects can be written without damage, and what is
    read back for them.

    [printable_*] lists, field by field, the texts that are safe in the place
    where the unparser puts them.  [normal_*] is the object that is read back:
    the same object, except for the differences listed there.  [erase_*]
    forgets the references to XML nodes that the parser keeps in its objects. *)
From Verif Require Import Base Xml Lxml Py Models SpecEscape SpecTraversal.

(** ** Texts *)
(** an attribute value that is escaped by lxml_escape_for_html when written *)
Definition attr_escaped : str -> Prop := xml_text_without [10; 13]%N.
(** ... by html.escape, which leaves tabs alone *)
Definition attr_html : str -> Prop := xml_text_without [9; 10; 13]%N.
(** an attribute value that is written as it is *)
Definition attr_raw : str -> Prop := xml_text_without [9; 10; 13; 34; 38; 60]%N.
(** element content that is written as it is: "]]>" is not allowed there *)
Definition no_section_end (s : str) : Prop := forall a b, s <> a ++ "]]>" ++ b.
Definition text_raw (s : str) : Prop := xml_text_without [13; 38; 60]%N s /\ no_section_end s.
(** the header title: only & is escaped *)
Definition text_title (s : str) : Prop := xml_text_without [13; 60]%N s /\ no_section_end s.
Definition when (P : str -> Prop) (o : option str) : Prop :=
  match o with Some s => P s | None => True end.
(** a reference to another object, written as element content *)
Definition ref_ok (o : option str) : Prop := exists s, o = Some s /\ s <> [] /\ text_raw s.
Definition drop_empty (o : option str) : option str :=
  match o with Some [] => None | _ => o end.
Definition each {A} (P : A -> Prop) (o : option (list A)) : Prop :=
  match o with Some l => Forall P l | None => True end.

(** ** Header *)
Definition printable_header (h : header) : Prop :=
  (exists s, hd_identifier h = Some s /\ s <> [] /\ attr_raw s)
  /\ when text_raw (hd_comment h) /\ when text_raw (hd_creation_time h)
  /\ (forall r, hd_repository_id h = RepoStr r -> r <> [] /\ text_raw r)
  /\ when text_raw (hd_req_if_tool_id h) /\ when text_raw (hd_req_if_version h)
  /\ when text_raw (hd_source_tool_id h) /\ when text_title (hd_title h).
(** empty texts come back as absent *)
Definition normal_header (h : header) : header :=
  Header (hd_identifier h) (drop_empty (hd_comment h)) (drop_empty (hd_creation_time h))
    (hd_repository_id h) (drop_empty (hd_req_if_tool_id h)) (drop_empty (hd_req_if_version h))
    (drop_empty (hd_source_tool_id h)) (drop_empty (hd_title h)).

(** ** Data types *)
Definition printable_common (long_name : str -> Prop) (c : dt_common) : Prop :=
  attr_raw (dt_identifier c) /\ when attr_escaped (dt_description c)
  /\ when attr_raw (dt_last_change c) /\ when long_name (dt_long_name c).
Definition printable_enum_value (v : enum_value) : Prop :=
  attr_raw (ev_identifier v) /\ attr_raw (ev_key v) /\ when attr_raw (ev_description v)
  /\ when attr_raw (ev_last_change v) /\ when attr_raw (ev_other_content v)
  /\ when attr_escaped (ev_long_name v).
Definition printable_data_type (d : data_type) : Prop :=
  match d with
  | DTString c max_length => printable_common attr_escaped c /\ when attr_raw max_length
  | DTBoolean c | DTXhtml c => printable_common attr_escaped c
  | DTDate c => printable_common attr_raw c
  | DTInteger c max min => printable_common attr_raw c /\ when attr_raw max /\ when attr_raw min
  | DTReal c _ max min => printable_common attr_raw c /\ when attr_raw max /\ when attr_raw min
  | DTEnumeration c values => printable_common attr_escaped c /\ each printable_enum_value values
                              /\ (dt_is_self_closed c = true -> values = None)
  end.
(** an empty LAST-CHANGE comes back as absent *)
Definition normal_common (c : dt_common) : dt_common :=
  DTC (dt_identifier c) (dt_description c) (drop_empty (dt_last_change c)) (dt_long_name c)
      (dt_is_self_closed c).
(** ... and so does an empty LONG-NAME *)
Definition normal_common_name (c : dt_common) : dt_common :=
  DTC (dt_identifier c) (dt_description c) (drop_empty (dt_last_change c)) (drop_empty (dt_long_name c))
      (dt_is_self_closed c).
Definition normal_data_type (d : data_type) : data_type :=
  match d with
  | DTString c max_length => DTString (normal_common c) (drop_empty max_length)
  | DTBoolean c => DTBoolean (normal_common c)
  | DTXhtml c => DTXhtml (normal_common c)
  | DTDate c => DTDate (normal_common_name c)
  | DTInteger c max min => DTInteger (normal_common_name c) max min
  (* always written self-closed *)
  | DTReal c accuracy max min =>
      DTReal (DTC (dt_identifier c) (dt_description c) (dt_last_change c) (dt_long_name c) true)
             accuracy max min
  | DTEnumeration c values => DTEnumeration (normal_common c) values
  end.

(** ** The order of children remembered by an XML node *)
Definition order_of (n : option node) (default : list str) : list (option str) :=
  match n with Some x => child_tags x | None => map Some default end.

(** ** Attribute definitions.  [D] are the XHTML default values that can be
    written. *)
Section Definitions.
Variable D : str -> Prop.
Definition ad_order (a : attr_def) := order_of (ad_xml_node a) ["DEFAULT-VALUE"; "TYPE"].
Definition printable_default (a : attr_def) : Prop :=
  match ad_default_value a with
  | DVNone => True
  | DVEmptyTag => ad_type a = AT_STRING \/ ad_type a = AT_XHTML \/ ad_type a = AT_ENUMERATION
  | DVStr v =>
      match ad_type a with
      | AT_STRING | AT_INTEGER | AT_REAL | AT_DATE => attr_raw v
      | AT_BOOLEAN => ref_ok (ad_default_value_definition_ref a) /\ attr_raw v
      | AT_ENUMERATION => ref_ok (ad_default_value_definition_ref a) /\ v <> [] /\ text_raw v
      | AT_XHTML => ref_ok (ad_default_value_definition_ref a) /\ D v
      end
  end.
Definition printable_attr_def (a : attr_def) : Prop :=
  attr_raw (ad_identifier a) /\ ref_ok (ad_datatype_definition a)
  /\ when attr_escaped (ad_description a) /\ when attr_raw (ad_last_change a)
  /\ when attr_escaped (ad_long_name a)
  /\ (ad_type a <> AT_ENUMERATION -> ad_multi_valued a = None)
  /\ printable_default a
  (* the children its XML node had, if it has one *)
  /\ Forall (fun t => t = Some "DEFAULT-VALUE" \/ t = Some "TYPE") (ad_order a)
  /\ In (Some "TYPE") (ad_order a)
  /\ (ad_default_value a <> DVNone -> In (Some "DEFAULT-VALUE") (ad_order a)).
End Definitions.
(** an empty LAST-CHANGE comes back as absent; a definition reference is only
    kept with BOOLEAN, ENUMERATION and XHTML default values *)
Definition normal_attr_def (a : attr_def) : attr_def :=
  AttrDef (ad_type a) (ad_identifier a) (ad_datatype_definition a) None (ad_description a)
    (drop_empty (ad_last_change a)) (ad_long_name a) (ad_editable a)
    (match ad_default_value a, ad_type a with
     | DVStr _, (AT_BOOLEAN | AT_ENUMERATION | AT_XHTML) => ad_default_value_definition_ref a
     | _, _ => None end)
    (ad_default_value a) (ad_multi_valued a).
Definition erase_attr_def (a : attr_def) : attr_def :=
  AttrDef (ad_type a) (ad_identifier a) (ad_datatype_definition a) None (ad_description a)
    (ad_last_change a) (ad_long_name a) (ad_editable a) (ad_default_value_definition_ref a)
    (ad_default_value a) (ad_multi_valued a).

(** ** Spec types *)
Definition printable_spec_type (D : str -> Prop) (t : spec_type) : Prop :=
  match t with
  | STObject t =>
      attr_raw (sot_identifier t) /\ when attr_escaped (sot_description t)
      /\ when attr_raw (sot_last_change t) /\ when attr_escaped (sot_long_name t)
      /\ each (printable_attr_def D) (sot_attribute_definitions t)
  | STRelation t =>
      attr_raw (srt_identifier t) /\ when attr_html (srt_description t)
      /\ when attr_raw (srt_last_change t)
      /\ (exists s, srt_long_name t = Some s /\ attr_raw s)
      /\ each (printable_attr_def D) (srt_attribute_definitions t)
  | STGroup t =>
      attr_raw (rgt_identifier t) /\ when attr_html (rgt_description t)
      /\ when attr_raw (rgt_last_change t) /\ when attr_raw (rgt_long_name t)
      /\ each (printable_attr_def D) (rgt_attribute_definitions t)
  | STSpecification t =>
      attr_raw (spt_identifier t) /\ when attr_raw (spt_description t)
      /\ (exists s, spt_last_change t = Some s /\ attr_raw s)
      /\ when attr_raw (spt_long_name t)
      /\ each (printable_attr_def D) (spt_spec_attributes t)
      /\ each (fun a => ad_long_name a <> None) (spt_spec_attributes t)
  end.
Definition map_list {A B} (f : A -> B) (o : option (list A)) : option (list B) := option_map (map f) o.
(** with attribute definitions a type is not written self-closed, without them an
    empty list is not written if the type is self-closed *)
Definition still_closed {A} (closed : bool) (o : option (list A)) : bool :=
  match o with Some (_ :: _) => false | _ => closed end.
Definition still_there {A} (closed : bool) (o : option (list A)) : option (list A) :=
  match o with Some [] => if closed then None else o | _ => o end.
(** identifier to long name, in order of first occurrence; the last one wins *)
Definition name_map (o : option (list attr_def)) : dict str :=
  match o with
  | None => []
  | Some l => fold_left (fun m a => dict_set m (Some (ad_identifier a)) (fmt (ad_long_name a))) l []
  end.
Definition map_spec_type (f : attr_def -> attr_def) (t : spec_type) : spec_type :=
  match t with
  | STObject t => STObject (SpecObjectType (sot_identifier t) (sot_description t)
      (sot_last_change t) (sot_long_name t) (map_list f (sot_attribute_definitions t)))
  | STRelation t => STRelation (SpecRelationType (srt_identifier t) (srt_description t)
      (srt_last_change t) (srt_long_name t) (srt_is_self_closed t)
      (map_list f (srt_attribute_definitions t)))
  | STGroup t => STGroup (RelationGroupType (rgt_identifier t) (rgt_description t)
      (rgt_last_change t) (rgt_long_name t) (rgt_is_self_closed t)
      (map_list f (rgt_attribute_definitions t)))
  | STSpecification t => STSpecification (SpecificationType (spt_identifier t) (spt_description t)
      (spt_last_change t) (spt_long_name t) (map_list f (spt_spec_attributes t))
      (spt_spec_attribute_map t) (spt_is_self_closed t))
  end.
Definition settle_spec_type (t : spec_type) : spec_type :=
  match t with
  | STObject _ => t
  | STRelation t => STRelation (SpecRelationType (srt_identifier t) (srt_description t)
      (srt_last_change t) (srt_long_name t)
      (still_closed (srt_is_self_closed t) (srt_attribute_definitions t))
      (still_there (srt_is_self_closed t) (srt_attribute_definitions t)))
  | STGroup t => STGroup (RelationGroupType (rgt_identifier t) (rgt_description t)
      (rgt_last_change t) (rgt_long_name t)
      (still_closed (rgt_is_self_closed t) (rgt_attribute_definitions t))
      (still_there (rgt_is_self_closed t) (rgt_attribute_definitions t)))
  | STSpecification t => STSpecification (SpecificationType (spt_identifier t) (spt_description t)
      (spt_last_change t) (spt_long_name t)
      (still_there (spt_is_self_closed t) (spt_spec_attributes t))
      (Some (name_map (spt_spec_attributes t)))
      (still_closed (spt_is_self_closed t) (spt_spec_attributes t)))
  end.
Definition erase_spec_type : spec_type -> spec_type := map_spec_type erase_attr_def.
Definition normal_spec_type (t : spec_type) : spec_type :=
  settle_spec_type (map_spec_type normal_attr_def t).

(** ** Attribute values.  [V] are the XHTML values that can be written, and
    [strip v] the stripped form that the parser computes for [v]. *)
Section Values.
Variables (V : str -> Prop) (strip : str -> str).
Definition value_order (a : spec_attr) := order_of (sa_xml_node a) ["VALUES"; "DEFINITION"].
Definition printable_value (a : spec_attr) : Prop :=
  ref_ok (sa_definition_ref a) /\
  match sa_type a, sa_value a with
  | AT_STRING, VStr v => attr_html v
  | (AT_INTEGER | AT_REAL | AT_BOOLEAN | AT_DATE), VStr v => attr_raw v
  | AT_XHTML, VStr v => V v
  | AT_ENUMERATION, VList l =>
      Forall ref_ok l /\ In (Some "VALUES") (value_order a) /\ In (Some "DEFINITION") (value_order a)
  | _, _ => False
  end.
Definition normal_value (a : spec_attr) : spec_attr :=
  SpecAttr (sa_type a) (sa_definition_ref a) (sa_value a)
    (match sa_type a, sa_value a with AT_XHTML, VStr v => Some (strip v) | _, _ => None end) None.
Definition erase_value (a : spec_attr) : spec_attr :=
  SpecAttr (sa_type a) (sa_definition_ref a) (sa_value a) (sa_value_stripped_xhtml a) None.

(** ** Spec objects *)
Definition so_order (o : spec_object) := order_of (so_xml_node o) ["VALUES"; "TYPE"].
Definition printable_spec_object (o : spec_object) : Prop :=
  attr_raw (so_identifier o) /\ ref_ok (so_spec_object_type o)
  /\ when attr_raw (so_description o) /\ when attr_raw (so_last_change o)
  /\ when attr_raw (so_long_name o) /\ Forall printable_value (so_attributes o)
  /\ In (Some "VALUES") (so_order o) /\ In (Some "TYPE") (so_order o).
Definition normal_spec_object (o : spec_object) : spec_object :=
  SpecObject (so_identifier o) (map normal_value (so_attributes o)) (so_spec_object_type o)
    (so_description o) (drop_empty (so_last_change o)) (so_long_name o) None.
Definition erase_spec_object (o : spec_object) : spec_object :=
  SpecObject (so_identifier o) (map erase_value (so_attributes o)) (so_spec_object_type o)
    (so_description o) (so_last_change o) (so_long_name o) None.

(** ** Spec relations: one attribute value at most, of three types only *)
Definition sr_order (r : spec_relation) :=
  order_of (sr_xml_node r) ["TYPE"; "SOURCE"; "TARGET"; "VALUES"].
Definition printable_spec_relation (r : spec_relation) : Prop :=
  attr_raw (sr_identifier r) /\ ref_ok (sr_relation_type_ref r) /\ ref_ok (sr_source r)
  /\ ref_ok (sr_target r) /\ when attr_raw (sr_description r) /\ when attr_raw (sr_last_change r)
  /\ when attr_html (sr_long_name r)
  /\ (forall a, sr_values_attribute r = Some a ->
        printable_value a /\ In (sa_type a) [AT_STRING; AT_XHTML; AT_INTEGER]
        /\ In (Some "VALUES") (sr_order r))
  /\ Forall (fun t => In t (map Some ["TYPE"; "SOURCE"; "TARGET"; "VALUES"])) (sr_order r)
  /\ In (Some "TYPE") (sr_order r) /\ In (Some "SOURCE") (sr_order r) /\ In (Some "TARGET") (sr_order r).
Definition map_spec_relation (f : spec_attr -> spec_attr) (r : spec_relation) : spec_relation :=
  SpecRelation (sr_identifier r) (sr_relation_type_ref r) (sr_source r) (sr_target r) None
    (sr_description r) (sr_last_change r) (sr_long_name r) (option_map f (sr_values_attribute r)).
Definition normal_spec_relation := map_spec_relation normal_value.
Definition erase_spec_relation := map_spec_relation erase_value.

(** ** Hierarchies and specifications *)
Fixpoint printable_hier (h : hier) : Prop :=
  match h with
  | Hier identifier obj _ ch long_name _ last_change _ _ _ _ =>
      attr_raw identifier /\ ref_ok obj /\ when attr_raw long_name /\ when attr_raw last_change
      /\ match ch with
         | None => True
         | Some l => (fix all (l : list hier) : Prop :=
                        match l with [] => True | x :: l' => printable_hier x /\ all l' end) l
         end
  end.
(** the order and the self-closed flag only matter with children resp. without *)
Fixpoint normal_hier (h : hier) : hier :=
  match h with
  | Hier identifier obj level ch long_name order last_change editable table closed _ =>
      Hier identifier obj level (option_map (map normal_hier) ch) (drop_empty long_name)
        (match ch with Some _ => order | None => false end)
        (drop_empty last_change) editable table
        (match ch with Some [] => closed | _ => false end) None
  end.
Fixpoint erase_hier (h : hier) : hier :=
  match h with
  | Hier identifier obj level ch long_name order last_change editable table closed _ =>
      Hier identifier obj level (option_map (map erase_hier) ch) long_name order last_change
        editable table closed None
  end.
Definition sp_order (s : specification) := order_of (sp_xml_node s) ["TYPE"; "CHILDREN"; "VALUES"].
Definition printable_specification (s : specification) : Prop :=
  attr_raw (sp_identifier s) /\ when attr_escaped (sp_description s)
  /\ when attr_raw (sp_last_change s) /\ when attr_escaped (sp_long_name s)
  /\ when text_raw (sp_specification_type s)
  /\ each printable_value (sp_values s)
  /\ each printable_hier (sp_children s) /\ each (leveled 1) (sp_children s)
  /\ (drop_empty (sp_specification_type s) <> None -> In (Some "TYPE") (sp_order s))
  /\ (sp_children s <> None -> In (Some "CHILDREN") (sp_order s))
  /\ (sp_values s <> None -> In (Some "VALUES") (sp_order s)).
Definition normal_specification (s : specification) : specification :=
  Specification (sp_identifier s) (sp_description s) (sp_last_change s) (sp_long_name s)
    (map_list normal_value (sp_values s)) (drop_empty (sp_specification_type s))
    (map_list normal_hier (sp_children s)) None.
Definition erase_specification (s : specification) : specification :=
  Specification (sp_identifier s) (sp_description s) (sp_last_change s) (sp_long_name s)
    (map_list erase_value (sp_values s)) (sp_specification_type s)
    (map_list erase_hier (sp_children s)) None.
End Values.

(** ** Relation groups *)
Definition printable_relation_group (g : relation_group) : Prop :=
  attr_raw (rg_identifier g) /\ when attr_raw (rg_description g) /\ when attr_raw (rg_last_change g)
  /\ when attr_raw (rg_long_name g)
  /\ (rg_type_ref g <> None -> ref_ok (rg_type_ref g))
  /\ (rg_source_specification_ref g <> None -> ref_ok (rg_source_specification_ref g))
  /\ (rg_target_specification_ref g <> None -> ref_ok (rg_target_specification_ref g))
  /\ each ref_ok (rg_spec_relations g).
Definition normal_relation_group (g : relation_group) : relation_group :=
  RelationGroup (rg_identifier g) (rg_description g) (rg_last_change g) (drop_empty (rg_long_name g))
    (rg_type_ref g) (rg_source_specification_ref g) (rg_target_specification_ref g)
    (rg_spec_relations g) false.
