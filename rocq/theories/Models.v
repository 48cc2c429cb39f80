(** Models.v -- the data classes of reqif/models.

    Fields typed [str] in Python but filled from an element's [.text] (which
    can be [None]) are [option str] here.  [xml_node] fields keep the XML node,
    as in Python. *)
From Verif Require Import Base Xml Lxml Py.

(** SpecObjectAttributeType, models/reqif_types.py:4-11 *)
Inductive attr_type :=
| AT_STRING | AT_ENUMERATION | AT_INTEGER | AT_REAL | AT_BOOLEAN | AT_DATE | AT_XHTML.

(** The enum member name, used by reqif_types.py:31, :34 *)
Definition at_name (t : attr_type) : str :=
  match t with
  | AT_STRING => "STRING" | AT_ENUMERATION => "ENUMERATION"
  | AT_INTEGER => "INTEGER" | AT_REAL => "REAL" | AT_BOOLEAN => "BOOLEAN"
  | AT_DATE => "DATE" | AT_XHTML => "XHTML"
  end.
(** get_spec_type_tag, reqif_types.py:13-28 *)
Definition get_spec_type_tag (t : attr_type) : str :=
  match t with
  | AT_STRING => "ATTRIBUTE-DEFINITION-STRING"
  | AT_ENUMERATION => "ATTRIBUTE-DEFINITION-ENUMERATION"
  | AT_INTEGER => "ATTRIBUTE-DEFINITION-INTEGER"
  | AT_REAL => "ATTRIBUTE-DEFINITION-REAL"
  | AT_BOOLEAN => "ATTRIBUTE-DEFINITION-BOOLEAN"
  | AT_DATE => "ATTRIBUTE-DEFINITION-DATE"
  | AT_XHTML => "ATTRIBUTE-DEFINITION-XHTML"
  end.
(** get_definition_tag, reqif_types.py:30-31 *)
Definition get_definition_tag (t : attr_type) : str :=
  "DATATYPE-DEFINITION-" ++ at_name t ++ "-REF".
(** get_attribute_value_tag, reqif_types.py:33-34 *)
Definition get_attribute_value_tag (t : attr_type) : str :=
  "ATTRIBUTE-VALUE-" ++ at_name t.

(** [a == b] on enum members *)
Definition attr_type_eqb (a b : attr_type) : bool := str_eqb (at_name a) (at_name b).

(** ReqIFReqIFHeader, models/reqif_reqif_header.py:13-32; EmptyTag :8-9 *)
Inductive repo_id := RepoNone | RepoEmptyTag | RepoStr (s : str).
(** ReqIFReqIFHeader, reqif_reqif_header.py:13-32 *)
Record header := Header {
  hd_identifier : option str;
  hd_comment : option str;
  hd_creation_time : option str;
  hd_repository_id : repo_id;
  hd_req_if_tool_id : option str;
  hd_req_if_version : option str;
  hd_source_tool_id : option str;
  hd_title : option str }.

(** ReqIFNamespaceInfo, models/reqif_namespace_info.py:6-32 *)
Record namespace_info := NamespaceInfo {
  ni_dump : option str;
  ni_doctype_is_present : bool;
  ni_encoding : str;
  ni_namespace : option str;
  ni_configuration : option str;
  ni_namespace_id : option str;
  ni_namespace_xhtml : option str;
  ni_schema_namespace : option str;
  ni_schema_location : option str;
  ni_language : option str }.
(** ReqIFNamespaceInfo.empty, reqif_namespace_info.py:34-50 *)
Definition namespace_info_empty (namespace configuration : option str) : namespace_info :=
  NamespaceInfo None true "UTF-8" namespace configuration None None None None None.
(** ReqIFNamespaceInfo.create_default, reqif_namespace_info.py:52-65 *)
Definition namespace_info_default : namespace_info :=
  NamespaceInfo None true "UTF-8"
    (Some "http://www.omg.org/spec/ReqIF/20110401/reqif.xsd") None None
    (Some "http://www.w3.org/1999/xhtml") None None None.

(** Data types, models/reqif_data_type.py.  The fields shared by all classes: *)
Record dt_common := DTC {
  dt_identifier : str;
  dt_description : option str;
  dt_last_change : option str;
  dt_long_name : option str;
  dt_is_self_closed : bool }.
(** ReqIFEnumValue, reqif_data_type.py:102-118 *)
Record enum_value := EnumValue {
  ev_identifier : str;
  ev_key : str;
  ev_description : option str;
  ev_last_change : option str;
  ev_other_content : option str;
  ev_long_name : option str }.
(** The classes of data types; lines of reqif_data_type.py. *)
Inductive data_type :=
| DTString (c : dt_common) (max_length : option str)            (* :6-22 *)
| DTBoolean (c : dt_common)                                      (* :33-47 *)
| DTInteger (c : dt_common) (max_value min_value : option str)   (* :58-76 *)
| DTReal (c : dt_common) (accuracy : option Z) (max_value min_value : option str) (* :79-99 *)
| DTEnumeration (c : dt_common) (values : option (list enum_value)) (* :128-148 *)
| DTXhtml (c : dt_common)                                        (* :158-172 *)
| DTDate (c : dt_common).                                        (* :175-189 *)
Definition dt_c (d : data_type) : dt_common :=
  match d with
  | DTString c _ | DTBoolean c | DTInteger c _ _ | DTReal c _ _ _
  | DTEnumeration c _ | DTXhtml c | DTDate c => c end.
(** [data_type.identifier] *)
Definition dt_id (d : data_type) : str := dt_identifier (dt_c d).
(** values_map, reqif_data_type.py:144-147 *)
Definition values_map (values : option (list enum_value)) : dict enum_value :=
  match values with
  | None => []
  | Some vs => fold_left (fun m v => dict_set m (Some (ev_identifier v)) v) vs []
  end.

(** Default values: None, DefaultValueEmptySelfClosedTag, or a string
    (reqif_spec_object_type.py:7-8, :24).  An ENUM-VALUE-REF without text gives
    None. *)
Inductive default_value := DVNone | DVEmptyTag | DVStr (s : str).

(** SpecAttributeDefinition, reqif_spec_object_type.py:11-42.  [editable] holds
    the boolean computed by the constructor (:35-37). *)
Record attr_def := AttrDef {
  ad_type : attr_type;
  ad_identifier : str;
  ad_datatype_definition : option str;
  ad_xml_node : option node;
  ad_description : option str;
  ad_last_change : option str;
  ad_long_name : option str;
  ad_editable : option bool;
  ad_default_value_definition_ref : option str;
  ad_default_value : default_value;
  ad_multi_valued : option bool }.
(** SpecAttributeDefinition.__init__, editable, reqif_spec_object_type.py:35-37 *)
Definition editable_of (s : option str) : option bool :=
  match s with Some x => Some (str_eqb x "true") | None => None end.

(** ReqIFSpecObjectType, reqif_spec_object_type.py:61-85 *)
Record spec_object_type := SpecObjectType {
  sot_identifier : str;
  sot_description : option str;
  sot_last_change : option str;
  sot_long_name : option str;
  sot_attribute_definitions : option (list attr_def) }.
(** attribute_map, reqif_spec_object_type.py:80-85 *)
Definition sot_attribute_map (t : spec_object_type) : dict attr_def :=
  match sot_attribute_definitions t with
  | None => []
  | Some l => fold_left (fun m a => dict_set m (Some (ad_identifier a)) a) l []
  end.

(** ReqIFSpecRelationType, reqif_spec_relation_type.py:6-23;
    ReqIFRelationGroupType, reqif_relation_group_type.py:6-23;
    ReqIFSpecificationType, reqif_specification_type.py:7-26 (which also has
    spec_attribute_map). *)
Record spec_relation_type := SpecRelationType {
  srt_identifier : str;
  srt_description : option str;
  srt_last_change : option str;
  srt_long_name : option str;
  srt_is_self_closed : bool;
  srt_attribute_definitions : option (list attr_def) }.
(** ReqIFRelationGroupType, reqif_relation_group_type.py:6-23 *)
Record relation_group_type := RelationGroupType {
  rgt_identifier : str;
  rgt_description : option str;
  rgt_last_change : option str;
  rgt_long_name : option str;
  rgt_is_self_closed : bool;
  rgt_attribute_definitions : option (list attr_def) }.
(** ReqIFSpecificationType, reqif_specification_type.py:7-26 *)
Record specification_type := SpecificationType {
  spt_identifier : str;
  spt_description : option str;
  spt_last_change : option str;
  spt_long_name : option str;
  spt_spec_attributes : option (list attr_def);
  spt_spec_attribute_map : option (dict str);
  spt_is_self_closed : bool }.
(** an element of spec_types, parser.py:286-309 *)
Inductive spec_type :=
| STObject (t : spec_object_type)
| STRelation (t : spec_relation_type)
| STSpecification (t : specification_type)
| STGroup (t : relation_group_type).
(** [spec_type.identifier] *)
Definition st_identifier (t : spec_type) : str :=
  match t with
  | STObject t => sot_identifier t | STRelation t => srt_identifier t
  | STSpecification t => spt_identifier t | STGroup t => rgt_identifier t end.

(** SpecObjectAttribute, reqif_spec_object.py:7-23 *)
Inductive attr_value := VStr (s : str) | VList (l : list (option str)).
(** SpecObjectAttribute, reqif_spec_object.py:7-23 *)
Record spec_attr := SpecAttr {
  sa_type : attr_type;
  sa_definition_ref : option str;
  sa_value : attr_value;
  sa_value_stripped_xhtml : option str;
  sa_xml_node : option node }.

(** ReqIFSpecObject, reqif_spec_object.py:26-49 *)
Record spec_object := SpecObject {
  so_identifier : str;
  so_attributes : list spec_attr;
  so_spec_object_type : option str;
  so_description : option str;
  so_last_change : option str;
  so_long_name : option str;
  so_xml_node : option node }.
(** attribute_map, reqif_spec_object.py:47-49 *)
Definition so_attribute_map (o : spec_object) : dict spec_attr :=
  fold_left (fun m a => dict_set m (sa_definition_ref a) a) (so_attributes o) [].

(** ReqIFSpecRelation, reqif_spec_relation.py:7-30 *)
Record spec_relation := SpecRelation {
  sr_identifier : str;
  sr_relation_type_ref : option str;
  sr_source : option str;
  sr_target : option str;
  sr_xml_node : option node;
  sr_description : option str;
  sr_last_change : option str;
  sr_long_name : option str;
  sr_values_attribute : option spec_attr }.

(** ReqIFSpecHierarchy, reqif_spec_hierarchy.py:6-42 *)
Inductive hier : Type := Hier
  (identifier : str) (spec_object_ : option str) (level : nat)
  (children_ : option (list hier)) (long_name : option str)
  (ref_then_children_order : bool) (last_change : option str)
  (editable : option bool) (is_table_internal : option bool)
  (is_self_closed : bool) (xml_node : option node).
(** the attributes of a ReqIFSpecHierarchy, reqif_spec_hierarchy.py:26-42 *)
Definition h_identifier (h : hier) := let 'Hier x _ _ _ _ _ _ _ _ _ _ := h in x.
(** :27 *)
Definition h_spec_object (h : hier) := let 'Hier _ x _ _ _ _ _ _ _ _ _ := h in x.
(** :29 *)
Definition h_level (h : hier) := let 'Hier _ _ x _ _ _ _ _ _ _ _ := h in x.
(** :32 *)
Definition h_children (h : hier) := let 'Hier _ _ _ x _ _ _ _ _ _ _ := h in x.
(** :33 *)
Definition h_long_name (h : hier) := let 'Hier _ _ _ _ x _ _ _ _ _ _ := h in x.
(** ref_then_children_order, :37 *)
Definition h_order (h : hier) := let 'Hier _ _ _ _ _ x _ _ _ _ _ := h in x.
(** :38 *)
Definition h_last_change (h : hier) := let 'Hier _ _ _ _ _ _ x _ _ _ _ := h in x.
(** :39 *)
Definition h_editable (h : hier) := let 'Hier _ _ _ _ _ _ _ x _ _ _ := h in x.
(** is_table_internal, :40 *)
Definition h_table (h : hier) := let 'Hier _ _ _ _ _ _ _ _ x _ _ := h in x.
(** :41 *)
Definition h_self_closed (h : hier) := let 'Hier _ _ _ _ _ _ _ _ _ x _ := h in x.
(** :42 *)
Definition h_xml_node (h : hier) := let 'Hier _ _ _ _ _ _ _ _ _ _ x := h in x.
(** the children; None counts as none (reqif_bundle.py:75-76) *)
Definition h_kids (h : hier) : list hier :=
  match h_children h with Some l => l | None => [] end.

(** ReqIFSpecification, reqif_specification.py:10-30 *)
Record specification := Specification {
  sp_identifier : str;
  sp_description : option str;
  sp_last_change : option str;
  sp_long_name : option str;
  sp_values : option (list spec_attr);
  sp_specification_type : option str;
  sp_children : option (list hier);
  sp_xml_node : option node }.

(** ReqIFRelationGroup, reqif_relation_group.py:4-25 *)
Record relation_group := RelationGroup {
  rg_identifier : str;
  rg_description : option str;
  rg_last_change : option str;
  rg_long_name : option str;
  rg_type_ref : option str;
  rg_source_specification_ref : option str;
  rg_target_specification_ref : option str;
  rg_spec_relations : option (list (option str));
  rg_is_self_closed : bool }.

(** ReqIFReqIFContent, reqif_req_if_content.py:14-50 *)
Record content := Content {
  rc_data_types : option (list data_type);
  rc_spec_types : option (list spec_type);
  rc_spec_objects : option (list spec_object);
  rc_spec_relations : option (list spec_relation);
  rc_specifications : option (list specification);
  rc_spec_relation_groups : option (list relation_group) }.

(** ReqIFObjectLookup, object_lookup.py:7-19.  [lk_parents_default] tells
    whether spec_relations_parent_lookup is a defaultdict(list) (parser.py:324)
    or a plain dict (object_lookup.py:21-28). *)
Record lookup := Lookup {
  lk_data_types : dict data_type;
  lk_spec_types : dict spec_type;
  lk_spec_objects : dict spec_object;
  lk_parents : dict (list (option str));
  lk_parents_default : bool }.
(** ReqIFObjectLookup.empty, object_lookup.py:21-28 *)
Definition lookup_empty : lookup := Lookup [] [] [] [] false.

(** ReqIFCoreContent (reqif_core_content.py) is its optional content;
    ReqIFBundle, reqif_bundle.py:39-53 *)
Record bundle := Bundle {
  b_namespace_info : namespace_info;
  b_header : option header;
  b_core_content : option (option content);
  b_tool_extensions : bool;
  b_lookup : lookup;
  b_exceptions : list exn }.
(** ReqIFBundle.create_empty, reqif_bundle.py:23-37 *)
Definition bundle_empty (namespace configuration : option str) : bundle :=
  Bundle (namespace_info_empty namespace configuration) None None false lookup_empty [].

(** ReqIFZBundle, reqif_bundle.py:131-139 *)
Record zbundle := ZBundle {
  z_bundles : dict bundle;
  z_attachments : dict (list N) }.
