(** SpecSettle.v -- documents that were read: what is written for references
    that are absent, which of their texts survive being written, and which
    documents can be written at all. *)
From Verif Require Import Base Xml Lxml Py LxmlStr Models SpecEscape SpecTraversal SpecPrint SpecXhtml SpecDocument.

(** ** Absent references
    A reference that is absent is written as the text None.  [spell_*] is the
    object with these texts filled in; nothing else changes. *)
Definition spelled (o : option str) : option str := Some (match o with Some s => s | None => "None" end).
Definition spell_attr_def (a : attr_def) : attr_def :=
  AttrDef (ad_type a) (ad_identifier a) (spelled (ad_datatype_definition a)) (ad_xml_node a)
    (ad_description a) (ad_last_change a) (ad_long_name a) (ad_editable a)
    (ad_default_value_definition_ref a) (ad_default_value a) (ad_multi_valued a).
Definition spell_spec_type : spec_type -> spec_type := map_spec_type spell_attr_def.
Definition spell_value (a : spec_attr) : spec_attr :=
  SpecAttr (sa_type a) (spelled (sa_definition_ref a))
    (match sa_value a with VList l => VList (map spelled l) | v => v end)
    (sa_value_stripped_xhtml a) (sa_xml_node a).
Definition spell_spec_object (o : spec_object) : spec_object :=
  SpecObject (so_identifier o) (map spell_value (so_attributes o)) (spelled (so_spec_object_type o))
    (so_description o) (so_last_change o) (so_long_name o) (so_xml_node o).
Definition spell_spec_relation (r : spec_relation) : spec_relation :=
  SpecRelation (sr_identifier r) (spelled (sr_relation_type_ref r)) (spelled (sr_source r))
    (spelled (sr_target r)) (sr_xml_node r) (sr_description r) (sr_last_change r) (sr_long_name r)
    (option_map spell_value (sr_values_attribute r)).
Fixpoint spell_hier (h : hier) : hier :=
  match h with
  | Hier identifier obj level ch long_name order last_change editable table closed n =>
      Hier identifier (spelled obj) level (option_map (map spell_hier) ch) long_name order
        last_change editable table closed n
  end.
Definition spell_specification (s : specification) : specification :=
  Specification (sp_identifier s) (sp_description s) (sp_last_change s) (sp_long_name s)
    (map_list spell_value (sp_values s)) (sp_specification_type s)
    (map_list spell_hier (sp_children s)) (sp_xml_node s).
Definition spell_relation_group (g : relation_group) : relation_group :=
  RelationGroup (rg_identifier g) (rg_description g) (rg_last_change g) (rg_long_name g)
    (rg_type_ref g) (rg_source_specification_ref g) (rg_target_specification_ref g)
    (map_list spelled (rg_spec_relations g)) (rg_is_self_closed g).
Definition spell_content : content -> content :=
  map_content (fun d => d) spell_spec_type spell_spec_object spell_spec_relation
    spell_specification spell_relation_group.
Definition spell_bundle (b : bundle) : bundle :=
  Bundle (b_namespace_info b) (b_header b) (option_map (option_map spell_content) (b_core_content b))
    (b_tool_extensions b) (b_lookup b) (b_exceptions b).

(** ** Texts that survive being written
    As in SpecPrint, but only the texts are constrained. *)
Definition plain_ref : option str -> Prop := when (fun s => s <> [] /\ text_raw s).
Definition plain_header (h : header) : Prop :=
  when attr_raw (hd_identifier h)
  /\ when text_raw (hd_comment h) /\ when text_raw (hd_creation_time h)
  /\ (forall r, hd_repository_id h = RepoStr r -> r <> [] /\ text_raw r)
  /\ when text_raw (hd_req_if_tool_id h) /\ when text_raw (hd_req_if_version h)
  /\ when text_raw (hd_source_tool_id h) /\ when text_title (hd_title h).
Definition plain_data_type (d : data_type) : Prop :=
  match d with
  | DTString c max_length => printable_common attr_escaped c /\ when attr_raw max_length
  | DTBoolean c | DTXhtml c => printable_common attr_escaped c
  | DTDate c => printable_common attr_raw c
  | DTInteger c max min => printable_common attr_raw c /\ when attr_raw max /\ when attr_raw min
  | DTReal c _ max min => printable_common attr_raw c /\ when attr_raw max /\ when attr_raw min
  | DTEnumeration c values => printable_common attr_escaped c /\ each printable_enum_value values
  end.
Section Texts.
(** XHTML default values and values that can be written *)
Variables D V : str -> Prop.
Definition plain_attr_def (a : attr_def) : Prop :=
  attr_raw (ad_identifier a) /\ plain_ref (ad_datatype_definition a)
  /\ when attr_escaped (ad_description a) /\ when attr_raw (ad_last_change a)
  /\ when attr_escaped (ad_long_name a) /\ plain_ref (ad_default_value_definition_ref a)
  /\ (forall v, ad_default_value a = DVStr v ->
        match ad_type a with
        | AT_XHTML => D v
        | AT_ENUMERATION => v <> [] /\ text_raw v
        | _ => attr_raw v
        end).
Definition plain_spec_type (t : spec_type) : Prop :=
  Forall plain_attr_def (type_definitions t) /\
  match t with
  | STObject t =>
      attr_raw (sot_identifier t) /\ when attr_escaped (sot_description t)
      /\ when attr_raw (sot_last_change t) /\ when attr_escaped (sot_long_name t)
  | STRelation t =>
      attr_raw (srt_identifier t) /\ when attr_html (srt_description t)
      /\ when attr_raw (srt_last_change t) /\ when attr_raw (srt_long_name t)
  | STGroup t =>
      attr_raw (rgt_identifier t) /\ when attr_html (rgt_description t)
      /\ when attr_raw (rgt_last_change t) /\ when attr_raw (rgt_long_name t)
  | STSpecification t =>
      attr_raw (spt_identifier t) /\ when attr_raw (spt_description t)
      /\ when attr_raw (spt_last_change t) /\ when attr_raw (spt_long_name t)
  end.
Definition plain_value (a : spec_attr) : Prop :=
  plain_ref (sa_definition_ref a) /\
  match sa_value a with
  | VList l => Forall plain_ref l
  | VStr v => match sa_type a with
              | AT_STRING => attr_html v
              | AT_XHTML => V v
              | _ => attr_raw v
              end
  end.
Definition plain_spec_object (o : spec_object) : Prop :=
  attr_raw (so_identifier o) /\ plain_ref (so_spec_object_type o)
  /\ when attr_raw (so_description o) /\ when attr_raw (so_last_change o)
  /\ when attr_raw (so_long_name o) /\ Forall plain_value (so_attributes o).
Definition plain_spec_relation (r : spec_relation) : Prop :=
  attr_raw (sr_identifier r) /\ plain_ref (sr_relation_type_ref r) /\ plain_ref (sr_source r)
  /\ plain_ref (sr_target r) /\ when attr_raw (sr_description r) /\ when attr_raw (sr_last_change r)
  /\ when attr_html (sr_long_name r)
  /\ (forall a, sr_values_attribute r = Some a -> plain_value a).
(** for a hierarchy: for every node in it *)
Definition plain_hier (h : hier) : Prop :=
  forall x, within x h ->
    attr_raw (h_identifier x) /\ plain_ref (h_spec_object x)
    /\ when attr_raw (h_long_name x) /\ when attr_raw (h_last_change x).
Definition plain_specification (s : specification) : Prop :=
  attr_raw (sp_identifier s) /\ when attr_escaped (sp_description s)
  /\ when attr_raw (sp_last_change s) /\ when attr_escaped (sp_long_name s)
  /\ when text_raw (sp_specification_type s)
  /\ each plain_value (sp_values s) /\ each plain_hier (sp_children s).
Definition plain_relation_group (g : relation_group) : Prop :=
  attr_raw (rg_identifier g) /\ when attr_raw (rg_description g) /\ when attr_raw (rg_last_change g)
  /\ when attr_raw (rg_long_name g) /\ plain_ref (rg_type_ref g)
  /\ plain_ref (rg_source_specification_ref g) /\ plain_ref (rg_target_specification_ref g)
  /\ each plain_ref (rg_spec_relations g).
Definition plain_content (c : content) : Prop :=
  each plain_data_type (rc_data_types c) /\ each plain_spec_type (rc_spec_types c)
  /\ each plain_spec_object (rc_spec_objects c) /\ each plain_spec_relation (rc_spec_relations c)
  /\ each plain_specification (rc_specifications c)
  /\ each plain_relation_group (rc_spec_relation_groups c).
End Texts.
(** [r] is the opening tag; [p] and [u] are prefix and URI of the XHTML
    elements in the values. *)
Definition plain_bundle (r : root_tag) (p u : str) (b : bundle) : Prop :=
  let M := visible r p (uses_markup b) in
  root_ok r /\ ni_dump (b_namespace_info b) = Some (root_text r)
  /\ plain_name p = true /\ p <> "xml" /\ contains "http://www.w3.org/1999/xhtml" u = true
  /\ (uses_markup b = true -> In (Some p, u) (rt_decls r))
  /\ (forall h, b_header b = Some h -> plain_header h)
  /\ (forall c, b_core_content b = Some (Some c) ->
        plain_content (xhtml_default M p u) (xhtml_value M p u) c)
  /\ (b_header b <> None \/ b_core_content b <> None \/ b_tool_extensions b = true).

(** ** Documents that can be written
    What the unparser requires of an object that came from the parser.  The
    lists of child tags are those of the element it was read from. *)
Definition writable_header (h : header) : Prop := hd_identifier h <> Some [].
(** only the two known children, and a default value of these three types names
    the definition it belongs to *)
Definition writable_attr_def (a : attr_def) : Prop :=
  Forall (fun t => t = Some "DEFAULT-VALUE" \/ t = Some "TYPE") (ad_order a)
  /\ (forall v, ad_default_value a = DVStr v ->
        In (ad_type a) [AT_BOOLEAN; AT_ENUMERATION; AT_XHTML] ->
        ad_default_value_definition_ref a <> None).
(** a VALUES element *)
Definition writable_spec_object (o : spec_object) : Prop := In (Some "VALUES") (so_order o).
(** only the four known children *)
Definition writable_spec_relation (r : spec_relation) : Prop :=
  Forall (fun t => In t (map Some ["TYPE"; "SOURCE"; "TARGET"; "VALUES"])) (sr_order r).
Definition writable_content (c : content) : Prop :=
  Forall writable_attr_def (flat_map type_definitions (items (rc_spec_types c)))
  /\ Forall writable_spec_object (items (rc_spec_objects c))
  /\ Forall writable_spec_relation (items (rc_spec_relations c)).
Definition writable_bundle (b : bundle) : Prop :=
  (ni_dump (b_namespace_info b) <> None \/ ni_namespace (b_namespace_info b) <> None
   \/ ni_configuration (b_namespace_info b) <> None)
  /\ (forall h, b_header b = Some h -> writable_header h)
  /\ (forall c, b_core_content b = Some (Some c) -> writable_content c).
