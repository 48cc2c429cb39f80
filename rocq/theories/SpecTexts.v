(** SpecTexts.v -- the texts stored in a bundle, without the XML nodes that its
    objects remember and without the second form of XHTML values (the one that
    is not written: value_stripped_xhtml) *)
From Verif Require Import Base Xml Lxml Py Models.

Section Texts.
(** what is asked of every text *)
Variable P : str -> Prop.

Definition opt_text_is (o : option str) : Prop := match o with Some s => P s | None => True end.
(** a list that may be absent *)
Definition all_of {A} (Q : A -> Prop) (o : option (list A)) : Prop := match o with Some l => Forall Q l | None => True end.

Definition header_texts (h : header) : Prop :=
  opt_text_is (hd_identifier h) /\ opt_text_is (hd_comment h) /\ opt_text_is (hd_creation_time h)
  /\ match hd_repository_id h with RepoStr s => P s | _ => True end
  /\ opt_text_is (hd_req_if_tool_id h) /\ opt_text_is (hd_req_if_version h)
  /\ opt_text_is (hd_source_tool_id h) /\ opt_text_is (hd_title h).
Definition namespace_texts (i : namespace_info) : Prop :=
  opt_text_is (ni_dump i) /\ P (ni_encoding i) /\ opt_text_is (ni_namespace i) /\ opt_text_is (ni_configuration i)
  /\ opt_text_is (ni_namespace_id i) /\ opt_text_is (ni_namespace_xhtml i) /\ opt_text_is (ni_schema_namespace i)
  /\ opt_text_is (ni_schema_location i) /\ opt_text_is (ni_language i).
(** the four attributes that most elements have *)
Definition label_texts (identifier : str) (desc last_change long_name : option str) : Prop :=
  P identifier /\ opt_text_is desc /\ opt_text_is last_change /\ opt_text_is long_name.

Definition enum_value_texts (v : enum_value) : Prop :=
  label_texts (ev_identifier v) (ev_description v) (ev_last_change v) (ev_long_name v)
  /\ P (ev_key v) /\ opt_text_is (ev_other_content v).
Definition data_type_texts (d : data_type) : Prop :=
  label_texts (dt_identifier (dt_c d)) (dt_description (dt_c d)) (dt_last_change (dt_c d)) (dt_long_name (dt_c d))
  /\ match d with
     | DTString _ m => opt_text_is m
     | DTInteger _ mx mn | DTReal _ _ mx mn => opt_text_is mx /\ opt_text_is mn
     | DTEnumeration _ vs => all_of enum_value_texts vs
     | DTBoolean _ | DTXhtml _ | DTDate _ => True
     end.
Definition attr_def_texts (a : attr_def) : Prop :=
  label_texts (ad_identifier a) (ad_description a) (ad_last_change a) (ad_long_name a)
  /\ opt_text_is (ad_datatype_definition a) /\ opt_text_is (ad_default_value_definition_ref a)
  /\ match ad_default_value a with DVStr s => P s | _ => True end.
Definition spec_type_texts (t : spec_type) : Prop :=
  match t with
  | STObject t => label_texts (sot_identifier t) (sot_description t) (sot_last_change t) (sot_long_name t)
                  /\ all_of attr_def_texts (sot_attribute_definitions t)
  | STRelation t => label_texts (srt_identifier t) (srt_description t) (srt_last_change t) (srt_long_name t)
                    /\ all_of attr_def_texts (srt_attribute_definitions t)
  | STSpecification t => label_texts (spt_identifier t) (spt_description t) (spt_last_change t) (spt_long_name t)
                         /\ all_of attr_def_texts (spt_spec_attributes t)
  | STGroup t => label_texts (rgt_identifier t) (rgt_description t) (rgt_last_change t) (rgt_long_name t)
                 /\ all_of attr_def_texts (rgt_attribute_definitions t)
  end.
Definition attr_value_texts (a : spec_attr) : Prop :=
  opt_text_is (sa_definition_ref a)
  /\ match sa_value a with VStr s => P s | VList l => Forall opt_text_is l end.
Definition spec_object_texts (o : spec_object) : Prop :=
  label_texts (so_identifier o) (so_description o) (so_last_change o) (so_long_name o)
  /\ opt_text_is (so_spec_object_type o) /\ Forall attr_value_texts (so_attributes o).
Definition spec_relation_texts (r : spec_relation) : Prop :=
  label_texts (sr_identifier r) (sr_description r) (sr_last_change r) (sr_long_name r)
  /\ opt_text_is (sr_relation_type_ref r) /\ opt_text_is (sr_source r) /\ opt_text_is (sr_target r)
  /\ match sr_values_attribute r with Some a => attr_value_texts a | None => True end.
Inductive hierarchy_texts : hier -> Prop :=
| hierarchy_texts_intro identifier obj level ch long_name order last_change editable table closed n :
    P identifier -> opt_text_is obj -> opt_text_is long_name -> opt_text_is last_change ->
    (forall l, ch = Some l -> Forall hierarchy_texts l) ->
    hierarchy_texts (Hier identifier obj level ch long_name order last_change editable table closed n).
Definition specification_texts (s : specification) : Prop :=
  label_texts (sp_identifier s) (sp_description s) (sp_last_change s) (sp_long_name s)
  /\ opt_text_is (sp_specification_type s) /\ all_of attr_value_texts (sp_values s)
  /\ all_of hierarchy_texts (sp_children s).
Definition relation_group_texts (g : relation_group) : Prop :=
  label_texts (rg_identifier g) (rg_description g) (rg_last_change g) (rg_long_name g)
  /\ opt_text_is (rg_type_ref g) /\ opt_text_is (rg_source_specification_ref g)
  /\ opt_text_is (rg_target_specification_ref g) /\ all_of opt_text_is (rg_spec_relations g).
Definition content_texts (c : content) : Prop :=
  all_of data_type_texts (rc_data_types c) /\ all_of spec_type_texts (rc_spec_types c)
  /\ all_of spec_object_texts (rc_spec_objects c) /\ all_of spec_relation_texts (rc_spec_relations c)
  /\ all_of specification_texts (rc_specifications c) /\ all_of relation_group_texts (rc_spec_relation_groups c).
Definition bundle_texts (b : bundle) : Prop :=
  namespace_texts (b_namespace_info b)
  /\ match b_header b with Some h => header_texts h | None => True end
  /\ match b_core_content b with Some (Some c) => content_texts c | _ => True end.
End Texts.
