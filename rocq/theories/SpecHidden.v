(** SpecHidden.v -- anonymised documents and bundles *)
From Verif Require Import Base Xml Utf8 Lxml Py Models SpecPrint SpecFormat SpecAnonymize SpecLayout.

Definition both {A} (R : A -> A -> Prop) (o o' : option A) : Prop :=
  match o, o' with Some a, Some a' => R a a' | None, None => True | _, _ => False end.

(** ** Documents in one namespace

    [plain_element]: an element [l] of the namespace [uri], which is not the
    XHTML namespace *)
Definition plain_element (uri : str) (ns : option nsref) (l : str) : Prop :=
  (exists p, ns = Some (p, uri)) /\ contains "http://www.w3.org/1999/xhtml" (clark ns l) = false.
(** elements with a place of their own in a ReqIF document, by the name of the
    parent *)
Definition placed (parent l : str) : Prop :=
  (l = "SPECIFICATION" -> parent = "SPECIFICATIONS")
  /\ (l = "REQ-IF-HEADER" -> parent = "THE-HEADER")
  /\ (l = "ATTRIBUTE-VALUE-STRING" \/ l = "ATTRIBUTE-VALUE-XHTML" -> parent = "VALUES" \/ parent = "DEFAULT-VALUE").
(** [in_namespace uri parent n]: all elements in [n] are plain and placed, but for
    the content of XHTML values, which has no elements in this namespace.  There
    are no processing instructions. *)
Inductive in_namespace (uri : str) : str -> node -> Prop :=
| in_chr parent c : in_namespace uri parent (Chr c)
| in_cmt parent s : in_namespace uri parent (Cmt s)
| in_value ns d i a kids :
    plain_element uri ns "THE-VALUE" -> Forall (foreign uri) kids ->
    in_namespace uri "ATTRIBUTE-VALUE-XHTML" (El ns "THE-VALUE" d i a kids)
| in_el parent ns l d i a kids :
    plain_element uri ns l -> placed parent l -> Forall (in_namespace uri l) kids -> in_namespace uri parent (El ns l d i a kids).
(** of the content of tool extensions, nothing is required *)
Definition one_namespace (uri : str) (root : node) : Prop :=
  exists ns l d i a kids,
    root = El ns l d i a kids /\ plain_element uri ns l
    /\ Forall (fun k => in_namespace uri l k \/ exists ns' d' i' a' kids', k = El ns' "TOOL-EXTENSIONS" d' i' a' kids') kids.

(** [orderly p n]: in the place [p] (SpecLayout.v), [n] is a comment or an element
    that holds text only, or that is listed or free in this place, and so on in it *)
Inductive orderly (x : bool) : place -> node -> Prop :=
| orderly_comment p s : orderly x p (Cmt s)
| orderly_text p ns l defs inh attrs kids : Forall is_text kids -> orderly x p (El ns l defs inh attrs kids)
| orderly_free p ns l defs inh attrs kids : free x p l = true -> orderly x p (El ns l defs inh attrs kids)
| orderly_element p p' ns l defs inh attrs kids :
    In (l, p') (table p) -> Forall (orderly x p') (items kids) -> orderly x p (El ns l defs inh attrs kids).
Definition orderly_root (x : bool) (n : node) : Prop :=
  exists ns l defs inh attrs kids, n = El ns l defs inh attrs kids /\ Forall (orderly x InReqIF) (items kids).

(** a prefix declared by the root element is used by one of its attributes, such
    as xsi:schemaLocation *)
Definition prefix_in_use (root : node) : Prop :=
  exists ns l d i a kids x p u,
    root = El ns l d i a kids /\ In x a /\ a_ns x = Some (p, u) /\ In p (map fst d).
(** no definition of an attribute has an XHTML default value *)
Inductive no_xhtml_default : node -> Prop :=
| nd_chr c : no_xhtml_default (Chr c)
| nd_cmt s : no_xhtml_default (Cmt s)
| nd_pin s : no_xhtml_default (Pin s)
| nd_el ns l d i a kids :
    (l = "DEFAULT-VALUE" -> forall ns' d' i' a' kids', ~ In (El ns' "ATTRIBUTE-VALUE-XHTML" d' i' a' kids') kids) ->
    Forall no_xhtml_default kids -> no_xhtml_default (El ns l d i a kids).

(** ** Bundles: the second one is the first one with hidden values *)
Section Hidden.
Variable sha : bytes -> N.

(** text values are replaced by their digests, XHTML values by a digest *)
Definition hidden_value (a a' : spec_attr) : Prop :=
  sa_type a' = sa_type a /\ sa_definition_ref a' = sa_definition_ref a
  /\ match sa_type a with
     | AT_STRING => exists s t, sa_value a = VStr s /\ sa_value a' = VStr t /\ digest sha s t
                                /\ sa_value_stripped_xhtml a' = sa_value_stripped_xhtml a
     | AT_XHTML => exists s t, sa_value a' = VStr t /\ sa_value_stripped_xhtml a' = Some t /\ digest sha s t
     | _ => sa_value a' = sa_value a /\ sa_value_stripped_xhtml a' = sa_value_stripped_xhtml a
     end.
(** and so are default values *)
Definition hidden_default (t : attr_type) (v v' : default_value) : Prop :=
  match v, t with
  | DVStr s, AT_STRING => exists u, v' = DVStr u /\ digest sha s u
  | DVStr _, AT_XHTML => exists s u, v' = DVStr u /\ digest sha s u
  | _, _ => v' = v
  end.
Definition hidden_definition (a a' : attr_def) : Prop :=
  ad_type a' = ad_type a /\ ad_identifier a' = ad_identifier a /\ ad_datatype_definition a' = ad_datatype_definition a
  /\ ad_description a' = ad_description a /\ ad_last_change a' = ad_last_change a /\ ad_long_name a' = ad_long_name a
  /\ ad_editable a' = ad_editable a /\ ad_default_value_definition_ref a' = ad_default_value_definition_ref a
  /\ ad_multi_valued a' = ad_multi_valued a
  /\ hidden_default (ad_type a) (ad_default_value a) (ad_default_value a').
Definition hidden_type (t t' : spec_type) : Prop :=
  match t, t' with
  | STObject x, STObject y =>
      sot_identifier y = sot_identifier x /\ sot_description y = sot_description x /\ sot_last_change y = sot_last_change x
      /\ sot_long_name y = sot_long_name x
      /\ both (Forall2 hidden_definition) (sot_attribute_definitions x) (sot_attribute_definitions y)
  | STRelation x, STRelation y =>
      srt_identifier y = srt_identifier x /\ srt_description y = srt_description x /\ srt_last_change y = srt_last_change x
      /\ srt_long_name y = srt_long_name x /\ srt_is_self_closed y = srt_is_self_closed x
      /\ both (Forall2 hidden_definition) (srt_attribute_definitions x) (srt_attribute_definitions y)
  | STSpecification x, STSpecification y =>
      spt_identifier y = spt_identifier x /\ spt_description y = spt_description x /\ spt_last_change y = spt_last_change x
      /\ spt_long_name y = spt_long_name x /\ spt_is_self_closed y = spt_is_self_closed x
      /\ spt_spec_attribute_map y = spt_spec_attribute_map x
      /\ both (Forall2 hidden_definition) (spt_spec_attributes x) (spt_spec_attributes y)
  | STGroup x, STGroup y =>
      rgt_identifier y = rgt_identifier x /\ rgt_description y = rgt_description x /\ rgt_last_change y = rgt_last_change x
      /\ rgt_long_name y = rgt_long_name x /\ rgt_is_self_closed y = rgt_is_self_closed x
      /\ both (Forall2 hidden_definition) (rgt_attribute_definitions x) (rgt_attribute_definitions y)
  | _, _ => False
  end.
Definition hidden_object (o o' : spec_object) : Prop :=
  so_identifier o' = so_identifier o /\ so_spec_object_type o' = so_spec_object_type o /\ so_description o' = so_description o
  /\ so_last_change o' = so_last_change o /\ so_long_name o' = so_long_name o
  /\ Forall2 hidden_value (so_attributes o) (so_attributes o').
Definition hidden_relation (r r' : spec_relation) : Prop :=
  sr_identifier r' = sr_identifier r /\ sr_relation_type_ref r' = sr_relation_type_ref r /\ sr_source r' = sr_source r
  /\ sr_target r' = sr_target r /\ sr_description r' = sr_description r /\ sr_last_change r' = sr_last_change r
  /\ sr_long_name r' = sr_long_name r /\ both hidden_value (sr_values_attribute r) (sr_values_attribute r').
(** The long name of a specification is replaced if the element that it was read
    from is called SPECIFICATION; the parser takes any name that contains this. *)
Definition called_specification (s : specification) : Prop :=
  exists n, sp_xml_node s = Some n /\ tag n = Some ("SPECIFICATION" : str).
Definition hidden_specification (s s' : specification) : Prop :=
  sp_identifier s' = sp_identifier s /\ sp_description s' = sp_description s /\ sp_last_change s' = sp_last_change s
  /\ (called_specification s -> both (digest sha) (sp_long_name s) (sp_long_name s'))
  /\ (~ called_specification s -> sp_long_name s' = sp_long_name s)
  /\ both (Forall2 hidden_value) (sp_values s) (sp_values s')
  /\ sp_specification_type s' = sp_specification_type s
  /\ map_list erase_hier (sp_children s') = map_list erase_hier (sp_children s).
Definition hidden_content (c c' : content) : Prop :=
  rc_data_types c' = rc_data_types c
  /\ both (Forall2 hidden_type) (rc_spec_types c) (rc_spec_types c')
  /\ both (Forall2 hidden_object) (rc_spec_objects c) (rc_spec_objects c')
  /\ both (Forall2 hidden_relation) (rc_spec_relations c) (rc_spec_relations c')
  /\ both (Forall2 hidden_specification) (rc_specifications c) (rc_specifications c')
  /\ rc_spec_relation_groups c' = rc_spec_relation_groups c.
Definition same_keys {V} (R : V -> V -> Prop) (d d' : dict V) : Prop :=
  Forall2 (fun x y => fst y = fst x /\ R (snd x) (snd y)) d d'.
Definition hidden_lookup (l l' : lookup) : Prop :=
  lk_data_types l' = lk_data_types l /\ same_keys hidden_type (lk_spec_types l) (lk_spec_types l')
  /\ same_keys hidden_object (lk_spec_objects l) (lk_spec_objects l')
  /\ lk_parents l' = lk_parents l /\ lk_parents_default l' = lk_parents_default l.
(** the comment and the title of the header are replaced *)
Definition hidden_header (h h' : header) : Prop :=
  hd_identifier h' = hd_identifier h /\ both (digest sha) (hd_comment h) (hd_comment h')
  /\ hd_creation_time h' = hd_creation_time h /\ hd_repository_id h' = hd_repository_id h
  /\ hd_req_if_tool_id h' = hd_req_if_tool_id h /\ hd_req_if_version h' = hd_req_if_version h
  /\ hd_source_tool_id h' = hd_source_tool_id h /\ both (digest sha) (hd_title h) (hd_title h').
Definition hidden_bundle (b b' : bundle) : Prop :=
  b_namespace_info b' = b_namespace_info b
  /\ both hidden_header (b_header b) (b_header b')
  /\ both (both hidden_content) (b_core_content b) (b_core_content b')
  /\ b_tool_extensions b' = b_tool_extensions b
  /\ hidden_lookup (b_lookup b) (b_lookup b')
  /\ Forall2 same_exception (b_exceptions b) (b_exceptions b').
End Hidden.
