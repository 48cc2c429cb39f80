(** Alias.v -- the objects of a parsed document as objects: which references
    are shared between the lists of the document, its lookup and the maps kept
    by the objects themselves, and what assigning to their fields changes.

    The rest of the model treats objects as values.  Here the data types, spec
    types and spec objects of a document and the enumeration values, attribute
    definitions and attributes they contain are cells of a memory.  Relations,
    specifications, relation groups and the header are in no second place and
    stay values. *)
From Verif Require Import Base Xml Lxml Py Models DataType SpecObj Hierarchy SpecTypes Progress Parser
  BundleModel Header.

(** a Python reference: an index into the memory of its kind of object *)
Definition ref := nat.

(** ** Three kinds of objects that contain a list of other objects and keep a map of them *)
Record kind (I C : Type) := Kind {
  k_items : C -> option (list I);              (* the list; None: the field is None, or there is none *)
  k_put : C -> option (list I) -> C;           (* the same object with these items *)
  k_item_key : I -> option str;                (* the key of an item in the map *)
  k_mapped : C -> bool;                        (* whether the class keeps a map of its items *)
  k_key : C -> option str }.                   (* the key of the object in the lookup *)
Arguments Kind {I C}.
Arguments k_items {I C}.
Arguments k_put {I C}.
Arguments k_item_key {I C}.
Arguments k_mapped {I C}.
Arguments k_key {I C}.

(** ReqIFSpecObject with its attributes and attribute_map, reqif_spec_object.py:26-49 *)
Definition with_attributes (o : spec_object) (l : list spec_attr) : spec_object :=
  SpecObject (so_identifier o) l (so_spec_object_type o) (so_description o) (so_last_change o)
             (so_long_name o) (so_xml_node o).
(** reqif_spec_object.py:47-49: keyed by definition_ref; lookup: parser.py:359-360 *)
Definition object_kind : kind spec_attr spec_object :=
  Kind (fun o => Some (so_attributes o))
       (fun o x => match x with Some l => with_attributes o l | None => o end)
       sa_definition_ref (fun _ => true) (fun o => Some (so_identifier o)).

(** the attribute definitions of a type; ReqIFSpecificationType calls them
    spec_attributes (reqif_specification_type.py:7-26) *)
Definition definitions (t : spec_type) : option (list attr_def) :=
  match t with
  | STObject t => sot_attribute_definitions t | STRelation t => srt_attribute_definitions t
  | STSpecification t => spt_spec_attributes t | STGroup t => rgt_attribute_definitions t
  end.
(** the same type with other attribute definitions (the classes of
    reqif_spec_object_type.py:61-85, reqif_spec_relation_type.py:6-23,
    reqif_specification_type.py:7-26, reqif_relation_group_type.py:6-23) *)
Definition with_definitions (t : spec_type) (x : option (list attr_def)) : spec_type :=
  match t with
  | STObject t => STObject (SpecObjectType (sot_identifier t) (sot_description t) (sot_last_change t) (sot_long_name t) x)
  | STRelation t => STRelation (SpecRelationType (srt_identifier t) (srt_description t) (srt_last_change t)
                                  (srt_long_name t) (srt_is_self_closed t) x)
  | STSpecification t => STSpecification (SpecificationType (spt_identifier t) (spt_description t) (spt_last_change t)
                                  (spt_long_name t) x (spt_spec_attribute_map t) (spt_is_self_closed t))
  | STGroup t => STGroup (RelationGroupType (rgt_identifier t) (rgt_description t) (rgt_last_change t)
                                  (rgt_long_name t) (rgt_is_self_closed t) x)
  end.
(** only ReqIFSpecObjectType keeps a map of its definitions
    (reqif_spec_object_type.py:80-85; the spec_attribute_map of a
    ReqIFSpecificationType holds names, not objects,
    specification_type_parser.py:39-44); lookup: parser.py:286-309 *)
Definition type_kind : kind attr_def spec_type :=
  Kind definitions with_definitions (fun a => Some (ad_identifier a))
       (fun t => match t with STObject _ => true | _ => false end) (fun t => Some (st_identifier t)).

(** ReqIFDataTypeDefinitionEnumeration with its values, reqif_data_type.py:128-148 *)
Definition with_values (d : data_type) (x : option (list enum_value)) : data_type :=
  match d with DTEnumeration c _ => DTEnumeration c x | _ => d end.
(** values_map, reqif_data_type.py:144-147; lookup: parser.py:267-270 *)
Definition data_kind : kind enum_value data_type :=
  Kind (fun d => match d with DTEnumeration _ x => x | _ => None end) with_values
       (fun v => Some (ev_identifier v)) (fun _ => true) (fun d => Some (dt_id d)).

(** ** The memory *)

(** One object: its own fields, its list of items and its map.  The items
    inside [c_own] are those it was created with and are not looked at. *)
Record cell (C : Type) := Cell { c_own : C; c_items : option (list ref); c_map : dict ref }.
Arguments Cell {C}.
Arguments c_own {C}.
Arguments c_items {C}.
Arguments c_map {C}.
(** The objects of one section (all items and all objects ever created for it),
    the list of the document and the lookup. *)
Record place (I C : Type) := Place {
  p_items : list I; p_cells : list (cell C); p_list : list ref; p_dict : dict ref }.
Arguments Place {I C}.
Arguments p_items {I C}.
Arguments p_cells {I C}.
Arguments p_list {I C}.
Arguments p_dict {I C}.

Section Memory.
Context {I C : Type} (k : kind I C).

(** [self.attribute_map = {}; for a in attributes: self.attribute_map[...] = a]
    (reqif_spec_object.py:47-49, reqif_spec_object_type.py:80-85, reqif_data_type.py:144-147) *)
Definition item_map (rs : list ref) (l : list I) : dict ref :=
  fold_left (fun d x => dict_set d (k_item_key k (snd x)) (fst x)) (combine rs l) [].

(** creating the items and then the object (the constructors,
    reqif_spec_object.py:28-49, reqif_spec_object_type.py:62-85,
    reqif_data_type.py:130-148); the reference to the object is the number of
    objects before *)
Definition create_cell (p : place I C) (c : C) : list I * cell C :=
  match k_items k c with
  | None => (p_items p, Cell c None [])
  | Some l => let rs := seq (length (p_items p)) (length l) in
              (p_items p ++ l, Cell c (Some rs) (if k_mapped k c then item_map rs l else []))
  end.
(** the object is created, appended to the list and entered in the lookup
    (parser.py:267-270, :286-309, :357-361) *)
Definition add_new (p : place I C) (c : C) : place I C :=
  let r := length (p_cells p) in
  let '(items, x) := create_cell p c in
  Place items (p_cells p ++ [x]) (p_list p ++ [r]) (dict_set (p_dict p) (k_key k c) r).
(** nothing created yet: [], {} (parser.py:254-264, object_lookup.py:21-28) *)
Definition no_objects : place I C := Place [] [] [] [].

(** ** What a user sees: reading through references *)
Definition pick {A} (h : list A) (rs : list ref) : list A :=
  flat_map (fun r => match nth_error h r with Some x => [x] | None => [] end) rs.
(** an object, with its items *)
Definition view_cell (p : place I C) (x : cell C) : C :=
  k_put k (c_own x) (option_map (pick (p_items p)) (c_items x)).
(** the objects of the list (for x in spec_objects, e.g. unparser.py:53-93) *)
Definition view_list (p : place I C) : list C := map (view_cell p) (pick (p_cells p) (p_list p)).
(** the lookup (object_lookup.py:33-40) *)
Definition view_dict (p : place I C) : dict C :=
  flat_map (fun e => match nth_error (p_cells p) (snd e) with
                     | Some x => [(fst e, view_cell p x)] | None => [] end) (p_dict p).

(** ** What a user does *)
(** [lookup[key]], object_lookup.py:33-40 *)
Definition find_ref (p : place I C) (key : option str) : result ref := dict_index (p_dict p) key.
(** [obj.attribute_map[key]] and the like, e.g. reqif_schema.py:74-79 *)
Definition item_ref (p : place I C) (r : ref) (key : option str) : result ref :=
  match nth_error (p_cells p) r with
  | Some x => dict_index (c_map x) key
  | None => Raise EKeyError
  end.
(** replacing an entry of the memory *)
Fixpoint upd {A} (n : nat) (f : A -> A) (l : list A) : list A :=
  match l with
  | [] => []
  | x :: l' => match n with O => f x :: l' | S n' => x :: upd n' f l' end
  end.
(** assigning to own fields of an object, [obj.long_name = "new"] (plain Python
    attributes: reqif_spec_object.py:39-45 and the other classes) *)
Definition edit_own (p : place I C) (r : ref) (f : C -> C) : place I C :=
  Place (p_items p) (upd r (fun x => Cell (f (c_own x)) (c_items x) (c_map x)) (p_cells p)) (p_list p) (p_dict p).
(** assigning to fields of an item, [attribute.value = "new"] (reqif_spec_object.py:17-23) *)
Definition edit_item (p : place I C) (r : ref) (v : I) : place I C :=
  Place (upd r (fun _ => v) (p_items p)) (p_cells p) (p_list p) (p_dict p).
(** [obj.attributes.append(attribute)]; AttributeError if the list is None *)
Definition append_item (p : place I C) (r : ref) (v : I) : result (place I C) :=
  match nth_error (p_cells p) r with
  | Some (Cell c (Some rs) m) =>
      Ok (Place (p_items p ++ [v]) (upd r (fun _ => Cell c (Some (rs ++ [length (p_items p)])) m) (p_cells p))
                (p_list p) (p_dict p))
  | _ => Raise EAttributeError
  end.
(** [spec_objects.append(ReqIFSpecObject(...))] *)
Definition append_object (p : place I C) (c : C) : place I C :=
  let r := length (p_cells p) in
  let '(items, x) := create_cell p c in
  Place items (p_cells p ++ [x]) (p_list p ++ [r]) (p_dict p).
End Memory.

(** ** The bundle *)

(** ReqIFReqIFContent, reqif_req_if_content.py:14-50: which of the three lists
    exist, and the other three *)
Record shared_content := SharedContent {
  hc_data_types : bool; hc_spec_types : bool; hc_spec_objects : bool;
  hc_spec_relations : option (list spec_relation);
  hc_specifications : option (list specification);
  hc_spec_relation_groups : option (list relation_group) }.
(** ReqIFBundle, reqif_bundle.py:39-53, with ReqIFObjectLookup, object_lookup.py:7-19 *)
Record shared_bundle := SharedBundle {
  hb_namespace_info : namespace_info;
  hb_header : option header;
  hb_core_content : option (option shared_content);
  hb_tool_extensions : bool;
  hb_data_types : place enum_value data_type;
  hb_spec_types : place attr_def spec_type;
  hb_spec_objects : place spec_attr spec_object;
  hb_parents : dict (list (option str));
  hb_parents_default : bool;
  hb_exceptions : list exn }.
(** the bundle as the rest of the model sees it (reqif_bundle.py:39-53) *)
Definition view_content (b : shared_bundle) (c : shared_content) : content :=
  Content (when_ (hc_data_types c) (view_list data_kind (hb_data_types b)))
          (when_ (hc_spec_types c) (view_list type_kind (hb_spec_types b)))
          (when_ (hc_spec_objects c) (view_list object_kind (hb_spec_objects b)))
          (hc_spec_relations c) (hc_specifications c) (hc_spec_relation_groups c).
(** the same for the whole bundle *)
Definition view (b : shared_bundle) : bundle :=
  Bundle (hb_namespace_info b) (hb_header b)
         (option_map (option_map (view_content b)) (hb_core_content b))
         (hb_tool_extensions b)
         (Lookup (view_dict data_kind (hb_data_types b)) (view_dict type_kind (hb_spec_types b))
                 (view_dict object_kind (hb_spec_objects b)) (hb_parents b) (hb_parents_default b))
         (hb_exceptions b).
(** the same bundle with one of the three places changed *)
Definition on_data_types (b : shared_bundle) (p : place enum_value data_type) : shared_bundle :=
  SharedBundle (hb_namespace_info b) (hb_header b) (hb_core_content b) (hb_tool_extensions b) p (hb_spec_types b)
               (hb_spec_objects b) (hb_parents b) (hb_parents_default b) (hb_exceptions b).
(** likewise *)
Definition on_spec_types (b : shared_bundle) (p : place attr_def spec_type) : shared_bundle :=
  SharedBundle (hb_namespace_info b) (hb_header b) (hb_core_content b) (hb_tool_extensions b) (hb_data_types b) p
               (hb_spec_objects b) (hb_parents b) (hb_parents_default b) (hb_exceptions b).
(** likewise *)
Definition on_spec_objects (b : shared_bundle) (p : place spec_attr spec_object) : shared_bundle :=
  SharedBundle (hb_namespace_info b) (hb_header b) (hb_core_content b) (hb_tool_extensions b) (hb_data_types b)
               (hb_spec_types b) p (hb_parents b) (hb_parents_default b) (hb_exceptions b).
(** whether the list exists (reqif_req_if_content.py:34-45) *)
Definition has_list (f : shared_content -> bool) (b : shared_bundle) : bool :=
  match hb_core_content b with Some (Some c) => f c | _ => false end.

(** ** Parsing into the memory *)

(** parser.py:267-270 *)
Definition shared_data_type_body (n : node) (p : place enum_value data_type) : result (place enum_value data_type) :=
  let! d := parse_data_type n in Ok (add_new data_kind p d).
(** parser.py:286-309 *)
Definition shared_spec_type_body (n : node) (p : place attr_def spec_type) : result (place attr_def spec_type) :=
  let! o := parse_spec_type n in
  match o with None => Ok p | Some t => Ok (add_new type_kind p t) end.
(** parser.py:354-361 *)
Definition shared_spec_object_body (n : node) (p : place spec_attr spec_object) : result (place spec_attr spec_object) :=
  if is_comment n then Ok p
  else let! o := parse_spec_object n in Ok (add_new object_kind p o).
(** the content with the three memories, parser.py:253-390 *)
Record shared_parts := SharedParts {
  sp_content : shared_content;
  sp_data_types : place enum_value data_type;
  sp_spec_types : place attr_def spec_type;
  sp_spec_objects : place spec_attr spec_object;
  sp_parents : dict (list (option str));
  sp_exceptions : list exn }.
(** _parse_reqif_content, parser.py:253-390 *)
Definition shared_parse_content (cb : callback) (n : node) : M shared_parts :=
  do! _ := lift (py_assert (tag_is "REQ-IF-CONTENT" n)) in
  do! (has_dt, dts) := section_ cb "DATATYPES" n shared_data_type_body no_objects in
  do! (has_st, sts) := section_ cb "SPEC-TYPES" n shared_spec_type_body no_objects in
  do! (has_sp, sps) := section_ cb "SPECIFICATIONS" n specification_body [] in
  do! (has_sr, (srs, parents, exns)) :=
     section_ cb "SPEC-RELATIONS" n spec_relation_body ([], [], []) in
  do! (has_so, sos) := section_ cb "SPEC-OBJECTS" n shared_spec_object_body no_objects in
  do! (has_rg, rgs) := section_ cb "SPEC-RELATION-GROUPS" n relation_group_body [] in
  ret (SharedParts (SharedContent has_dt has_st has_so (when_ has_sr srs) (when_ has_sp sps) (when_ has_rg rgs))
                   dts sts sos parents exns).
(** _parse_reqif, parser.py:104-251, from the header on (:210-251) *)
Definition shared_parse_body (cb : callback) (ni : namespace_info) (nons : node) : M shared_bundle :=
  do! hdr := lift (match find_child "THE-HEADER" nons with
                   | None => Ok None
                   | Some h => let! x := parse_header h in Ok (Some x)
                   end) in
  let te := match find_child "TOOL-EXTENSIONS" nons with Some _ => true | None => false end in
  match find_child "CORE-CONTENT" nons with
  | None => ret (SharedBundle ni hdr None te no_objects no_objects no_objects [] false [])
  | Some c =>
      match find_child "REQ-IF-CONTENT" c with
      | None => ret (SharedBundle ni hdr (Some None) te no_objects no_objects no_objects [] false [])
      | Some rc =>
          do! x := shared_parse_content cb rc in
          ret (SharedBundle ni hdr (Some (Some (sp_content x))) te (sp_data_types x) (sp_spec_types x)
                 (sp_spec_objects x) (sp_parents x) true (sp_exceptions x))
      end
  end.
(** _parse_reqif, parser.py:104-251 *)
Definition shared_parse_reqif (cb : callback) (decl : option str) (root : node) : M shared_bundle :=
  do! nons := lift (strip_if_namespaced root) in
  if negb (tag_is "REQ-IF" nons) then lift (Raise EReqIFXMLParsingError)
  else
    let ni := namespace_info_of decl root nons in
    match children nons with
    | [] => ret (SharedBundle (namespace_info_empty (ni_namespace ni) (ni_configuration ni)) None None false
                   no_objects no_objects no_objects [] false [])
    | _ => shared_parse_body cb ni nons
    end.
(** ReqIFParser.parse_from_string, parser.py:81-102 *)
Definition shared_parse (cb : callback) (content : str) : M shared_bundle :=
  match content with
  | [] => lift (Raise EReqIFXMLParsingError)
  | _ => match lxml_parse content with
         | None => lift (Raise EReqIFXMLParsingError)
         | Some (decl, root) => shared_parse_reqif cb decl root
         end
  end.
