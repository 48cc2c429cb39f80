(** AttrDef.v -- parsers/attribute_definition_parser.py *)
From Verif Require Import Base Xml Lxml Py LxmlStr Models.

(** attribute_definition.find("TYPE").find(tag).text under try/except Exception
    (attribute_definition_parser.py:54-61 and the six other copies). *)
Definition parse_datatype_ref (t : attr_type) (n : node) : result (option str) :=
  or_not_impl (let! ty := find_req "TYPE" n in
               let! r := find_req (get_definition_tag t) ty in
               Ok (text r)).

(** The result of reading a default value: definition ref and value. *)
Definition dv_result := (option str * default_value)%type.

(** attribute_definition_parser.py:63-74 *)
Definition parse_default_string (n : node) : result dv_result :=
  match find_child "DEFAULT-VALUE" n with
  | None => Ok (None, DVNone)
  | Some d =>
      if is_self_closed_tag d then Ok (None, DVEmptyTag)
      else match find_child "ATTRIBUTE-VALUE-STRING" d with
           | Some v => let! s := attr_req "THE-VALUE" v in Ok (None, DVStr s)
           | None => Raise ENotImplementedError
           end
  end.
(** attribute_definition_parser.py:87-93 (INTEGER), 106-110 (REAL), 227-231 (DATE) *)
Definition parse_default_simple (t : attr_type) (n : node) : result dv_result :=
  match find_child "DEFAULT-VALUE" n with
  | None => Ok (None, DVNone)
  | Some d =>
      match find_child (get_attribute_value_tag t) d with
      | Some v => let! s := attr_req "THE-VALUE" v in Ok (None, DVStr s)
      | None => Raise EAssertionError
      end
  end.
(** attribute_definition_parser.py:123-137 (BOOLEAN) *)
Definition parse_default_boolean (n : node) : result dv_result :=
  match find_child "DEFAULT-VALUE" n with
  | None => Ok (None, DVNone)
  | Some d =>
      match find_child "ATTRIBUTE-VALUE-BOOLEAN" d with
      | None => Raise EAssertionError
      | Some v =>
          let! s := attr_req "THE-VALUE" v in
          let ref := match find_child "DEFINITION" v with
                     | None => None
                     | Some df => match find_child "ATTRIBUTE-DEFINITION-BOOLEAN-REF" df with
                                  | None => None
                                  | Some r => text r end
                     end in
          Ok (ref, DVStr s)
      end
  end.
(** attribute_definition_parser.py:150-170 (XHTML), 293-311 *)
Definition parse_default_xhtml (n : node) : result dv_result :=
  match find_child "DEFAULT-VALUE" n with
  | None => Ok (None, DVNone)
  | Some d =>
      if is_self_closed_tag d then Ok (None, DVEmptyTag)
      else match find_child "ATTRIBUTE-VALUE-XHTML" d with
           | None => Raise ENotImplementedError
           | Some v =>
               let! ref := match find_child "DEFINITION" v with
                           | None => Ok None
                           | Some df =>
                               match find_child "ATTRIBUTE-DEFINITION-XHTML-REF" df with
                               | None => Raise EAssertionError
                               | Some r => Ok (text r) end
                           end in
               let! tv := find_req "THE-VALUE" v in
               let! s := stringify_namespaced_children tv None in
               Ok (ref, DVStr s)
           end
  end.
(** attribute_definition_parser.py:191-214 (ENUMERATION) *)
Definition parse_default_enum (n : node) : result dv_result :=
  match find_child "DEFAULT-VALUE" n with
  | None => Ok (None, DVNone)
  | Some d =>
      if is_self_closed_tag d then Ok (None, DVEmptyTag)
      else match find_child "ATTRIBUTE-VALUE-ENUMERATION" d with
           | None => Raise ENotImplementedError
           | Some v =>
               let! ref := match find_child "DEFINITION" v with
                           | None => Ok None
                           | Some df =>
                               let! r := find_req "ATTRIBUTE-DEFINITION-ENUMERATION-REF" df in
                               Ok (text r)
                           end in
               let val := match find_child "VALUES" v with
                          | None => DVNone
                          | Some vs => match find_child "ENUM-VALUE-REF" vs with
                                       | None => DVNone
                                       | Some r => match text r with
                                                   | Some s => DVStr s
                                                   | None => DVNone end
                                       end
                          end in
               Ok (ref, val)
           end
  end.

(** The if/elif chain on the tag, attribute_definition_parser.py:52-234 *)
Definition attr_type_of_def_tag (o : option str) : option attr_type :=
  match o with
  | None => None
  | Some t =>
      if str_eqb t "ATTRIBUTE-DEFINITION-STRING" then Some AT_STRING
      else if str_eqb t "ATTRIBUTE-DEFINITION-INTEGER" then Some AT_INTEGER
      else if str_eqb t "ATTRIBUTE-DEFINITION-REAL" then Some AT_REAL
      else if str_eqb t "ATTRIBUTE-DEFINITION-BOOLEAN" then Some AT_BOOLEAN
      else if str_eqb t "ATTRIBUTE-DEFINITION-XHTML" then Some AT_XHTML
      else if str_eqb t "ATTRIBUTE-DEFINITION-ENUMERATION" then Some AT_ENUMERATION
      else if str_eqb t "ATTRIBUTE-DEFINITION-DATE" then Some AT_DATE
      else None
  end.

(** multi_valued, attribute_definition_parser.py:174-181: an absent or empty
    string gives None. *)
Definition parse_multi_valued (n : node) : option bool :=
  match attr_opt "MULTI-VALUED" n with
  | Some (c :: s) => Some (str_eqb (c :: s) "true")
  | _ => None
  end.

(** the branches of the loop body, attribute_definition_parser.py:52-234 *)
Definition parse_default_value (t : attr_type) (n : node) : result dv_result :=
  match t with
  | AT_STRING => parse_default_string n
  | AT_INTEGER | AT_REAL | AT_DATE => parse_default_simple t n
  | AT_BOOLEAN => parse_default_boolean n
  | AT_XHTML => parse_default_xhtml n
  | AT_ENUMERATION => parse_default_enum n
  end.

(** The loop body of parse_attribute_definitions,
    attribute_definition_parser.py:25-248 *)
Definition parse_attribute_definition (n : node) : result attr_def :=
  let long_name := attr_opt "LONG-NAME" n in
  let! identifier := attr_req "IDENTIFIER" n in
  let description := attr_opt "DESC" n in
  let last_change := attr_opt "LAST-CHANGE" n in
  let editable := attr_opt "IS-EDITABLE" n in
  match attr_type_of_def_tag (tag n) with
  | None => Raise ENotImplementedError
  | Some t =>
      let multi_valued := match t with
                          | AT_ENUMERATION => parse_multi_valued n | _ => None end in
      let! dt := parse_datatype_ref t n in
      let! (ref, dv) := parse_default_value t n in
      Ok (AttrDef t identifier dt (Some n) description last_change long_name
                  (editable_of editable) ref dv multi_valued)
  end.

(** parse_attribute_definitions, attribute_definition_parser.py:17-250 *)
Definition parse_attribute_definitions (n : node) : result (option (list attr_def)) :=
  match find_child "SPEC-ATTRIBUTES" n with
  | None => Ok None
  | Some sa => let! l := mapM parse_attribute_definition (children sa) in Ok (Some l)
  end.

(** parse_xhtml_attribute_definition, attribute_definition_parser.py:252-325 *)
Definition parse_xhtml_attribute_definition (n : node) : result attr_def :=
  let! _ := py_assert (tag_is "ATTRIBUTE-DEFINITION-XHTML" n) in
  let long_name := attr_opt "LONG-NAME" n in
  let! identifier := attr_req "IDENTIFIER" n in
  let description := attr_opt "DESC" n in
  let last_change := attr_opt "LAST-CHANGE" n in
  let editable := attr_opt "IS-EDITABLE" n in
  let! dt := parse_datatype_ref AT_XHTML n in
  let! (ref, dv) := parse_default_xhtml n in
  Ok (AttrDef AT_XHTML identifier dt (Some n) description last_change long_name
              (editable_of editable) ref dv (Some false)).

(** "true" if b else "false" *)
Definition bool_str (b : bool) : str := if b then "true" else "false".

(** [f' NAME="{escape(v)}"'] when v is not None *)
Definition opt_attr (name : str) (esc : str -> str) (v : option str) : str :=
  match v with
  | Some s => " " ++ name ++ "=""" ++ esc s ++ """"
  | None => []
  end.
(** [f' NAME="{v}"'] when v is truthy (not None, not empty) *)
Definition truthy_attr (name : str) (v : option str) : str :=
  match v with
  | Some (c :: s) => " " ++ name ++ "=""" ++ (c :: s) ++ """"
  | _ => []
  end.
(** a Boolean attribute that may be missing, attribute_definition_parser.py:336-355 *)
Definition opt_bool_attr (name : str) (v : option bool) : str :=
  match v with
  | Some b => " " ++ name ++ "=""" ++ bool_str b ++ """"
  | None => []
  end.

(** _unparse_attribute_type, attribute_definition_parser.py:381-395 *)
Definition unparse_attribute_type (a : attr_def) : str :=
  "              <TYPE>" ++ nl
  ++ "                " ++ "<" ++ get_definition_tag (ad_type a) ++ ">"
  ++ fmt (ad_datatype_definition a)
  ++ "</" ++ get_definition_tag (ad_type a) ++ ">" ++ nl
  ++ "              </TYPE>" ++ nl.

(** The enum/XHTML/boolean/other branches of _unparse_attribute_default_value,
    attribute_definition_parser.py:406-461 *)
Definition unparse_default_str (a : attr_def) (v : str) : result str :=
  match ad_type a with
  | AT_ENUMERATION =>
      match ad_default_value_definition_ref a with
      | None => Raise EAssertionError
      | Some ref => Ok (
          "              <DEFAULT-VALUE>" ++ nl
          ++ "                " ++ "<" ++ get_attribute_value_tag (ad_type a) ++ ">" ++ nl
          ++ "                  <DEFINITION>" ++ nl
          ++ "                    <ATTRIBUTE-DEFINITION-ENUMERATION-REF>"
          ++ ref
          ++ "</ATTRIBUTE-DEFINITION-ENUMERATION-REF>" ++ nl
          ++ "                  </DEFINITION>" ++ nl
          ++ "                  <VALUES>" ++ nl
          ++ "                    <ENUM-VALUE-REF>"
          ++ v ++ "</ENUM-VALUE-REF>" ++ nl
          ++ "                  </VALUES>" ++ nl
          ++ "                " ++ "</" ++ get_attribute_value_tag (ad_type a) ++ ">" ++ nl
          ++ "              </DEFAULT-VALUE>" ++ nl)
      end
  | AT_XHTML =>
      match ad_default_value_definition_ref a with
      | None => Raise EAssertionError
      | Some ref => Ok (
          "              <DEFAULT-VALUE>" ++ nl
          ++ "                <ATTRIBUTE-VALUE-XHTML>" ++ nl
          ++ "                  <DEFINITION>" ++ nl
          ++ "                    <ATTRIBUTE-DEFINITION-XHTML-REF>"
          ++ ref
          ++ "</ATTRIBUTE-DEFINITION-XHTML-REF>" ++ nl
          ++ "                  </DEFINITION>" ++ nl
          ++ "                  <THE-VALUE>"
          ++ v ++ "</THE-VALUE>" ++ nl
          ++ "                </ATTRIBUTE-VALUE-XHTML>" ++ nl
          ++ "              </DEFAULT-VALUE>" ++ nl)
      end
  | AT_BOOLEAN =>
      match ad_default_value_definition_ref a with
      | None => Raise EAssertionError
      | Some ref => Ok (
          "              <DEFAULT-VALUE>" ++ nl
          ++ "                <ATTRIBUTE-VALUE-BOOLEAN "
          ++ "THE-VALUE=""" ++ v ++ """>" ++ nl
          ++ "                  <DEFINITION>" ++ nl
          ++ "                    <ATTRIBUTE-DEFINITION-BOOLEAN-REF>"
          ++ ref
          ++ "</ATTRIBUTE-DEFINITION-BOOLEAN-REF>" ++ nl
          ++ "                  </DEFINITION>" ++ nl
          ++ "                </ATTRIBUTE-VALUE-BOOLEAN>" ++ nl
          ++ "              </DEFAULT-VALUE>" ++ nl)
      end
  | _ => Ok (
      "              <DEFAULT-VALUE>" ++ nl
      ++ "                " ++ "<" ++ get_attribute_value_tag (ad_type a)
      ++ " THE-VALUE=""" ++ v ++ """/>" ++ nl
      ++ "              </DEFAULT-VALUE>" ++ nl)
  end.

(** _unparse_attribute_default_value, attribute_definition_parser.py:397-462,
    with the None test of the caller (:363-364) *)
Definition unparse_attribute_default_value (a : attr_def) : result str :=
  match ad_default_value a with
  | DVNone => Ok []
  | DVEmptyTag => Ok ("              <DEFAULT-VALUE/>" ++ nl)
  | DVStr v => unparse_default_str a v
  end.

(** The children_tags idiom (attribute_definition_parser.py:356-360,
    spec_object_parser.py:68-73, specification_parser.py:99-102,
    spec_relation_parser.py:112-116): the order remembered by the XML node, or
    a default. *)
Definition tags_or (n : option node) (default : list str) : list (option str) :=
  match n with
  | Some x => child_tags x
  | None => map Some default
  end.

(** for tag in children_tags: attribute_definition_parser.py:361-374 *)
Definition unparse_ad_child (a : attr_def) (t : option str) : result str :=
  if ostr_eqb t (Some "DEFAULT-VALUE") then unparse_attribute_default_value a
  else if ostr_eqb t (Some "TYPE") then Ok (unparse_attribute_type a)
  else Raise ENotImplementedError.

(** _unparse_attribute_definition, attribute_definition_parser.py:336-379 *)
Definition unparse_attribute_definition (a : attr_def) : result str :=
  let head :=
    "            <" ++ get_spec_type_tag (ad_type a)
    ++ opt_attr "DESC" lxml_escape_for_html (ad_description a)
    ++ " IDENTIFIER=""" ++ ad_identifier a ++ """"
    ++ opt_bool_attr "IS-EDITABLE" (ad_editable a)
    ++ truthy_attr "LAST-CHANGE" (ad_last_change a)
    ++ opt_attr "LONG-NAME" lxml_escape_for_html (ad_long_name a)
    ++ opt_bool_attr "MULTI-VALUED" (ad_multi_valued a)
    ++ ">" ++ nl in
  let! body := mapM (unparse_ad_child a)
                    (tags_or (ad_xml_node a) ["DEFAULT-VALUE"; "TYPE"]) in
  Ok (head ++ concat body
      ++ "            </" ++ get_spec_type_tag (ad_type a) ++ ">" ++ nl).

(** unparse_xhtml_attribute_definition, attribute_definition_parser.py:327-334 *)
Definition unparse_attribute_definitions (l : list attr_def) : result str :=
  let! parts := mapM unparse_attribute_definition l in Ok (concat parts).
