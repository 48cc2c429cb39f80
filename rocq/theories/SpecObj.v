(** SpecObj.v -- parsers/spec_object_parser.py, spec_relation_parser.py,
    relation_group_parser.py *)
From Verif Require Import Base Xml Lxml Py LxmlStr Models AttrDef DataType AttrValue.

(** SpecObjectParser.parse, spec_object_parser.py:14-50 *)
Definition parse_spec_object (n : node) : result spec_object :=
  let! b := tag_contains "SPEC-OBJECT" n in
  let! _ := py_assert b in
  let description := attr_opt "DESC" n in
  let! identifier := or_not_impl (attr_req "IDENTIFIER" n) in
  let last_change := attr_opt "LAST-CHANGE" n in
  let long_name := attr_opt "LONG-NAME" n in
  let! ty := find_req "TYPE" n in
  let! r := find_req "SPEC-OBJECT-TYPE-REF" ty in
  let! vs := parse_attribute_values (find_child "VALUES" n) in
  let attributes := match vs with Some l => l | None => [] end in
  Ok (SpecObject identifier attributes (text r) description last_change long_name (Some n)).

(** _unparse_spec_object_type, spec_object_parser.py:89-100 *)
Definition unparse_spec_object_type_ref (o : spec_object) : str :=
  "          <TYPE>" ++ nl
  ++ "            " ++ "<SPEC-OBJECT-TYPE-REF>" ++ fmt (so_spec_object_type o)
  ++ "</SPEC-OBJECT-TYPE-REF>" ++ nl
  ++ "          </TYPE>" ++ nl.

(** The loop over children_tags, spec_object_parser.py:75-83: unknown tags are
    logged and skipped *)
Definition unparse_so_child (o : spec_object) (t : option str) : result str :=
  if ostr_eqb t (Some "VALUES") then unparse_attribute_values (Some (so_attributes o))
  else if ostr_eqb t (Some "TYPE") then Ok (unparse_spec_object_type_ref o)
  else Ok [].

(** SpecObjectParser.unparse, spec_object_parser.py:52-87 *)
Definition unparse_spec_object (o : spec_object) : result str :=
  let head :=
    "        <SPEC-OBJECT"
    ++ opt_attr "DESC" raw (so_description o)
    ++ " IDENTIFIER=""" ++ so_identifier o ++ """"
    ++ truthy_attr "LAST-CHANGE" (so_last_change o)
    ++ opt_attr "LONG-NAME" raw (so_long_name o)
    ++ ">" ++ nl in
  let tags := tags_or (so_xml_node o) ["VALUES"; "TYPE"] in
  let! _ := py_assert (ostr_mem (Some "VALUES") tags) in
  let! _ := py_assert (ostr_mem (Some "TYPE") tags) in
  let! body := mapM (unparse_so_child o) tags in
  Ok (head ++ concat body ++ "        </SPEC-OBJECT>" ++ nl).

(** The first child of VALUES, spec_relation_parser.py:57-85 (the loop breaks
    after one iteration) *)
Definition parse_relation_value (n : node) : result spec_attr :=
  if tag_is "ATTRIBUTE-VALUE-STRING" n then
    let! v := attr_req "THE-VALUE" n in
    let! ref := first_grandchild_text n in
    Ok (SpecAttr AT_STRING ref (VStr v) None (Some n))
  else if tag_is "ATTRIBUTE-VALUE-XHTML" n then parse_xhtml_attribute_value n
  else if tag_is "ATTRIBUTE-VALUE-INTEGER" n then
    let! v := attr_req "THE-VALUE" n in
    let! ref := first_grandchild_text n in
    Ok (SpecAttr AT_INTEGER ref (VStr v) None (Some n))
  else Raise ENotImplementedError.

(** SpecRelationParser.parse, spec_relation_parser.py:14-98 *)
Definition parse_spec_relation (n : node) : result spec_relation :=
  let! _ := py_assert (tag_is "SPEC-RELATION" n) in
  let tags := child_tags n in
  let! _ := py_assert (ostr_mem (Some "TYPE") tags) in
  if negb (ostr_mem (Some "SOURCE") tags) then Raise (EMissingTag n "SOURCE")
  else if negb (ostr_mem (Some "TARGET") tags) then Raise (EMissingTag n "TARGET")
  else
    let! identifier := match attr_opt "IDENTIFIER" n with
                       | Some s => Ok s | None => Raise EAssertionError end in
    let description := attr_opt "DESC" n in
    let last_change := attr_opt "LAST-CHANGE" n in
    let long_name := attr_opt "LONG-NAME" n in
    let! ty := find_req "TYPE" n in
    let! tyr := find_req "SPEC-RELATION-TYPE-REF" ty in
    let! src := find_req "SOURCE" n in
    let! srcr := find_req "SPEC-OBJECT-REF" src in
    let! tgt := find_req "TARGET" n in
    let! tgtr := find_req "SPEC-OBJECT-REF" tgt in
    let! values := match find_child "VALUES" n with
                   | None => Ok None
                   | Some vs => match children vs with
                                | [] => Ok None
                                | v :: _ => let! a := parse_relation_value v in Ok (Some a)
                                end
                   end in
    Ok (SpecRelation identifier (text tyr) (text srcr) (text tgtr) (Some n)
                     description last_change long_name values).

(** _unparse_spec_relation_type / _source / _target,
    spec_relation_parser.py:139-172 *)
Definition unparse_sr_type (r : spec_relation) : str :=
  "          <TYPE>" ++ nl ++ "            "
  ++ "<SPEC-RELATION-TYPE-REF>" ++ fmt (sr_relation_type_ref r)
  ++ "</SPEC-RELATION-TYPE-REF>" ++ nl
  ++ "          </TYPE>" ++ nl.
(** _unparse_spec_relation_source, spec_relation_parser.py:152-161 *)
Definition unparse_sr_source (r : spec_relation) : str :=
  "          <SOURCE>" ++ nl ++ "            "
  ++ "<SPEC-OBJECT-REF>" ++ fmt (sr_source r) ++ "</SPEC-OBJECT-REF>" ++ nl
  ++ "          </SOURCE>" ++ nl.
(** _unparse_spec_relation_target, spec_relation_parser.py:163-172 *)
Definition unparse_sr_target (r : spec_relation) : str :=
  "          <TARGET>" ++ nl ++ "            "
  ++ "<SPEC-OBJECT-REF>" ++ fmt (sr_target r) ++ "</SPEC-OBJECT-REF>" ++ nl
  ++ "          </TARGET>" ++ nl.

(** The loop over children_tags, spec_relation_parser.py:117-134 *)
Definition unparse_sr_child (r : spec_relation) (t : option str) : result str :=
  if ostr_eqb t (Some "TYPE") then Ok (unparse_sr_type r)
  else if ostr_eqb t (Some "SOURCE") then Ok (unparse_sr_source r)
  else if ostr_eqb t (Some "TARGET") then Ok (unparse_sr_target r)
  else if ostr_eqb t (Some "VALUES") then
    match sr_values_attribute r with
    | None => Ok []
    | Some a => unparse_attribute_values (Some [a])
    end
  else Raise ENotImplementedError.

(** SpecRelationParser.unparse, spec_relation_parser.py:100-137 *)
Definition unparse_spec_relation (r : spec_relation) : result str :=
  let head :=
    "        <SPEC-RELATION"
    ++ opt_attr "DESC" raw (sr_description r)
    ++ " IDENTIFIER=""" ++ sr_identifier r ++ """"
    ++ opt_attr "LAST-CHANGE" raw (sr_last_change r)
    ++ opt_attr "LONG-NAME" html_escape (sr_long_name r)
    ++ ">" ++ nl in
  let! body := mapM (unparse_sr_child r)
                    (tags_or (sr_xml_node r) ["TYPE"; "SOURCE"; "TARGET"; "VALUES"]) in
  Ok (head ++ concat body ++ "        </SPEC-RELATION>" ++ nl).

(** xml.find(t).find(ref).text, None when either is missing,
    relation_group_parser.py:39-58, specification_parser.py:40-47 *)
Definition opt_ref (t ref : str) (n : node) : option str :=
  match find_child t n with
  | None => None
  | Some x => match find_child ref x with
              | None => None
              | Some r => text r end
  end.

(** ReqIFRelationGroupParser.parse, relation_group_parser.py:7-70 *)
Definition parse_relation_group (n : node) : result relation_group :=
  let! b := tag_contains "RELATION-GROUP" n in
  let! _ := py_assert b in
  let! identifier := or_not_impl (attr_req "IDENTIFIER" n) in
  let spec_relations := match find_child "SPEC-RELATIONS" n with
                        | None => None
                        | Some x => Some (map text (children x)) end in
  Ok (RelationGroup identifier (attr_opt "DESC" n) (attr_opt "LAST-CHANGE" n)
        (attr_opt "LONG-NAME" n)
        (opt_ref "TYPE" "RELATION-GROUP-TYPE-REF" n)
        (opt_ref "SOURCE-SPECIFICATION" "SPECIFICATION-REF" n)
        (opt_ref "TARGET-SPECIFICATION" "SPECIFICATION-REF" n)
        spec_relations false).

(** The three optional reference children, relation_group_parser.py:98-123 *)
Definition ref_block (t ref : str) (v : option str) : str :=
  match v with
  | None => []
  | Some s => "          <" ++ t ++ ">" ++ nl
              ++ "            <" ++ ref ++ ">" ++ s ++ "</" ++ ref ++ ">" ++ nl
              ++ "          </" ++ t ++ ">" ++ nl
  end.
(** ReqIFRelationGroupParser.unparse, relation_group_parser.py:72-126 *)
Definition unparse_relation_group (g : relation_group) : str :=
  "        <RELATION-GROUP"
  ++ opt_attr "DESC" raw (rg_description g)
  ++ " IDENTIFIER=""" ++ rg_identifier g ++ """"
  ++ opt_attr "LAST-CHANGE" raw (rg_last_change g)
  ++ truthy_attr "LONG-NAME" (rg_long_name g)
  ++ ">" ++ nl
  ++ (match rg_spec_relations g with
      | None => []
      | Some l => "          <SPEC-RELATIONS>" ++ nl
                  ++ flat_map (fun r => "            <SPEC-RELATION-REF>" ++ fmt r
                                        ++ "</SPEC-RELATION-REF>" ++ nl) l
                  ++ "          </SPEC-RELATIONS>" ++ nl
      end)
  ++ ref_block "TYPE" "RELATION-GROUP-TYPE-REF" (rg_type_ref g)
  ++ ref_block "SOURCE-SPECIFICATION" "SPECIFICATION-REF" (rg_source_specification_ref g)
  ++ ref_block "TARGET-SPECIFICATION" "SPECIFICATION-REF" (rg_target_specification_ref g)
  ++ "        </RELATION-GROUP>" ++ nl.
