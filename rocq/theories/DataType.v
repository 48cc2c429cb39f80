(** DataType.v -- parsers/data_type_parser.py *)
From Verif Require Import Base Xml Lxml Py LxmlStr Models AttrDef.

(** The loop body over SPECIFIED-VALUES, data_type_parser.py:47-87 *)
Definition parse_enum_value (n : node) : result enum_value :=
  let! identifier := attr_req "IDENTIFIER" n in
  let description := attr_opt "DESC" n in
  let last_change := attr_opt "LAST-CHANGE" n in
  let long_name := attr_opt "LONG-NAME" n in
  let! properties := find_req "PROPERTIES" n in
  let! embedded := find_req "EMBEDDED-VALUE" properties in
  let! key := attr_req "KEY" embedded in
  let other_content := attr_opt "OTHER-CONTENT" embedded in
  Ok (EnumValue identifier key description last_change other_content long_name).

(** DataTypeParser.parse, data_type_parser.py:20-168 *)
Definition parse_data_type (n : node) : result data_type :=
  let! b := tag_contains "DATATYPE-DEFINITION-" n in
  let! _ := py_assert b in
  let is_self_closed := is_self_closed_tag n in
  let! identifier := attr_req "IDENTIFIER" n in
  let last_change := attr_opt "LAST-CHANGE" n in
  let long_name := attr_opt "LONG-NAME" n in
  let description := attr_opt "DESC" n in
  let c := DTC identifier description last_change long_name is_self_closed in
  if tag_is "DATATYPE-DEFINITION-ENUMERATION" n then
    match find_child "SPECIFIED-VALUES" n with
    | None => Ok (DTEnumeration c None)
    | Some sv => let! vs := mapM parse_enum_value (children sv) in
                 Ok (DTEnumeration c (Some vs))
    end
  else if tag_is "DATATYPE-DEFINITION-STRING" n then
    Ok (DTString c (attr_opt "MAX-LENGTH" n))
  else if tag_is "DATATYPE-DEFINITION-INTEGER" n then
    Ok (DTInteger c (attr_opt "MAX" n) (attr_opt "MIN" n))
  else if tag_is "DATATYPE-DEFINITION-REAL" n then
    let! accuracy := match attr_opt "ACCURACY" n with
                     | None => Ok None
                     | Some s => match py_int s with
                                 | Some z => Ok (Some z)
                                 | None => Raise EValueError end
                     end in
    Ok (DTReal c accuracy (attr_opt "MAX" n) (attr_opt "MIN" n))
  else if tag_is "DATATYPE-DEFINITION-XHTML" n then Ok (DTXhtml c)
  else if tag_is "DATATYPE-DEFINITION-DATE" n then Ok (DTDate c)
  else if tag_is "DATATYPE-DEFINITION-BOOLEAN" n then Ok (DTBoolean c)
  else Raise ENotImplementedError.

(** written without escaping *)
Definition raw (s : str) : str := s.

(** The common attribute prefix DESC, IDENTIFIER, LAST-CHANGE:
    data_type_parser.py:178-185, 199-206, 218-225, 265-272, 312-320, 331-339 *)
Definition dt_head (c : dt_common) : str :=
  opt_attr "DESC" lxml_escape_for_html (dt_description c)
  ++ " IDENTIFIER=""" ++ dt_identifier c ++ """"
  ++ truthy_attr "LAST-CHANGE" (dt_last_change c).

(** "/>" or ">" + closing tag: data_type_parser.py:191-195 and copies *)
Definition dt_close (c : dt_common) (tag_ : str) : str :=
  if dt_is_self_closed c then "/>" ++ nl
  else ">" ++ nl ++ "        </" ++ tag_ ++ ">" ++ nl.

(** data_type_parser.py:284-303 *)
Definition unparse_enum_value (v : enum_value) : str :=
  "            <ENUM-VALUE"
  ++ opt_attr "DESC" raw (ev_description v)
  ++ " IDENTIFIER=""" ++ ev_identifier v ++ """"
  ++ opt_attr "LAST-CHANGE" raw (ev_last_change v)
  ++ opt_attr "LONG-NAME" lxml_escape_for_html (ev_long_name v)
  ++ ">" ++ nl
  ++ "              <PROPERTIES>" ++ nl
  ++ "                <EMBEDDED-VALUE KEY=""" ++ ev_key v ++ """"
  ++ opt_attr "OTHER-CONTENT" raw (ev_other_content v)
  ++ "/>" ++ nl
  ++ "              </PROPERTIES>" ++ nl
  ++ "            </ENUM-VALUE>" ++ nl.

(** DataTypeParser.unparse, data_type_parser.py:170-350 *)
Definition unparse_data_type (d : data_type) : str :=
  match d with
  | DTString c max_length =>
      "        <DATATYPE-DEFINITION-STRING" ++ dt_head c
      ++ opt_attr "LONG-NAME" lxml_escape_for_html (dt_long_name c)
      ++ truthy_attr "MAX-LENGTH" max_length
      ++ dt_close c "DATATYPE-DEFINITION-STRING"
  | DTBoolean c =>
      "        <DATATYPE-DEFINITION-BOOLEAN" ++ dt_head c
      ++ opt_attr "LONG-NAME" lxml_escape_for_html (dt_long_name c)
      ++ dt_close c "DATATYPE-DEFINITION-BOOLEAN"
  | DTInteger c max_value min_value =>
      "        <DATATYPE-DEFINITION-INTEGER" ++ dt_head c
      ++ truthy_attr "LONG-NAME" (dt_long_name c)
      ++ opt_attr "MAX" raw max_value
      ++ opt_attr "MIN" raw min_value
      ++ dt_close c "DATATYPE-DEFINITION-INTEGER"
  | DTReal c accuracy max_value min_value =>
      "        <DATATYPE-DEFINITION-REAL"
      ++ (match accuracy with
          | Some z => " ACCURACY=""" ++ str_of_Z z ++ """" | None => [] end)
      ++ opt_attr "DESC" lxml_escape_for_html (dt_description c)
      ++ " IDENTIFIER=""" ++ dt_identifier c ++ """"
      ++ opt_attr "LAST-CHANGE" raw (dt_last_change c)
      ++ opt_attr "LONG-NAME" raw (dt_long_name c)
      ++ opt_attr "MAX" raw max_value
      ++ opt_attr "MIN" raw min_value
      ++ "/>" ++ nl
  | DTEnumeration c values =>
      "        <DATATYPE-DEFINITION-ENUMERATION" ++ dt_head c
      ++ opt_attr "LONG-NAME" lxml_escape_for_html (dt_long_name c)
      ++ (if dt_is_self_closed c then "/>" ++ nl else ">" ++ nl)
      ++ (match values with
          | None => []
          | Some vs => "          <SPECIFIED-VALUES>" ++ nl
                       ++ flat_map unparse_enum_value vs
                       ++ "          </SPECIFIED-VALUES>" ++ nl
          end)
      ++ (if dt_is_self_closed c then [] else "        </DATATYPE-DEFINITION-ENUMERATION>" ++ nl)
  | DTDate c =>
      "        <DATATYPE-DEFINITION-DATE" ++ dt_head c
      ++ truthy_attr "LONG-NAME" (dt_long_name c)
      ++ dt_close c "DATATYPE-DEFINITION-DATE"
  | DTXhtml c =>
      "        <DATATYPE-DEFINITION-XHTML" ++ dt_head c
      ++ opt_attr "LONG-NAME" lxml_escape_for_html (dt_long_name c)
      ++ dt_close c "DATATYPE-DEFINITION-XHTML"
  end.
