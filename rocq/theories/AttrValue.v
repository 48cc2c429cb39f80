(** AttrValue.v -- parsers/attribute_value_parser.py *)
From Verif Require Import Base Xml Lxml Py LxmlStr Models AttrDef.

(** attribute_xml[0][0].text, attribute_value_parser.py:104,
    spec_relation_parser.py:63, 76 *)
Definition first_grandchild_text (n : node) : result (option str) :=
  let! a := child_at 0 n in
  let! b := child_at 0 a in
  Ok (text b).

(** attribute_xml.find("DEFINITION").find(ref).text,
    attribute_value_parser.py:112-116 and copies *)
Definition definition_ref_text (ref_tag : str) (n : node) : result (option str) :=
  let! d := find_req "DEFINITION" n in
  let! r := find_req ref_tag d in
  Ok (text r).

(** parse_xhtml_attribute_value, attribute_value_parser.py:282-309 *)
Definition parse_xhtml_attribute_value (n : node) : result spec_attr :=
  let! b := tag_contains "ATTRIBUTE-VALUE-XHTML" n in
  let! _ := py_assert b in
  let! tv := find_req "THE-VALUE" n in
  let! (value, stripped) :=
    (match node_nsmap tv with
     | _ :: _ =>
         let! v := stringify_namespaced_children tv None in
         let! s := convert_children_from_reqif_ns tv in
         Ok (v, reqif_unindent_xhtml_string s)
     | [] =>
         let! v := stringify_children tv in
         Ok (v, reqif_unindent_xhtml_string v)
     end) in
  let! ref := definition_ref_text "ATTRIBUTE-DEFINITION-XHTML-REF" n in
  Ok (SpecAttr AT_XHTML ref (VStr value) (Some stripped) (Some n)).

(** The INTEGER, REAL, BOOLEAN and DATE branches,
    attribute_value_parser.py:130-185 *)
Definition parse_simple_value (t : attr_type) (n : node) : result spec_attr :=
  let! v := attr_req "THE-VALUE" n in
  let! ref := definition_ref_text (get_spec_type_tag t ++ "-REF") n in
  Ok (SpecAttr t ref (VStr v) None (Some n)).

(** The loop body of parse_attribute_values, attribute_value_parser.py:99-192;
    [None] is the [continue] on comments *)
Definition parse_attribute_value (n : node) : result (option spec_attr) :=
  if is_comment n then Ok None
  else if tag_is "ATTRIBUTE-VALUE-STRING" n then
    let! v := attr_req "THE-VALUE" n in
    let! ref := first_grandchild_text n in
    Ok (Some (SpecAttr AT_STRING ref (VStr v) None (Some n)))
  else if tag_is "ATTRIBUTE-VALUE-ENUMERATION" n then
    let! ref := definition_ref_text "ATTRIBUTE-DEFINITION-ENUMERATION-REF" n in
    match find_child "VALUES" n with
    | None => Raise EAssertionError
    | Some vs => Ok (Some (SpecAttr AT_ENUMERATION ref (VList (map text (children vs)))
                                    None (Some n)))
    end
  else if tag_is "ATTRIBUTE-VALUE-INTEGER" n then
    let! a := parse_simple_value AT_INTEGER n in Ok (Some a)
  else if tag_is "ATTRIBUTE-VALUE-REAL" n then
    let! a := parse_simple_value AT_REAL n in Ok (Some a)
  else if tag_is "ATTRIBUTE-VALUE-BOOLEAN" n then
    let! a := parse_simple_value AT_BOOLEAN n in Ok (Some a)
  else if tag_is "ATTRIBUTE-VALUE-DATE" n then
    let! a := parse_simple_value AT_DATE n in Ok (Some a)
  else if tag_is "ATTRIBUTE-VALUE-XHTML" n then
    let! a := parse_xhtml_attribute_value n in Ok (Some a)
  else Raise ENotImplementedError.

(** the attributes that were appended, attribute_value_parser.py:192 *)
Fixpoint catSomes {A} (l : list (option A)) : list A :=
  match l with
  | [] => []
  | Some x :: l' => x :: catSomes l'
  | None :: l' => catSomes l'
  end.

(** parse_attribute_values, attribute_value_parser.py:91-194 *)
Definition parse_attribute_values (o : option node) : result (option (list spec_attr)) :=
  match o with
  | None => Ok None
  | Some n => let! l := mapM parse_attribute_value (children n) in
              Ok (Some (catSomes l))
  end.

(** The STRING/INTEGER/REAL/DATE/BOOLEAN templates,
    attribute_value_parser.py:16-38, 64-70, 81-87 *)
Definition value_template (t : attr_type) (value : str) (ref : option str) : str :=
  "            <" ++ get_attribute_value_tag t ++ " THE-VALUE=""" ++ value ++ """>" ++ nl
  ++ "              <DEFINITION>" ++ nl
  ++ "                <" ++ get_spec_type_tag t ++ "-REF>" ++ fmt ref
  ++ "</" ++ get_spec_type_tag t ++ "-REF>" ++ nl
  ++ "              </DEFINITION>" ++ nl
  ++ "            </" ++ get_attribute_value_tag t ++ ">" ++ nl.
(** attribute_value_parser.py:72-79 *)
Definition xhtml_template (value : str) (ref : option str) : str :=
  "            <ATTRIBUTE-VALUE-XHTML>" ++ nl
  ++ "              <DEFINITION>" ++ nl
  ++ "                <ATTRIBUTE-DEFINITION-XHTML-REF>" ++ fmt ref
  ++ "</ATTRIBUTE-DEFINITION-XHTML-REF>" ++ nl
  ++ "              </DEFINITION>" ++ nl
  ++ "              <THE-VALUE>" ++ value ++ "</THE-VALUE>" ++ nl
  ++ "            </ATTRIBUTE-VALUE-XHTML>" ++ nl.
(** attribute_value_parser.py:40-42 *)
Definition enum_value_template (v : option str) : str :=
  "                <ENUM-VALUE-REF>" ++ fmt v ++ "</ENUM-VALUE-REF>" ++ nl.
(** The two halves of attribute_value_parser.py:43-62 *)
Definition enum_values_part (values : str) : str :=
  "              <VALUES>" ++ nl ++ values ++ nl ++ "              </VALUES>" ++ nl.
(** attribute_value_parser.py:43-62, the DEFINITION *)
Definition enum_definition_part (ref : option str) : str :=
  "              <DEFINITION>" ++ nl
  ++ "                <ATTRIBUTE-DEFINITION-ENUMERATION-REF>" ++ fmt ref
  ++ "</ATTRIBUTE-DEFINITION-ENUMERATION-REF>" ++ nl
  ++ "              </DEFINITION>" ++ nl.
(** ATTRIBUTE_ENUMERATION_TEMPLATE and its variant, attribute_value_parser.py:43-62 *)
Definition enum_template (values_first : bool) (values : str) (ref : option str) : str :=
  "            <ATTRIBUTE-VALUE-ENUMERATION>" ++ nl
  ++ (if values_first then enum_values_part values ++ enum_definition_part ref
      else enum_definition_part ref ++ enum_values_part values)
  ++ "            </ATTRIBUTE-VALUE-ENUMERATION>" ++ nl.

(** list.index *)
Fixpoint index_of (x : option str) (l : list (option str)) : option nat :=
  match l with
  | [] => None
  | y :: l' => if ostr_eqb x y then Some 0 else option_map S (index_of x l')
  end.

(** attribute_value_parser.py:227-235: index raises ValueError when missing *)
Definition values_first_order (n : option node) : result bool :=
  let tags := tags_or n ["VALUES"; "DEFINITION"] in
  match index_of (Some "VALUES") tags with
  | None => Raise EValueError
  | Some i => match index_of (Some "DEFINITION") tags with
              | None => Raise EValueError
              | Some j => Ok (Nat.ltb i j) end
  end.

(** The loop body of unparse_attribute_values, attribute_value_parser.py:207-277 *)
Definition unparse_attribute_value (a : spec_attr) : result str :=
  match sa_type a with
  | AT_ENUMERATION =>
      let! values_first := values_first_order (sa_xml_node a) in
      match sa_value a with
      | VStr _ => Raise EAssertionError
      | VList l =>
          let values := rstrip (flat_map enum_value_template l) in
          Ok (enum_template values_first values (sa_definition_ref a))
      end
  | t =>
      match sa_value a with
      | VList _ => Raise EAssertionError
      | VStr v =>
          Ok (match t with
              | AT_STRING => value_template AT_STRING (html_escape v) (sa_definition_ref a)
              | AT_XHTML => xhtml_template v (sa_definition_ref a)
              | _ => value_template t v (sa_definition_ref a)
              end)
      end
  end.

(** unparse_attribute_values, attribute_value_parser.py:196-280 *)
Definition unparse_attribute_values (o : option (list spec_attr)) : result str :=
  match o with
  | None => Ok []
  | Some [] => Ok ("          <VALUES/>" ++ nl)
  | Some l => let! parts := mapM unparse_attribute_value l in
              Ok ("          <VALUES>" ++ nl ++ concat parts ++ "          </VALUES>" ++ nl)
  end.

(** unparse_xhtml_attribute_value, attribute_value_parser.py:311-319 *)
Definition unparse_xhtml_attribute_value (a : spec_attr) : result str :=
  match sa_value a with
  | VStr v => Ok (xhtml_template v (sa_definition_ref a))
  | VList _ => Raise EAssertionError
  end.
