(** SpecTypes.v -- parsers/spec_types/*.py *)
From Verif Require Import Base Xml Lxml Py LxmlStr Models AttrDef DataType.

(** SpecObjectTypeParser.parse, spec_object_type_parser.py:11-40 *)
Definition parse_spec_object_type (n : node) : result spec_object_type :=
  let! _ := py_assert (tag_is "SPEC-OBJECT-TYPE" n) in
  let! identifier := or_not_impl (attr_req "IDENTIFIER" n) in
  let! ads := parse_attribute_definitions n in
  Ok (SpecObjectType identifier (attr_opt "DESC" n) (attr_opt "LAST-CHANGE" n)
                     (attr_opt "LONG-NAME" n) ads).

(** SpecRelationTypeParser.parse, spec_relation_type_parser.py:10-43 *)
Definition parse_spec_relation_type (n : node) : result spec_relation_type :=
  let! _ := py_assert (tag_is "SPEC-RELATION-TYPE" n) in
  let! identifier := or_not_impl (attr_req "IDENTIFIER" n) in
  let! long_name := or_not_impl (attr_req "LONG-NAME" n) in
  let! ads := parse_attribute_definitions n in
  Ok (SpecRelationType identifier (attr_opt "DESC" n) (attr_opt "LAST-CHANGE" n)
                       (Some long_name) (is_self_closed_tag n) ads).

(** The attribute_map loop, specification_type_parser.py:39-44 *)
Fixpoint fill_attribute_map (l : list attr_def) (m : dict str) : result (dict str) :=
  match l with
  | [] => Ok m
  | a :: l' => match ad_long_name a with
               | None => Raise EAssertionError
               | Some ln => fill_attribute_map l' (dict_set m (Some (ad_identifier a)) ln)
               end
  end.

(** SpecificationTypeParser.parse, specification_type_parser.py:9-54 *)
Definition parse_specification_type (n : node) : result specification_type :=
  let! _ := py_assert (tag_is "SPECIFICATION-TYPE" n) in
  let! identifier := or_not_impl (attr_req "IDENTIFIER" n) in
  let! last_change := or_not_impl (attr_req "LAST-CHANGE" n) in
  let! ads := parse_attribute_definitions n in
  let! m := match ads with Some l => fill_attribute_map l [] | None => Ok [] end in
  Ok (SpecificationType identifier (attr_opt "DESC" n) (Some last_change)
                        (attr_opt "LONG-NAME" n) ads (Some m) (is_self_closed_tag n)).

(** RelationGroupTypeParser.parse, relation_group_type_parser.py:10-46 *)
Definition parse_relation_group_type (n : node) : result relation_group_type :=
  let! _ := py_assert (tag_is "RELATION-GROUP-TYPE" n) in
  let! identifier := or_not_impl (attr_req "IDENTIFIER" n) in
  let! ads := parse_attribute_definitions n in
  Ok (RelationGroupType identifier (attr_opt "DESC" n) (attr_opt "LAST-CHANGE" n)
                        (attr_opt "LONG-NAME" n) (is_self_closed_tag n) ads).

(** The SPEC-ATTRIBUTES block, spec_object_type_parser.py:57-64 and copies *)
Definition spec_attributes_block (ads : option (list attr_def)) : result str :=
  match ads with
  | None => Ok []
  | Some l => let! s := unparse_attribute_definitions l in
              Ok ("          <SPEC-ATTRIBUTES>" ++ nl ++ s ++ "          </SPEC-ATTRIBUTES>" ++ nl)
  end.

(** SpecObjectTypeParser.unparse, spec_object_type_parser.py:42-68 *)
Definition unparse_spec_object_type (t : spec_object_type) : result str :=
  let! body := spec_attributes_block (sot_attribute_definitions t) in
  Ok ("        <SPEC-OBJECT-TYPE"
      ++ opt_attr "DESC" lxml_escape_for_html (sot_description t)
      ++ " IDENTIFIER=""" ++ sot_identifier t ++ """"
      ++ opt_attr "LAST-CHANGE" raw (sot_last_change t)
      ++ opt_attr "LONG-NAME" lxml_escape_for_html (sot_long_name t)
      ++ ">" ++ nl
      ++ body
      ++ "        </SPEC-OBJECT-TYPE>" ++ nl).

(** has_attributes, spec_relation_type_parser.py:55-58 and copies *)
Definition has_attributes (ads : option (list attr_def)) : bool :=
  match ads with Some (_ :: _) => true | _ => false end.

(** The common end: "/>" or body and closing tag,
    spec_relation_type_parser.py:59-76, specification_type_parser.py:73-88,
    relation_group_type_parser.py:62-76 *)
Definition close_type (self_closed : bool) (ads : option (list attr_def)) (t : str) : result str :=
  if self_closed && negb (has_attributes ads) then Ok ("/>" ++ nl)
  else let! body := spec_attributes_block ads in
       Ok (">" ++ nl ++ body ++ "        </" ++ t ++ ">" ++ nl).

(** SpecRelationTypeParser.unparse, spec_relation_type_parser.py:45-76 *)
Definition unparse_spec_relation_type (t : spec_relation_type) : result str :=
  let! rest := close_type (srt_is_self_closed t) (srt_attribute_definitions t) "SPEC-RELATION-TYPE" in
  Ok ("        <SPEC-RELATION-TYPE"
      ++ opt_attr "DESC" html_escape (srt_description t)
      ++ " IDENTIFIER=""" ++ srt_identifier t ++ """"
      ++ opt_attr "LAST-CHANGE" raw (srt_last_change t)
      ++ opt_attr "LONG-NAME" raw (srt_long_name t)
      ++ rest).
(** SpecificationTypeParser.unparse, specification_type_parser.py:56-88 *)
Definition unparse_specification_type (t : specification_type) : result str :=
  let! rest := close_type (spt_is_self_closed t) (spt_spec_attributes t) "SPECIFICATION-TYPE" in
  Ok ("        <SPECIFICATION-TYPE"
      ++ opt_attr "DESC" raw (spt_description t)
      ++ " IDENTIFIER=""" ++ spt_identifier t ++ """"
      ++ opt_attr "LAST-CHANGE" raw (spt_last_change t)
      ++ opt_attr "LONG-NAME" raw (spt_long_name t)
      ++ rest).
(** RelationGroupTypeParser.unparse, relation_group_type_parser.py:48-76 *)
Definition unparse_relation_group_type (t : relation_group_type) : result str :=
  let! rest := close_type (rgt_is_self_closed t) (rgt_attribute_definitions t) "RELATION-GROUP-TYPE" in
  Ok ("        <RELATION-GROUP-TYPE"
      ++ opt_attr "DESC" html_escape (rgt_description t)
      ++ " IDENTIFIER=""" ++ rgt_identifier t ++ """"
      ++ opt_attr "LAST-CHANGE" raw (rgt_last_change t)
      ++ opt_attr "LONG-NAME" raw (rgt_long_name t)
      ++ rest).

(** The tag dispatch, parser.py:295-307; [None] is the skipped comment *)
Definition parse_spec_type (n : node) : result (option spec_type) :=
  if tag_is "SPEC-OBJECT-TYPE" n then let! t := parse_spec_object_type n in Ok (Some (STObject t))
  else if tag_is "SPEC-RELATION-TYPE" n then
    let! t := parse_spec_relation_type n in Ok (Some (STRelation t))
  else if tag_is "SPECIFICATION-TYPE" n then
    let! t := parse_specification_type n in Ok (Some (STSpecification t))
  else if tag_is "RELATION-GROUP-TYPE" n then
    let! t := parse_relation_group_type n in Ok (Some (STGroup t))
  else if is_comment n then Ok None
  else Raise ENotImplementedError.

(** unparser.py:64-77 *)
Definition unparse_spec_type (t : spec_type) : result str :=
  match t with
  | STObject t => unparse_spec_object_type t
  | STRelation t => unparse_spec_relation_type t
  | STSpecification t => unparse_specification_type t
  | STGroup t => unparse_relation_group_type t
  end.
