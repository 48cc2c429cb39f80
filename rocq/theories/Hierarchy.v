(** Hierarchy.v -- parsers/spec_hierarchy_parser.py, specification_parser.py *)
From Verif Require Import Base Xml Lxml Py LxmlStr Models AttrDef DataType AttrValue SpecObj.

(** equality of lists of tags, spec_hierarchy_parser.py:10-66 *)
Definition tags_eqb (a b : list (option str)) : bool :=
  Nat.eqb (length a) (length b) && forallb (fun p => ostr_eqb (fst p) (snd p)) (combine a b).

(** ReqIFSpecHierarchyParser.parse, spec_hierarchy_parser.py:10-66.  The inner
    [fix] is find("CHILDREN") fused with the recursive calls on its children
    (:44-53), so that the recursion is structural. *)
Fixpoint parse_hier (level : nat) (n : node) : result hier :=
  match n with
  | El ns l defs inh attrs kids =>
      let! _ := py_assert (tag_is "SPEC-HIERARCHY" n) in
      let! identifier := or_not_impl (attr_req "IDENTIFIER" n) in
      let last_change := attr_opt "LAST-CHANGE" n in
      let long_name := attr_opt "LONG-NAME" n in
      let editable := editable_of (attr_opt "IS-EDITABLE" n) in
      let is_table_internal := editable_of (attr_opt "IS-TABLE-INTERNAL" n) in
      let order := tags_eqb (child_tags n) [Some "OBJECT"; Some "CHILDREN"] in
      let! ob := find_req "OBJECT" n in
      let! r := find_req "SPEC-OBJECT-REF" ob in
      let is_self_closed := match find_child "CHILDREN" n with
                            | Some c => is_self_closed_tag c
                            | None => false end in
      let! ch :=
        (fix go (ks : list node) : result (option (list hier)) :=
           match ks with
           | [] => Ok None
           | k :: ks' =>
               match k with
               | El ns' l' _ _ _ kk =>
                   if str_eqb (clark ns' l') "CHILDREN"
                   then let! hs := mapM_children (parse_hier (S level)) kk in Ok (Some hs)
                   else go ks'
               | _ => go ks'
               end
           end) kids in
      Ok (Hier identifier (text r) level ch long_name order last_change editable
               is_table_internal is_self_closed (Some n))
  | _ => Raise EAssertionError
  end.

(** calculate_base_level, reqif_spec_hierarchy.py:53-55 *)
Definition base_level (level : nat) : result nat :=
  match level with O => Raise EAssertionError | S k => Ok (12 + k * 4) end.

(** print_object, spec_hierarchy_parser.py:87-94 *)
Definition print_object (ind : str) (obj : option str) : str :=
  ind ++ "  <OBJECT>" ++ nl
  ++ ind ++ "    " ++ "<SPEC-OBJECT-REF>" ++ fmt obj ++ "</SPEC-OBJECT-REF>" ++ nl
  ++ ind ++ "  </OBJECT>" ++ nl.

(** ReqIFSpecHierarchyParser.unparse, spec_hierarchy_parser.py:68-119.
    In the Python code the children are printed (and their exceptions raised)
    while the output is being built; nothing else here can raise, so the order
    is immaterial. *)
Fixpoint unparse_hier (h : hier) : result str :=
  match h with
  | Hier identifier obj level ch long_name order last_change editable table self_closed _ =>
      let! b := base_level level in
      let ind := spaces b in
      let head :=
        ind ++ "<SPEC-HIERARCHY IDENTIFIER=""" ++ identifier ++ """"
        ++ opt_bool_attr "IS-EDITABLE" editable
        ++ opt_bool_attr "IS-TABLE-INTERNAL" table
        ++ truthy_attr "LAST-CHANGE" last_change
        ++ truthy_attr "LONG-NAME" long_name
        ++ ">" ++ nl in
      let! children_output :=
        match ch with
        | None => Ok []
        | Some l =>
            if (match l with [] => self_closed | _ => false end)
            then Ok (ind ++ "  <CHILDREN/>" ++ nl)
            else
              let! parts := mapM unparse_hier l in
              Ok (ind ++ "  <CHILDREN>" ++ nl ++ concat parts ++ ind ++ "  </CHILDREN>" ++ nl)
        end in
      Ok (head
          ++ (if order then print_object ind obj ++ children_output
              else children_output ++ print_object ind obj)
          ++ ind ++ "</SPEC-HIERARCHY>" ++ nl)
  end.

(** The last child with tag CHILDREN (specification_parser.py:49-55: the loop
    overwrites) *)
Definition last_child (t : str) (n : node) : option node := find_list t (rev (kids_of n)).

(** ReqIFSpecificationParser.parse, specification_parser.py:15-78 *)
Definition parse_specification (n : node) : result specification :=
  let! b := tag_contains "SPECIFICATION" n in
  let! _ := py_assert b in
  let! identifier := or_not_impl (attr_req "IDENTIFIER" n) in
  let! ch := match last_child "CHILDREN" n with
             | None => Ok None
             | Some c => let! hs := mapM (parse_hier 1) (children c) in Ok (Some hs)
             end in
  let! values := parse_attribute_values (find_child "VALUES" n) in
  Ok (Specification identifier (attr_opt "DESC" n) (attr_opt "LAST-CHANGE" n)
        (attr_opt "LONG-NAME" n) values
        (opt_ref "TYPE" "SPECIFICATION-TYPE-REF" n) ch (Some n)).

(** _unparse_specification_children, specification_parser.py:140-151 *)
Definition unparse_specification_children (l : list hier) : result str :=
  let! parts := mapM unparse_hier l in
  Ok ("          <CHILDREN>" ++ nl ++ concat parts ++ "          </CHILDREN>" ++ nl).

(** The loop over children_tags, specification_parser.py:104-123: other tags
    are silently skipped *)
Definition unparse_sp_child (s : specification) (t : option str) : result str :=
  if ostr_eqb t (Some "TYPE") then
    Ok (match sp_specification_type s with
        | Some (c :: x) =>
            "          <TYPE>" ++ nl
            ++ "            <SPECIFICATION-TYPE-REF>" ++ (c :: x)
            ++ "</SPECIFICATION-TYPE-REF>" ++ nl
            ++ "          </TYPE>" ++ nl
        | _ => []
        end)
  else if ostr_eqb t (Some "CHILDREN") then
    match sp_children s with
    | None => Ok []
    | Some l => unparse_specification_children l
    end
  else if ostr_eqb t (Some "VALUES") then unparse_attribute_values (sp_values s)
  else Ok [].

(** ReqIFSpecificationParser.unparse, specification_parser.py:80-126 *)
Definition unparse_specification (s : specification) : result str :=
  let head :=
    "        <SPECIFICATION"
    ++ opt_attr "DESC" lxml_escape_for_html (sp_description s)
    ++ " IDENTIFIER=""" ++ sp_identifier s ++ """"
    ++ opt_attr "LAST-CHANGE" raw (sp_last_change s)
    ++ opt_attr "LONG-NAME" lxml_escape_for_html (sp_long_name s)
    ++ ">" ++ nl in
  let! body := mapM (unparse_sp_child s)
                    (tags_or (sp_xml_node s) ["TYPE"; "CHILDREN"; "VALUES"]) in
  Ok (head ++ concat body ++ "        </SPECIFICATION>" ++ nl).
