(** Parser.v -- reqif/parser.py, class ReqIFParser *)
From Verif Require Import Base Xml Utf8 Lxml Py LxmlStr Models AttrDef DataType Header
  AttrValue SpecObj Hierarchy SpecTypes Progress.

(** ** The root tag dump, parser.py:148-173 *)

(** libxml2's attribute value escaping for ASCII output *)
Definition hex_char (d : N) : N := (if N.ltb d 10 then 48 + d else 55 + d)%N.
(** hexadecimal digits, most significant first *)
Fixpoint hex_digits (fuel : nat) (n : N) (acc : str) : str :=
  match fuel with
  | O => acc
  | S f =>
      let acc' := hex_char (N.modulo n 16) :: acc in
      let q := N.div n 16 in
      if N.eqb q 0 then acc' else hex_digits f q acc'
  end.
(** a number in hexadecimal *)
Definition str_of_hex (n : N) : str := hex_digits (S (N.to_nat (N.size n))) n [].
(** xmlAttrSerializeTxtContent, one character *)
Definition dump_attr_char (c : N) : str :=
  if N.eqb c 38 then "&amp;" else if N.eqb c 60 then "&lt;" else if N.eqb c 62 then "&gt;"
  else if N.eqb c 34 then "&quot;" else if N.eqb c 10 then "&#10;" else if N.eqb c 9 then "&#9;"
  else if N.eqb c 13 then "&#13;"
  else if N.ltb c 128 then [c] else "&#x" ++ str_of_hex c ++ ";".
(** an attribute value *)
Definition dump_attr_value (s : str) : str := flat_map dump_attr_char s.

(** a declaration, as tostring writes it *)
Definition dump_nsdecl (d : nsref) : str :=
  " xmlns" ++ (match fst d with Some p => ":" ++ p | None => [] end) ++ "=""" ++ snd d ++ """".

(** The prefix printed for a namespaced attribute: "xml", or the first prefixed
    declaration of its URI. *)
Definition dump_prefix (m : nsmap) (u : str) : str :=
  if str_eqb u xml_uri then "xml:"
  else match find (fun d => match fst d with Some _ => str_eqb (snd d) u | None => false end) m with
       | Some (Some p, _) => p ++ ":"
       | _ => []
       end.
(** an attribute, as tostring writes it *)
Definition dump_attr (m : nsmap) (a : attr) : str :=
  " " ++ (match a_ns a with Some (_, u) => dump_prefix m u | None => [] end)
  ++ a_local a ++ "=""" ++ dump_attr_value (a_val a) ++ """".

(** The name printed for the element: unprefixed when it is in no namespace or
    when the default namespace is its namespace, otherwise the first prefix
    declared for its URI (an assumption about lxml, see DESIGN.md). *)
Definition dump_name (n : node) : str :=
  match n with
  | El (Some (_, u)) l defs inh _ _ =>
      let m := extend defs inh in
      match ns_get m None with
      | Some u' => if str_eqb u u' then l else dump_prefix m u ++ l
      | None => dump_prefix m u ++ l
      end
  | El None l _ _ _ _ => l
  | _ => []
  end.

(** etree.Element(tag, nsmap=...), .text = "", .set(...), tostring(...),
    replace("</REQ-IF>", ""), strip(): parser.py:159-173.  The replace removes
    the end tag only when the root is printed without prefix (an escaped
    attribute value cannot contain "</REQ-IF>").  Assumptions on lxml:
    declarations are printed in nsmap order, attributes in document order, and
    namespace URIs are printed unescaped. *)
Definition original_reqif_tag_dump (root : node) : str :=
  match root with
  | El _ _ defs inh attrs _ =>
      let m := extend defs inh in
      let name := dump_name root in
      let open_ := "<" ++ name ++ flat_map dump_nsdecl m ++ flat_map (dump_attr m) attrs ++ ">" in
      if str_eqb name "REQ-IF" then open_ else open_ ++ "</" ++ name ++ ">"
  | _ => []
  end.

(** ** _parse_reqif_content, parser.py:253-390 *)

(** parser.py:267-270 *)
Definition data_type_body (n : node) (s : list data_type * dict data_type)
  : result (list data_type * dict data_type) :=
  let! d := parse_data_type n in
  Ok (fst s ++ [d], dict_set (snd s) (Some (dt_id d)) d).
(** parser.py:286-309 *)
Definition spec_type_body (n : node) (s : list spec_type * dict spec_type)
  : result (list spec_type * dict spec_type) :=
  let! o := parse_spec_type n in
  match o with
  | None => Ok s
  | Some t => Ok (fst s ++ [t], dict_set (snd s) (Some (st_identifier t)) t)
  end.
(** parser.py:316-320 *)
Definition specification_body (n : node) (s : list specification)
  : result (list specification) :=
  let! x := parse_specification n in Ok (s ++ [x]).
(** defaultdict(list)[k].append(v), parser.py:335-337 *)
Definition parents_append (d : dict (list (option str))) (k v : option str)
  : dict (list (option str)) :=
  dict_set d k (match dict_get d k with Some l => l ++ [v] | None => [v] end).
(** parser.py:329-346.  The handler formats the exception before logging it
    (:345), which stringifies the affected node and can itself raise. *)
Definition relation_state := (list spec_relation * dict (list (option str)) * list exn)%type.
(** one SPEC-RELATION, parser.py:329-346 *)
Definition spec_relation_body (n : node) (s : relation_state) : result relation_state :=
  let '(rels, parents, exns) := s in
  match parse_spec_relation n with
  | Ok r => Ok (rels ++ [r], parents_append parents (sr_source r) (sr_target r), exns)
  | Raise (EMissingTag x t) =>
      let! _ := stringify_node false x in
      Ok (rels, parents, exns ++ [EMissingTag x t])
  | Raise e => Raise e
  end.
(** parser.py:354-361 *)
Definition spec_object_body (n : node) (s : list spec_object * dict spec_object)
  : result (list spec_object * dict spec_object) :=
  if is_comment n then Ok s
  else let! o := parse_spec_object n in
       Ok (fst s ++ [o], dict_set (snd s) (Some (so_identifier o)) o).
(** parser.py:370-374 *)
Definition relation_group_body (n : node) (s : list relation_group)
  : result (list relation_group) :=
  let! g := parse_relation_group n in Ok (s ++ [g]).

(** A container section: absent, or iterated with progress *)
Definition section_ {S} (cb : callback) (t : str) (n : node)
           (body : node -> S -> result S) (s0 : S) : M (bool * S) :=
  match find_child t n with
  | None => ret (false, s0)
  | Some x => do! s := track cb t (children x) body s0 in ret (true, s)
  end.
(** a section that is missing is None, parser.py:253-390 *)
Definition when_ {A} (b : bool) (x : A) : option A := if b then Some x else None.

(** _parse_reqif_content, parser.py:253-390 *)
Definition parse_reqif_content (cb : callback) (n : node)
  : M (content * lookup * list exn) :=
  do! _ := lift (py_assert (tag_is "REQ-IF-CONTENT" n)) in
  do! (has_dt, (dts, dt_lookup)) := section_ cb "DATATYPES" n data_type_body ([], []) in
  do! (has_st, (sts, st_lookup)) := section_ cb "SPEC-TYPES" n spec_type_body ([], []) in
  do! (has_sp, sps) := section_ cb "SPECIFICATIONS" n specification_body [] in
  do! (has_sr, (srs, parents, exns)) :=
     section_ cb "SPEC-RELATIONS" n spec_relation_body ([], [], []) in
  do! (has_so, (sos, so_lookup)) := section_ cb "SPEC-OBJECTS" n spec_object_body ([], []) in
  do! (has_rg, rgs) := section_ cb "SPEC-RELATION-GROUPS" n relation_group_body [] in
  ret (Content (when_ has_dt dts) (when_ has_st sts) (when_ has_so sos) (when_ has_sr srs)
               (when_ has_sp sps) (when_ has_rg rgs),
       Lookup dt_lookup st_lookup so_lookup parents true,
       exns).

(** ** _parse_reqif, parser.py:104-251 *)
Definition namespace_info_of (decl : option str) (root nons : node) : namespace_info :=
  let m := node_nsmap root in
  let schema_namespace := ns_get m (Some "xsi") in
  NamespaceInfo
    (Some (original_reqif_tag_dump root))
    (match decl with Some _ => true | None => false end)
    (match decl_encoding decl with Some e => e | None => "UTF-8" end)
    (ns_get m None)
    (ns_get m (Some "configuration"))
    (ns_get m (Some "id"))
    (ns_get m (Some "xhtml"))
    schema_namespace
    (match schema_namespace with
     | Some (c :: u) => attr_opt ("{" ++ (c :: u) ++ "}schemaLocation") nons
     | _ => None end)
    (attr_opt ("{" ++ xml_uri ++ "}lang") nons).

(** lxml_strip_namespace_from_xml on the copied tree, parser.py:134-138 *)
Definition strip_if_namespaced (root : node) : result node :=
  match ns_get (node_nsmap root) None with
  | Some _ => match strip_ns false root with
              | Some r => Ok (cleanup [] r)
              | None => Raise ETypeError
              end
  | None => Ok root
  end.

(** _parse_reqif, parser.py:104-251 *)
Definition parse_reqif (cb : callback) (decl : option str) (root : node) : M bundle :=
  let m := node_nsmap root in
  do! nons := lift (strip_if_namespaced root) in
  if negb (tag_is "REQ-IF" nons) then lift (Raise EReqIFXMLParsingError)
  else
    let ni := namespace_info_of decl root nons in
    match children nons with
    | [] => ret (bundle_empty (ni_namespace ni) (ni_configuration ni))
    | _ =>
        do! hdr := lift (match find_child "THE-HEADER" nons with
                         | None => Ok None
                         | Some h => let! x := parse_header h in Ok (Some x)
                         end) in
        do! (core, lk, exns) :=
          match find_child "CORE-CONTENT" nons with
          | None => ret (None, lookup_empty, [])
          | Some c =>
              match find_child "REQ-IF-CONTENT" c with
              | None => ret (Some None, lookup_empty, [])
              | Some rc => do! (ct, lk, exns) := parse_reqif_content cb rc in
                           ret (Some (Some ct), lk, exns)
              end
          end in
        ret (Bundle ni hdr core
               (match find_child "TOOL-EXTENSIONS" nons with Some _ => true | None => false end)
               lk exns)
    end.

(** The document as lxml sees it: namespaces resolved; an undeclared prefix, a
    malformed name or a duplicate attribute is a syntax error. *)
Definition lxml_parse (content : str) : option (option str * node) :=
  match etree_parse content with
  | None => None
  | Some d => match resolve [] (d_root d) with
              | Some r => Some (d_decl d, r)
              | None => None
              end
  end.

(** ReqIFParser.parse_from_string, parser.py:81-102 *)
Definition parse_from_string (cb : callback) (content : str) : M bundle :=
  match content with
  | [] => lift (Raise EReqIFXMLParsingError)
  | _ => match lxml_parse content with
         | None => lift (Raise EReqIFXMLParsingError)
         | Some (decl, root) => parse_reqif cb decl root
         end
  end.

(** open(path, "r", encoding="UTF-8").read(): UTF-8 decoding and universal
    newlines (parser.py:77-78) *)
Fixpoint universal_newlines (s : str) : str :=
  match s with
  | [] => []
  | c :: s' =>
      if N.eqb c 13
      then match s' with
           | d :: s'' => if N.eqb d 10 then 10%N :: universal_newlines s''
                         else 10%N :: universal_newlines s'
           | [] => [10%N]
           end
      else c :: universal_newlines s'
  end.
(** ReqIFParser.parse on the contents of the file ([None]: it cannot be
    opened), parser.py:72-79 *)
Definition parse_file (cb : callback) (file : option bytes) : M bundle :=
  match file with
  | None => lift (Raise EOSError)
  | Some b => match utf8_decode b with
              | None => lift (Raise EUnicodeError)
              | Some s => parse_from_string cb (universal_newlines s)
              end
  end.

(** parse_from_string without a callback, as a plain function. *)
Definition parse_string (content : str) : result bundle :=
  snd (parse_from_string None content []).
