(** SpecDocument.v -- whole documents: the opening tag, the namespaces that stay
    visible, and which bundles can be written without damage. *)
From Verif Require SpecUri.
From Verif Require Import Base Xml Lxml Py LxmlStr Models SpecEscape SpecPrint SpecXhtml.

(** ** The REQ-IF opening tag *)
Record root_tag := RootTag {
  rt_decls : list (option str * str);           (* prefix ([None]: default), URI *)
  rt_attrs : list (option str * str * str) }.   (* prefix, name, value *)
Definition with_prefix (q : option str) (n : str) : str :=
  match q with Some p => p ++ ":" ++ n | None => n end.
Definition decl_text (d : option str * str) : str :=
  " xmlns" ++ (match fst d with Some p => ":" ++ p | None => [] end) ++ "=""" ++ snd d ++ """".
(** Attribute values are written in ASCII: markup, quotes, tabs and line ends as
    references, everything beyond ASCII as a hexadecimal reference. *)
Definition ascii_table : list (N * str) :=
  [(38, "&amp;"); (60, "&lt;"); (62, "&gt;"); (34, "&quot;"); (10, "&#10;"); (9, "&#9;"); (13, "&#13;")]%N.
Fixpoint hexadecimal (digits : nat) (n : N) : str :=
  match digits with
  | O => []
  | S k => (if N.ltb n 16 then [] else hexadecimal k (n / 16)) ++ [nth (N.to_nat (n mod 16)) "0123456789ABCDEF" 48%N]
  end.
Definition in_ascii (s : str) : str :=
  flat_map (fun c => if N.ltb c 128 then substitute ascii_table [c] else "&#x" ++ hexadecimal 6 c ++ ";") s.
Definition attr_text (a : option str * str * str) : str :=
  " " ++ with_prefix (fst (fst a)) (snd (fst a)) ++ "=""" ++ in_ascii (snd a) ++ """".
Definition root_text (r : root_tag) : str :=
  "<REQ-IF" ++ flat_map decl_text (rt_decls r) ++ flat_map attr_text (rt_attrs r) ++ ">".

(** ASCII texts that need no escaping in an attribute *)
Definition root_value (s : str) : Prop :=
  Forall (fun c => is_xml_char c = true /\ (c < 128)%N /\ ~ In c [9; 10; 13; 34; 38; 60; 62]%N) s.
Definition ascii_name (s : str) : Prop := plain_name s = true /\ Forall (fun c => (c < 128)%N) s.
Definition declared_prefixes (r : root_tag) : list (option str) := map fst (rt_decls r).
(** URI references (RFC 3986), the XML namespace of declarations aside *)
Definition root_uri (s : str) : Prop :=
  root_value s /\ SpecUri.uri_ref s /\ s <> "http://www.w3.org/2000/xmlns/".
Definition decl_ok (d : option str * str) : Prop :=
  snd d <> [] /\ snd d <> "http://www.w3.org/XML/1998/namespace" /\ root_uri (snd d)
  /\ match fst d with
     | Some q => ascii_name q /\ q <> "xml" /\ q <> "xmlns"
     | None => contains "http://www.w3.org/1999/xhtml" (snd d) = false
     end.
Definition attr_ok (r : root_tag) (a : option str * str * str) : Prop :=
  ascii_name (snd (fst a)) /\ xml_text_without [] (snd a)
  /\ match fst (fst a) with
     | Some q => q = "xml" \/ In (Some q) (declared_prefixes r)
     | None => snd (fst a) <> "xmlns"
     end.
(** distinct prefixes, distinct URIs for them, distinct attributes *)
Definition is_default (d : option str * str) : bool := match fst d with None => true | _ => false end.
Definition root_ok (r : root_tag) : Prop :=
  NoDup (declared_prefixes r)
  /\ NoDup (map snd (filter (fun d => negb (is_default d)) (rt_decls r))) /\ Forall decl_ok (rt_decls r)
  /\ NoDup (map fst (rt_attrs r)) /\ Forall (attr_ok r) (rt_attrs r).

Definition uri_of (r : root_tag) (q : option str) : option str := dict_get (rt_decls r) q.
Fixpoint value_of (l : list (option str * str * str)) (q n : str) : option str :=
  match l with
  | [] => None
  | (Some q', n', v) :: l' =>
      if str_eqb q' q && str_eqb n' n then Some v else value_of l' q n
  | _ :: l' => value_of l' q n
  end.
(** [root] is a REQ-IF element with exactly the declarations and attributes of
    [r], in their order, whatever its text looked like. *)
Definition attr_uri (r : root_tag) (q : str) : str :=
  if str_eqb q "xml" then "http://www.w3.org/XML/1998/namespace" else match uri_of r (Some q) with Some u => u | None => [] end.
Definition opens_with (r : root_tag) (root : node) : Prop :=
  exists attrs kids,
    root = El (match uri_of r None with Some d => Some (None, d) | None => None end) "REQ-IF" (rt_decls r) [] attrs kids
    /\ Forall2 (fun a x => a_local x = snd (fst a) /\ a_val x = snd a
                 /\ a_ns x = match fst (fst a) with Some q => Some (Some q, attr_uri r q) | None => None end)
               (rt_attrs r) attrs.
(** What the parser reports about the tag *)
Definition info_of (r : root_tag) : namespace_info :=
  NamespaceInfo (Some (root_text r)) true "UTF-8" (uri_of r None) (uri_of r (Some "configuration"))
    (uri_of r (Some "id")) (uri_of r (Some "xhtml")) (uri_of r (Some "xsi"))
    (match uri_of r (Some "xsi") with
     | Some _ => value_of (rt_attrs r) "xsi" "schemaLocation" | None => None end)
    (value_of (rt_attrs r) "xml" "lang").

(** The tag that is written: the stored text, or one component per field, whose
    value is written as it is. *)
Definition given {A} (f : str -> A) (o : option str) : list A :=
  match o with Some s => [f s] | None => [] end.
Definition root_of_fields (i : namespace_info) : root_tag :=
  RootTag (given (fun s => (None, s)) (ni_namespace i)
           ++ given (fun s => (Some "xsi", s)) (ni_schema_namespace i)
           ++ given (fun s => (Some "configuration", s)) (ni_configuration i)
           ++ given (fun s => (Some "id", s)) (ni_namespace_id i)
           ++ given (fun s => (Some "xhtml", s)) (ni_namespace_xhtml i))
          (given (fun s => (Some "xsi", "schemaLocation", s)) (ni_schema_location i)
           ++ given (fun s => (Some "xml", "lang", s)) (ni_language i)).
Definition writes_root (i : namespace_info) (r : root_tag) : Prop :=
  match ni_dump i with
  | Some d => d = root_text r
  | None => r = root_of_fields i /\ (rt_decls r <> [] \/ rt_attrs r <> [])
            /\ Forall (fun a => root_value (snd a)) (rt_attrs r)
  end.
Definition unescaped_text (r : root_tag) : str :=
  "<REQ-IF" ++ flat_map decl_text (rt_decls r)
  ++ flat_map (fun a => " " ++ with_prefix (fst (fst a)) (snd (fst a)) ++ "=""" ++ snd a ++ """") (rt_attrs r) ++ ">".

(** ** The namespaces visible inside the document
    With a default namespace the parser drops every declaration that no
    attribute of the root and no XHTML element uses. *)
Definition attr_uses (r : root_tag) (q : option str) : bool :=
  existsb (fun a => match fst (fst a) with Some q' => ostr_eqb q (Some q') | None => false end)
          (rt_attrs r).
Definition visible (r : root_tag) (p : str) (markup : bool) : list (option str * str) :=
  if existsb is_default (rt_decls r)
  then filter (fun d => attr_uses r (fst d) || (markup && ostr_eqb (fst d) (Some p))) (rt_decls r)
  else rt_decls r.

(** ** XHTML values
    [M] are the visible namespaces, [p] the prefix of XHTML elements and [u]
    their namespace. *)
Definition xhtml_value (M : list (option str * str)) (p u : str) (v : str) : Prop :=
  exists f, forest_ok f /\ v = show p f
    (* the XHTML prefix must come first, or the parser prints another one *)
    /\ (has_markup f = true -> hd_error M = Some (Some p, u))
    (* without namespaces the parser does not escape text *)
    /\ (M = [] -> substitute lxml_table (leading f) = leading f).
Definition xhtml_default (M : list (option str * str)) (p u : str) (v : str) : Prop :=
  xhtml_value M p u v /\ M <> [].

(** All XHTML values and default values of a bundle *)
Definition value_xhtml (a : spec_attr) : list str :=
  match sa_type a, sa_value a with AT_XHTML, VStr v => [v] | _, _ => [] end.
Definition default_xhtml (a : attr_def) : list str :=
  match ad_type a, ad_default_value a with AT_XHTML, DVStr v => [v] | _, _ => [] end.
Definition items {A} (o : option (list A)) : list A := match o with Some l => l | None => [] end.
Definition type_definitions (t : spec_type) : list attr_def :=
  items (match t with
         | STObject t => sot_attribute_definitions t | STRelation t => srt_attribute_definitions t
         | STSpecification t => spt_spec_attributes t | STGroup t => rgt_attribute_definitions t
         end).
Definition content_xhtml (c : content) : list str :=
  flat_map default_xhtml (flat_map type_definitions (items (rc_spec_types c)))
  ++ flat_map value_xhtml (flat_map so_attributes (items (rc_spec_objects c)))
  ++ flat_map value_xhtml (flat_map (fun r => match sr_values_attribute r with Some a => [a] | None => [] end)
                                    (items (rc_spec_relations c)))
  ++ flat_map value_xhtml (flat_map (fun s => items (sp_values s)) (items (rc_specifications c))).
Definition bundle_xhtml (b : bundle) : list str :=
  match b_core_content b with Some (Some c) => content_xhtml c | _ => [] end.
(** does any of them contain a "<"? *)
Definition uses_markup (b : bundle) : bool := existsb (existsb (N.eqb 60)) (bundle_xhtml b).

(** ** Bundles *)
Definition printable_content (V D : str -> Prop) (c : content) : Prop :=
  each printable_data_type (rc_data_types c)
  /\ each (printable_spec_type D) (rc_spec_types c)
  /\ each (printable_spec_object V) (rc_spec_objects c)
  /\ each (printable_spec_relation V) (rc_spec_relations c)
  /\ each (printable_specification V) (rc_specifications c)
  /\ each printable_relation_group (rc_spec_relation_groups c).
(** [r] is the opening tag; [p] and [u] are prefix and URI of the XHTML
    elements in the values. *)
Definition printable_bundle (r : root_tag) (p u : str) (b : bundle) : Prop :=
  let M := visible r p (uses_markup b) in
  root_ok r /\ writes_root (b_namespace_info b) r
  /\ plain_name p = true /\ p <> "xml" /\ contains "http://www.w3.org/1999/xhtml" u = true
  /\ (uses_markup b = true -> In (Some p, u) (rt_decls r))
  /\ (forall h, b_header b = Some h -> printable_header h)
  /\ (forall c, b_core_content b = Some (Some c) ->
        printable_content (xhtml_value M p u) (xhtml_default M p u) c)
  (* an empty document loses its opening tag *)
  /\ (b_header b <> None \/ b_core_content b <> None \/ b_tool_extensions b = true).

Definition map_content (dt : data_type -> data_type) (st : spec_type -> spec_type)
  (so : spec_object -> spec_object) (sr : spec_relation -> spec_relation)
  (sp : specification -> specification) (rg : relation_group -> relation_group) (c : content) : content :=
  Content (map_list dt (rc_data_types c)) (map_list st (rc_spec_types c))
          (map_list so (rc_spec_objects c)) (map_list sr (rc_spec_relations c))
          (map_list sp (rc_specifications c)) (map_list rg (rc_spec_relation_groups c)).
Definition normal_content (strip : str -> str) : content -> content :=
  map_content normal_data_type normal_spec_type (normal_spec_object strip)
    (normal_spec_relation strip) (normal_specification strip) normal_relation_group.
Definition erase_content : content -> content :=
  map_content (fun x => x) erase_spec_type erase_spec_object erase_spec_relation
    erase_specification (fun x => x).
(** The bundle read back agrees with the written one: the opening tag, the
    header, all objects and the tool extensions flag, and nothing was logged. *)
Definition reads_back_as (strip : str -> str) (r : root_tag) (b b' : bundle) : Prop :=
  b_namespace_info b' = info_of r
  /\ b_header b' = option_map normal_header (b_header b)
  /\ option_map (option_map erase_content) (b_core_content b')
     = option_map (option_map (normal_content strip)) (b_core_content b)
  /\ b_tool_extensions b' = b_tool_extensions b
  /\ b_exceptions b' = [].
(** [strip] gives for the text of an XHTML value the stripped form that the
    parser stores with it. *)
Definition strips (p : str) (strip : str -> str) : Prop :=
  forall f, forest_ok f -> strip (show p f) = reqif_unindent_xhtml_string (bare_doubled f).
