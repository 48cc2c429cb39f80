(** Lxml.v -- the lxml view of a parsed document: namespaces, [nsmap], [tag],
    [attrib], [text], [find], and reqif's own helpers in helpers/lxml.py. *)
From Verif Require Import Base Xml.

(** A namespace declaration / reference: prefix ([None] = default) and URI. *)
Definition nsref := (option str * str)%type.
(** [element.nsmap], in order *)
Definition nsmap := list nsref.

(** An attribute: namespace, local name, value. *)
Record attr := Attr { a_ns : option nsref; a_local : str; a_val : str }.

(** [El ns local defs inh attrs kids]: [defs] are the declarations on the
    element itself (libxml2's nsDef), [inh] the [nsmap] of its parent. *)
Inductive node : Type :=
| Chr (c : N)
| El (ns : option nsref) (local : str) (defs : nsmap) (inh : nsmap)
     (attrs : list attr) (kids : list node)
| Cmt (s : str)
| Pin (s : str).

(** ** Namespace resolution (libxml2/lxml; trusted) *)

(** [nsmap.get(prefix)] *)
Definition ns_get (m : nsmap) (p : option str) : option str := dict_get m p.

(** lxml [_build_nsmap]: own declarations first, then the parent's that are not
    shadowed. *)
Definition extend (defs inh : nsmap) : nsmap :=
  defs ++ filter (fun d => negb (ostr_mem (fst d) (map fst defs))) inh.

(** the namespace of the prefix xml *)
Definition xml_uri : str := "http://www.w3.org/XML/1998/namespace".

(** Split a qualified name at ':'; [None] if it is not a valid QName: at most one
    colon, with a name on both sides of it. *)
Fixpoint split_colon (s : str) : str * option str :=
  match s with
  | [] => ([], None)
  | c :: s' => if N.eqb c 58 then ([], Some s')
               else let (a, b) := split_colon s' in (c :: a, b)
  end.
(** a qualified name (Namespaces in XML 1.0, [7]) *)
Definition qname (s : str) : option (option str * str) :=
  match split_colon s with
  | (a, None) => match a with [] => None | _ => Some (None, a) end
  | (a, Some b) =>
      match a, b with
      | _ :: _, c :: _ => if existsb (N.eqb 58) b || negb (is_name_start c) then None else Some (Some a, b)
      | _, _ => None
      end
  end.

(** A namespace declaration attribute. *)
Definition decl_of (k : str) : option (option str) :=
  if str_eqb k "xmlns" then Some None
  else match split_colon k with
       | (p, Some l) => if str_eqb p "xmlns" then Some (Some l) else None
       | _ => None
       end.

(** the declarations among the attributes of an element *)
Definition decls (attrs : list (str * str)) : nsmap :=
  flat_map (fun kv => match decl_of (fst kv) with
                      | Some p => [(p, snd kv)] | None => [] end) attrs.

(** ** Namespace names: libxml2's xmlParseURI (uri.c), that is URI references as in
    RFC 3986.  Simplified: a host that begins like an IPv4 address is read like
    any other host name. *)
Definition is_alpha (c : N) : bool := (N.leb 65 c && N.leb c 90) || (N.leb 97 c && N.leb c 122).
(** RFC 3986, DIGIT *)
Definition is_digit_ (c : N) : bool := N.leb 48 c && N.leb c 57.
(** HEXDIG *)
Definition is_hex_ (c : N) : bool := is_digit_ c || (N.leb 65 c && N.leb c 70) || (N.leb 97 c && N.leb c 102).
(** unreserved and sub-delims *)
Definition uri_host (c : N) : bool := is_alpha c || is_digit_ c || existsb (N.eqb c) "-._~!$&'()*+,;=".
(** pchar, but for "%" *)
Definition uri_pchar (c : N) : bool := uri_host c || existsb (N.eqb c) ":@".
(** the longest beginning of allowed characters and "%" with two digits is dropped *)
Fixpoint uri_skip (ok : N -> bool) (s : str) : str :=
  match s with
  | [] => []
  | c :: s' =>
      if N.eqb c 37 then
        match s' with
        | a :: b :: r => if is_hex_ a && is_hex_ b then uri_skip ok r else s
        | _ => s
        end
      else if ok c then uri_skip ok s' else s
  end.
(** a path: pchar and "/" *)
Definition uri_path (s : str) : str := uri_skip (fun c => uri_pchar c || N.eqb c 47) s.
(** the rest: query and fragment *)
Definition uri_end (s : str) : bool :=
  let s := match s with 63%N :: r => uri_skip (fun c => uri_pchar c || existsb (N.eqb c) "/?") r | _ => s end in
  let s := match s with 35%N :: r => uri_skip (fun c => uri_pchar c || existsb (N.eqb c) "/?[]") r | _ => s end in
  match s with [] => true | _ => false end.
(** ":" port *)
Definition uri_port (s : str) : option str :=
  match s with
  | 58%N :: c :: r => if is_digit_ c then Some ((fix go (s : str) := match s with d :: s' => if is_digit_ d then go s' else s | [] => [] end) r) else None
  | 58%N :: [] => None
  | _ => Some s
  end.
(** userinfo "@" host ":" port *)
Definition uri_authority (s : str) : option str :=
  let s := match uri_skip (fun c => uri_host c || N.eqb c 58) s with 64%N :: r => r | _ => s end in
  match s with
  | 91%N :: r => match (fix go (s : str) : option str := match s with [] => None | c :: s' => if N.eqb c 93 then Some s' else go s' end) r with
                 | Some r => uri_port r
                 | None => None
                 end
  | _ => uri_port (uri_skip uri_host s)
  end.
(** what follows the scheme; [noscheme]: nothing precedes *)
Definition uri_hier (noscheme : bool) (s : str) : bool :=
  match s with
  | 47%N :: 47%N :: r =>
      match uri_authority r with
      | Some t => uri_end (match t with 47%N :: _ => uri_path t | _ => t end)
      | None => false
      end
  | _ =>
      if noscheme
      then let t := uri_skip (fun c => uri_pchar c && negb (N.eqb c 58)) s in
           uri_end (match t with 47%N :: _ => uri_path t | _ => t end)
      else uri_end (uri_path s)
  end.
(** scheme ":" *)
Fixpoint uri_scheme (s : str) : option str :=
  match s with
  | [] => None
  | c :: s' => if N.eqb c 58 then Some s'
               else if is_alpha c || is_digit_ c || existsb (N.eqb c) "+-." then uri_scheme s' else None
  end.
(** a URI, or else a relative reference *)
Definition uri_reference (s : str) : bool :=
  match s with
  | c :: _ => (is_alpha c && match uri_scheme s with Some r => uri_hier false r | None => false end)
  | [] => false
  end || uri_hier true s.

(** The rules for namespace declarations (libxml2, parser.c, xmlParseStartTag2).
    Simplified: a declaration of the prefix xml is kept like any other. *)
Definition xmlns_uri : str := "http://www.w3.org/2000/xmlns/".
(** the prefix of a declaration is a name without colon *)
Definition ncname (s : str) : bool :=
  match s with c :: _ => is_name_start c && negb (existsb (N.eqb 58) s) | [] => false end.
(** is the attribute, if it is a declaration, one that libxml2 takes? *)
Definition decl_allowed (kv : str * str) : bool :=
  match decl_of (fst kv) with
  | None => true
  | Some None =>
      match snd kv with
      | [] => true
      | u => uri_reference u && negb (str_eqb u xml_uri) && negb (str_eqb u xmlns_uri)
      end
  | Some (Some p) =>
      if str_eqb p "xml" then str_eqb (snd kv) xml_uri
      else match snd kv with
           | [] => false
           | u => ncname p && negb (str_eqb p "xmlns") && uri_reference u && negb (str_eqb u xml_uri) && negb (str_eqb u xmlns_uri)
           end
  end.

(** no name occurs twice *)
Fixpoint nodupb (l : list str) : bool :=
  match l with [] => true | x :: l' => negb (str_mem x l') && nodupb l' end.

(** Reference for an element name: unprefixed names use the default namespace. *)
Definition elem_ns (env : nsmap) (p : option str) : option (option nsref) :=
  match p with
  | None => match ns_get env None with
            | Some u => match u with [] => Some None | _ => Some (Some (None, u)) end
            | None => Some None end
  | Some x =>
      if str_eqb x "xml" then Some (Some (Some x, xml_uri))
      else match ns_get env (Some x) with
           | Some u => Some (Some (Some x, u))
           | None => None end
  end.
(** Unprefixed attributes are in no namespace. *)
Definition attr_ns (env : nsmap) (p : option str) : option (option nsref) :=
  match p with None => Some None | Some _ => elem_ns env p end.

(** Clark notation "{uri}local". *)
Definition clark (ns : option nsref) (local : str) : str :=
  match ns with
  | None => local
  | Some (_, u) => "{" ++ u ++ "}" ++ local
  end.
(** the key of an attribute in [attrib] *)
Definition a_key (a : attr) : str := clark (a_ns a) (a_local a).

(** An attribute with its namespace; declarations are no attributes. *)
Definition resolve_attr (env : nsmap) (kv : str * str) : option (list attr) :=
  match decl_of (fst kv) with
  | Some _ => Some []
  | None =>
      match qname (fst kv) with
      | None => None
      | Some (p, l) =>
          match attr_ns env p with
          | Some n => Some [Attr n l (snd kv)]
          | None => None
          end
      end
  end.

(** Namespaces of a tree; [None]: lxml reports an error (an undeclared prefix, a repeated attribute, a bad declaration). *)
Fixpoint resolve (env : nsmap) (x : xnode) : option node :=
  match x with
  | XChar c => Some (Chr c)
  | XComment s => Some (Cmt s)
  | XPI s => Some (Pin s)
  | XElem name attrs kids =>
      let defs := decls attrs in
      let env' := extend defs env in
      if negb (nodupb (map fst attrs)) then None
      else if negb (forallb decl_allowed attrs) then None
      else
        match qname name with
        | None => None
        | Some (p, l) =>
            match elem_ns env' p with
            | None => None
            | Some ns =>
                match map_opt (resolve_attr env') attrs with
                | None => None
                | Some aa =>
                    let a := concat aa in
                    if negb (nodupb (map a_key a)) then None
                    else
                      match map_opt (resolve env') kids with
                      | Some ks => Some (El ns l defs env a ks)
                      | None => None
                      end
                end
            end
        end
  end.

(** ** Element accessors *)
(** [node.tag]: a string for elements; for comments and processing
    instructions a function object, represented by [None]. *)
Definition tag (n : node) : option str :=
  match n with El ns l _ _ _ _ => Some (clark ns l) | _ => None end.
(** [node.tag == t] *)
Definition tag_is (t : str) (n : node) : bool :=
  match tag n with Some x => str_eqb x t | None => false end.

(** [isinstance(node, etree._Comment)] (lxml.py:262-263) *)
Definition is_comment (n : node) : bool := match n with Cmt _ => true | _ => false end.
(** character data, no node for lxml *)
Definition is_chr (n : node) : bool := match n with Chr _ => true | _ => false end.

(** everything between the tags *)
Definition kids_of (n : node) : list node :=
  match n with El _ _ _ _ _ k => k | _ => [] end.
(** [list(node)], [node.getchildren()], iteration: elements, comments and
    processing instructions, not text. *)
Definition children (n : node) : list node :=
  filter (fun k => negb (is_chr k)) (kids_of n).
(** [list(map(lambda el: el.tag, list(node)))] *)
Definition child_tags (n : node) : list (option str) := map tag (children n).

(** [node.attrib] as a list of Clark-named entries.  Simplified: a processing
    instruction has no attributes. *)
Definition attrib (n : node) : list (str * str) :=
  match n with El _ _ _ _ a _ => map (fun x => (a_key x, a_val x)) a | _ => [] end.
(** the value of a key *)
Fixpoint assoc (k : str) (l : list (str * str)) : option str :=
  match l with
  | [] => None
  | (k', v) :: l' => if str_eqb k k' then Some v else assoc k l'
  end.
(** [node.attrib[k] if k in node.attrib else None] *)
Definition attr_opt (k : str) (n : node) : option str := assoc k (attrib n).

(** The leading character data of a list of nodes. *)
Fixpoint lead (l : list node) : str :=
  match l with Chr c :: l' => c :: lead l' | _ => [] end.
(** what follows the leading character data *)
Fixpoint after_lead (l : list node) : list node :=
  match l with Chr _ :: l' => after_lead l' | _ => l end.
(** the empty text is [None] in lxml *)
Definition opt_text (s : str) : option str := match s with [] => None | _ => Some s end.
(** [node.text]: [None] when there is no leading character data; for comments
    and processing instructions their content. *)
Definition text (n : node) : option str :=
  match n with
  | El _ _ _ _ _ k => opt_text (lead k)
  | Cmt s | Pin s => Some s
  | Chr _ => None
  end.

(** [node.find(t)]: the first child element with that tag. *)
Definition find_list (t : str) (l : list node) : option node := find (tag_is t) l.
(** [node.find(t)] *)
Definition find_child (t : str) (n : node) : option node := find_list t (kids_of n).

(** [node.nsmap] *)
Definition node_nsmap (n : node) : nsmap :=
  match n with El _ _ d i _ _ => extend d i | _ => [] end.

(** ** helpers/lxml.py *)

(** lxml_escape_for_html, lxml.py:16-32 *)
Definition lxml_escape_for_html (s : str) : str :=
  let s := replace_char 38 "&amp;" s in
  let s := replace_char 60 "&lt;" s in
  let s := replace_char 62 "&gt;" s in
  let s := replace_char 34 "&quot;" s in
  let s := replace_char 39 "&#x27;" s in
  let s := replace_char 160 "&#xA0;" s in
  let s := replace_char 9 "&#9;" s in
  s.

(** lxml_escape_title, lxml.py:35-39; reqif_escape_title, escape.py:20-24 *)
Definition lxml_escape_title (s : str) : str := replace_char 38 "&amp;" s.

(** reqif_escape, helpers/string/escape.py:3-17 *)
Definition reqif_escape (s : str) : str :=
  let s := replace_char 38 "&amp;" s in
  let s := replace_char 60 "&lt;" s in
  let s := replace_char 62 "&gt;" s in
  let s := replace_char 34 "&quot;" s in
  let s := replace_char 39 "&#x27;" s in
  let s := replace_char 9 "&#9;" s in
  s.

(** Python's html.escape(s, quote=True), used in attribute_value_parser.py:212,
    spec_relation_parser.py:109, spec_relation_type_parser.py:49,
    relation_group_type_parser.py:52. *)
Definition html_escape (s : str) : str :=
  let s := replace_char 38 "&amp;" s in
  let s := replace_char 60 "&lt;" s in
  let s := replace_char 62 "&gt;" s in
  let s := replace_char 34 "&quot;" s in
  let s := replace_char 39 "&#x27;" s in
  s.

(** lxml_is_self_closed_tag, lxml.py:238-244 *)
Definition is_self_closed_tag (n : node) : bool :=
  match children n with
  | _ :: _ => false
  | [] => match text n with Some _ => false | None => true end
  end.

(** Lower-casing as in [tag.casefold() == "object"] (lxml.py:102, 177).
    Simplified to ASCII: no other character casefolds into "object". *)
Definition casefold (s : str) : str :=
  map (fun c => if N.leb 65 c && N.leb c 90 then (c + 32)%N else c) s.

(** cleanup_namespaces: declarations not used by any element or attribute of
    the subtree are removed. *)
Definition own_refs (ns : option nsref) (attrs : list attr) : list (option str) :=
  (match ns with Some (p, _) => [p] | None => [] end)
  ++ flat_map (fun a => match a_ns a with Some (p, _) => [p] | None => [] end) attrs.
(** Prefixes used in the subtree and declared outside of it, document order. *)
Fixpoint uses (n : node) : list (option str) :=
  match n with
  | El ns _ defs _ attrs kids =>
      filter (fun p => negb (ostr_mem p (map fst defs)))
             (own_refs ns attrs ++ flat_map uses kids)
  | _ => []
  end.
(** [etree.cleanup_namespaces(node)] (lxml.py:258) *)
Fixpoint cleanup (inh : nsmap) (n : node) : node :=
  match n with
  | El ns l defs _ attrs kids =>
      let used := own_refs ns attrs ++ flat_map uses kids in
      let defs' := filter (fun d => ostr_mem (fst d) used) defs in
      El ns l defs' inh attrs (map (cleanup (extend defs' inh)) kids)
  | _ => n
  end.

(** the namespace of XHTML (lxml.py:253) *)
Definition xhtml_uri : str := "http://www.w3.org/1999/xhtml".

(** lxml_strip_namespace_from_xml, lxml.py:247-259, the loop part: [None] when
    a processing instruction is met (its tag is not a string: TypeError from
    the "in" test, ValueError from QName when full). *)
Fixpoint strip_ns (full : bool) (n : node) : option node :=
  match n with
  | El ns l defs inh attrs kids =>
      let ns' := if negb full && contains xhtml_uri (clark ns l) then ns else None in
      match map_opt (strip_ns full) kids with
      | Some ks => Some (El ns' l defs inh attrs ks)
      | None => None
      end
  | Pin _ => None
  | _ => Some n
  end.

(** [deepcopy(node)] of a subtree (libxml2 xmlDocCopyNode): the copy is a root;
    declarations it needs from outside are added at its top. *)
Fixpoint dedup (l : list (option str)) (seen : list (option str)) : list (option str) :=
  match l with
  | [] => []
  | x :: l' => if ostr_mem x seen then dedup l' seen else x :: dedup l' (x :: seen)
  end.
(** [deepcopy(node)] *)
Definition deepcopy (n : node) : node :=
  match n with
  | El ns l defs inh attrs kids =>
      let extra := flat_map (fun p => match ns_get inh p with
                                      | Some u => [(p, u)] | None => [] end)
                            (dedup (uses n) []) in
      El ns l (defs ++ extra) [] attrs kids
  | _ => n
  end.
