(** SpecConventional.v -- documents whose texts survive being read and written,
    said in terms of the XML tree only *)
From Verif Require Import Base Xml Lxml Py Models Parser SpecAccept SpecEscape SpecPrint SpecXhtml SpecDocument SpecParse.

(** [placed root t x]: [x] is an element (or comment) somewhere below [root], and
    [t] is the tag of its parent.  The content of XHTML values and of the tool
    extensions does not count. *)
Definition xhtml_place (t : str) (x : node) : Prop :=
  t = "ATTRIBUTE-VALUE-XHTML" /\ tag x = Some "THE-VALUE".
Definition tool_place (t : str) (x : node) : Prop := t = "REQ-IF" /\ tag x = Some "TOOL-EXTENSIONS".
Inductive placed (root : node) : str -> node -> Prop :=
| placed_top x : In x (children root) -> placed root "REQ-IF" x
| placed_below t x t' k :
    placed root t x -> ~ xhtml_place t x -> ~ tool_place t x ->
    tag x = Some t' -> In k (children x) -> placed root t' k.

(** ** Attributes
    Most attributes are written as they are.  These are escaped: the attribute [k]
    of an element with tag [own] below one with tag [parent]. *)
Definition escaped_lxml (parent own k : str) : Prop :=
  (parent = "DATATYPES" /\ k = "DESC")
  \/ (parent = "DATATYPES" /\ k = "LONG-NAME"
      /\ In own ["DATATYPE-DEFINITION-STRING"; "DATATYPE-DEFINITION-BOOLEAN";
                 "DATATYPE-DEFINITION-XHTML"; "DATATYPE-DEFINITION-ENUMERATION"])
  \/ (parent = "SPECIFIED-VALUES" /\ k = "LONG-NAME")
  \/ (parent = "SPEC-TYPES" /\ own = "SPEC-OBJECT-TYPE" /\ In k ["DESC"; "LONG-NAME"])
  \/ (parent = "SPEC-ATTRIBUTES" /\ In k ["DESC"; "LONG-NAME"])
  \/ (parent = "SPECIFICATIONS" /\ In k ["DESC"; "LONG-NAME"]).
Definition escaped_html (parent own k : str) : Prop :=
  (parent = "SPEC-TYPES" /\ In own ["SPEC-RELATION-TYPE"; "RELATION-GROUP-TYPE"] /\ k = "DESC")
  \/ (parent = "SPEC-RELATIONS" /\ k = "LONG-NAME")
  \/ (parent = "VALUES" /\ own = "ATTRIBUTE-VALUE-STRING" /\ k = "THE-VALUE").
Definition attribute_fits (parent own k v : str) : Prop :=
  attr_raw v
  \/ (escaped_lxml parent own k /\ attr_escaped v)
  \/ (escaped_html parent own k /\ attr_html v).

(** ** Texts
    The text of an element is written as it is, but for the title.  The text of a
    comment matters only where comments are taken for references. *)
Definition text_counts (t : str) (x : node) : Prop :=
  ~ xhtml_place t x
  /\ (is_comment x = true -> In t ["VALUES"; "SPEC-RELATIONS"; "DEFINITION"]).
Definition text_fits (t : str) (x : node) (v : str) : Prop :=
  v <> [] /\ (text_raw v \/ (t = "REQ-IF-HEADER" /\ tag x = Some "TITLE" /\ text_title v)).

(** ** XHTML
    The content of a THE-VALUE element: characters, and elements of the namespace
    [u], which is not the default one, without declarations; their attributes are
    in no namespace. *)
Inductive markup (u : str) : node -> xh -> Prop :=
| markup_char c : markup u (Chr c) (XT c)
| markup_element q l i attrs kids f :
    ~ In (None, u) i -> Forall2 (markup u) kids f ->
    markup u (El (Some (q, u)) l [] i (map (fun kv => Attr None (fst kv) (snd kv)) attrs) kids)
           (XE l attrs f).
(** Some object of the document has an XHTML value with an element in it. *)
Definition marked (root : node) : Prop :=
  exists rc ks o vs v tv k,
    path_node ["CORE-CONTENT"; "REQ-IF-CONTENT"] root = Some rc
    /\ section_items "SPEC-OBJECTS" rc = Some ks /\ In o ks
    /\ section_items "VALUES" o = Some vs /\ In v vs
    /\ tag v = Some "ATTRIBUTE-VALUE-XHTML" /\ find_child "THE-VALUE" v = Some tv
    /\ In k (children tv).
(** A namespace stays visible when the document is written and read. *)
Definition stays_visible (r : root_tag) (p : str) (root : node) : Prop :=
  visible r p false <> [] \/ (marked root /\ visible r p true <> []).
Definition value_fits (r : root_tag) (p u : str) (root tv : node) : Prop :=
  exists f, forest_ok f /\ Forall2 (markup u) (kids_of tv) f
    (* with elements: their namespace comes first, now and later *)
    /\ (has_markup f = true ->
          hd_error (node_nsmap tv) = Some (Some p, u) /\ hd_error (visible r p true) = Some (Some p, u))
    (* without: namespaces are visible, now and later, or nothing needs escaping *)
    /\ (has_markup f = false ->
          (node_nsmap tv <> [] /\ stays_visible r p root)
          \/ substitute lxml_table (leading f) = leading f).

Record conventional (r : root_tag) (p u : str) (root : node) : Prop := {
  cv_attributes : forall t x own k v,
    placed root t x -> tag x = Some own -> attr_opt k x = Some v -> attribute_fits t own k v;
  cv_texts : forall t x v,
    placed root t x -> text_counts t x -> text x = Some v -> text_fits t x v;
  cv_values : forall t x, placed root t x -> xhtml_place t x -> value_fits r p u root x;
  (* an XHTML default value can only be read where a namespace is visible *)
  cv_defaults : forall t x tv,
    placed root t x -> tag x = Some "DEFAULT-VALUE" ->
    path_node ["ATTRIBUTE-VALUE-XHTML"; "THE-VALUE"] x = Some tv ->
    children tv <> [] \/ stays_visible r p root;
  (* these values begin with their DEFINITION *)
  cv_definitions : forall t x d more,
    placed root t x -> In (tag x) [Some "ATTRIBUTE-VALUE-STRING"; Some "ATTRIBUTE-VALUE-INTEGER"] ->
    children x = d :: more -> tag d = Some "DEFINITION" }.

(** ** Documents that can be written
    the same as [writable_bundle] of SpecSettle, in terms of the XML tree *)
(** a definition has no other children than these two, and a default value of
    these types says which definition it belongs to *)
Definition definition_writes (n : node) : Prop :=
  Forall (fun k => tag k = Some "DEFAULT-VALUE" \/ tag k = Some "TYPE") (children n)
  /\ (forall t v, In t ["BOOLEAN"; "ENUMERATION"; "XHTML"] -> tag n = Some ("ATTRIBUTE-DEFINITION-" ++ t) ->
        path_node ["DEFAULT-VALUE"; "ATTRIBUTE-VALUE-" ++ t] n = Some v ->
        (t = "ENUMERATION" -> path_text ["VALUES"; "ENUM-VALUE-REF"] v <> None) ->
        path_text ["DEFINITION"; "ATTRIBUTE-DEFINITION-" ++ t ++ "-REF"] v <> None).
Definition object_writes (n : node) : Prop := find_child "VALUES" n <> None.
Definition relation_writes (n : node) : Prop :=
  Forall (fun k => In (tag k) (map Some ["TYPE"; "SOURCE"; "TARGET"; "VALUES"])) (children n).
Record writes (root : node) : Prop := {
  wr_header : forall h, path_node ["THE-HEADER"; "REQ-IF-HEADER"] root = Some h ->
    attr_opt "IDENTIFIER" h <> Some [];
  wr_types : forall rc, path_node ["CORE-CONTENT"; "REQ-IF-CONTENT"] root = Some rc ->
    every "SPEC-TYPES" (every "SPEC-ATTRIBUTES" definition_writes) rc;
  wr_objects : forall rc, path_node ["CORE-CONTENT"; "REQ-IF-CONTENT"] root = Some rc ->
    every "SPEC-OBJECTS" (fun o => is_comment o = false -> object_writes o) rc;
  (* incomplete relations are not read *)
  wr_relations : forall rc, path_node ["CORE-CONTENT"; "REQ-IF-CONTENT"] root = Some rc ->
    every "SPEC-RELATIONS" (fun x => incomplete x = false -> relation_writes x) rc }.

(** ** Files
    [r] is the opening tag of the file, [p] and [u] are prefix and namespace of
    its XHTML elements.  Something in it is known. *)
Record conventional_text (r : root_tag) (p u : str) (s : str) (root : node) : Prop := {
  ct_tag : exists declared opened, lxml_parse s = Some (declared, opened) /\ opens_with r opened;
  ct_tag_fits : root_ok r;
  ct_prefix : plain_name p = true /\ p <> "xml";
  ct_namespace : contains "http://www.w3.org/1999/xhtml" u = true;
  ct_root : document_root s = Some root;
  ct_known : exists t, In t ["THE-HEADER"; "CORE-CONTENT"; "TOOL-EXTENSIONS"] /\ find_child t root <> None;
  ct_content : conventional r p u root }.
