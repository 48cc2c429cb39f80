(** Anonymize.v -- commands/anonymize/anonymize.py: the changes made to the XML
    tree.  The SHA-256 function is a parameter; the final serialisation (lxml's
    [tostring]) is in Serialise.v. *)
From Verif Require Import Base Xml Utf8 Lxml Py LxmlStr Parser.

(** anonymize_string, anonymize.py:20-23; [sha] is the SHA-256 digest read as a
    number *)
Definition anonymize_string (sha : bytes -> N) (s : str) : result str :=
  match utf8_encode s with
  | None => Raise EUnicodeError
  | Some b => Ok ("...Anonymized-" ++ str_of_N (sha b mod 10000000000)%N ++ "...")
  end.

(** an element [t] of namespace [uri], i.e. "reqif:t" in the xpath expressions *)
Definition is_el (uri t : str) (n : node) : bool :=
  match n with
  | El (Some (_, u)) l _ _ _ _ => str_eqb u uri && str_eqb l t
  | _ => false
  end.
(** the node set of "//reqif:t" and of "//reqif:p/reqif:t" *)
Definition any_el (uri t : str) (_ : option node) (n : node) : bool := is_el uri t n.
(** "//reqif:p/reqif:t" *)
Definition child_el (uri p t : str) (parent : option node) (n : node) : bool :=
  match parent with Some m => is_el uri p m && is_el uri t n | None => false end.

(** the element with other content *)
Definition with_kids (n : node) (ks : list node) : node :=
  match n with El ns l d i a _ => El ns l d i a ks | _ => n end.
(** Apply [act] to every selected node of the tree below (and including) [n].
    [act] gets the node as it was and the node with its children already
    processed; which of the two nested selected nodes is changed first makes no
    difference for the five uses below: the first four change an attribute or
    leading text only, and the fifth throws away the nested nodes (if the outer
    one can be stringified, so can the nested one, hence no exception is missed). *)
Fixpoint update_each (sel : option node -> node -> bool) (act : node -> node -> result node)
         (parent : option node) (n : node) : result node :=
  match n with
  | El _ _ _ _ _ kids =>
      let! kids' := mapM (update_each sel act (Some n)) kids in
      if sel parent n then act n (with_kids n kids') else Ok (with_kids n kids')
  | _ => Ok n
  end.

(** element.text = s: the leading character data is replaced *)
Definition set_text (s : str) (n : node) : node := with_kids n (map Chr s ++ after_lead (kids_of n)).
(** anonymize.py:66-69, :75-78; None has no encode *)
Definition act_text (sha : bytes -> N) (_ n : node) : result node :=
  match text n with
  | None => Raise EAttributeError
  | Some s => let! r := anonymize_string sha s in Ok (set_text r n)
  end.
(** element.attrib[k] = v for a key that is present *)
Fixpoint replace_attr (k v : str) (l : list attr) : list attr :=
  match l with
  | [] => []
  | a :: l' => if str_eqb k (a_key a) then Attr (a_ns a) (a_local a) v :: l' else a :: replace_attr k v l'
  end.
(** [element.attrib[k] = v] *)
Definition set_attr (k v : str) (n : node) : node :=
  match n with El ns l d i a ks => El ns l d i (replace_attr k v a) ks | _ => n end.
(** anonymize.py:82-86, :92-96 *)
Definition act_attr (sha : bytes -> N) (k : str) (_ n : node) : result node :=
  match attr_opt k n with
  | None => Ok n
  | Some s => let! r := anonymize_string sha s in Ok (set_attr k r n)
  end.
(** anonymize.py:102-110: remove(child) takes the tail along *)
Definition act_xhtml (sha : bytes -> N) (orig n : node) : result node :=
  let! s := stringify_namespaced_children orig None in
  let! r := anonymize_string sha s in
  Ok (with_kids n (map Chr r)).

(** anonymize.py:58-110, on the tree *)
Definition anonymize_tree (sha : bytes -> N) (root : node) : result node :=
  match ns_get (node_nsmap root) None with
  | None => Raise EKeyError
  | Some uri =>
      let! r1 := update_each (child_el uri "REQ-IF-HEADER" "COMMENT") (act_text sha) None root in
      let! r2 := update_each (child_el uri "REQ-IF-HEADER" "TITLE") (act_text sha) None r1 in
      let! r3 := update_each (any_el uri "SPECIFICATION") (act_attr sha "LONG-NAME") None r2 in
      let! r4 := update_each (any_el uri "ATTRIBUTE-VALUE-STRING") (act_attr sha "THE-VALUE") None r3 in
      update_each (child_el uri "ATTRIBUTE-VALUE-XHTML" "THE-VALUE") (act_xhtml sha) None r4
  end.
(** _anonymize up to tostring, anonymize.py:47-110, on the text of the file *)
Definition anonymize_text (sha : bytes -> N) (content : str) : result node :=
  match lxml_parse content with
  | None => Raise EReqIFXMLParsingError
  | Some (_, root) => anonymize_tree sha root
  end.
