(** Convert.v -- XHTML with the prefix of a document made from HTML, and HTML made
    from it: helpers/lxml.py:216-228.  No command and no parser uses these two
    functions; they are offered to programs that use the library. *)
From Verif Require Import Base Xml Lxml Py LxmlStr Serialise.

(** [lxml.html.fragment_fromstring(string, create_parent="NOT-USED")], lxml.py:218.
    [html] is libxml2's HTML parser: the content of the body element it makes of
    the text.  It is not modelled: the theorems are about whatever content it
    returns.  Of lxml.html's own code: text before the first element that is only
    white space is dropped (fragments_fromstring); the new parent has no
    namespace and no attributes. *)
Definition fragment_fromstring (html : str -> result (list node)) (string : str) : result node :=
  let! body := html string in
  Ok (El None "NOT-USED" [] [] []
        (match strip (lead body) with [] => after_lead body | _ => body end)).

(** lxml_convert_to_reqif_ns_xhtml_string, lxml.py:216-219 *)
Definition convert_to_reqif_ns (html : str -> result (list node)) (string : str) (reqif_xhtml : bool) : result str :=
  let namespace_tag : str := if reqif_xhtml then "reqif-xhtml" else "xhtml" in
  let! node := fragment_fromstring html string in
  stringify_namespaced_children node (Some namespace_tag).

(** lxml_convert_from_reqif_ns_xhtml_string, lxml.py:222-228.  [tail] is the text
    after the node, which lxml copies and writes with it; [hex] says that the
    node's document declares no encoding, see [Serialise.put_value_char]. *)
Definition convert_from_reqif_ns (hex : bool) (n : node) (tail : str) : result str :=
  match strip_ns true (deepcopy n) with
  | None => Raise EValueError
  | Some m => Ok (rstrip (put hex true 0 (cleanup [] m) ++ flat_map put_char tail ++ nl))
  end.
