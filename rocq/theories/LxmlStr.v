(** LxmlStr.v -- the stringification helpers of helpers/lxml.py.

    In the Python code a child's tail is emitted together with the child.  Here
    the content of an element is one list of characters and child nodes, and is
    emitted in that order: text and tails are exactly the runs of characters in
    it ([tails] below recovers the lxml view where the code treats tails
    separately). *)
From Verif Require Import Base Xml Lxml Py.

(** The attribute printing loop, lxml.py:95-96 and 167-168. *)
Definition print_attrs (n : node) : str :=
  flat_map (fun kv => " " ++ fst kv ++ "=""" ++ lxml_escape_for_html (snd kv) ++ """")
           (attrib n).

(** A child's content decides between ">...</tag>" and "/>": lxml.py:99-111,
    174-186.  [node.text is not None or len(children) > 0] is exactly
    "the content list is not empty". *)
Definition needs_close (tag_ : str) (kids : list node) : bool :=
  match kids with [] => str_eqb (casefold tag_) "object" | _ => true end.

(** _lxml_stringify_reqif_ns_node, lxml.py:59-115, without the tail.
    [nskey] is the prefix printed (a missing key prints as "None");
    [forced] is [namespace_tag is not None].  [etree.QName] raises ValueError
    on comments and processing instructions. *)
Fixpoint stringify_ns_node (nskey : option str) (forced : bool) (n : node) : result str :=
  match n with
  | El ns l defs inh attrs kids =>
      let own_ns := match ns with
                    | Some (_, u) =>
                        existsb (fun d => ostr_eqb (fst d) None && str_eqb (snd d) u)
                                (extend defs inh)
                    | None => false end in
      let tag_ := if own_ns then l
                  else if (match ns with Some _ => true | None => false end) || forced
                       then fmt nskey ++ ":" ++ l
                       else clark ns l in
      let head := "<" ++ tag_
                  ++ (if own_ns then " xmlns=""" ++ fmt (ns_get (extend defs inh) None) ++ """"
                      else [])
                  ++ print_attrs n in
      if needs_close (clark ns l) kids then
        let! inner :=
          (fix go (ks : list node) : result str :=
             match ks with
             | [] => Ok []
             | Chr c :: ks' => let! r := go ks' in Ok (lxml_escape_for_html [c] ++ r)
             | k :: ks' => let! s := stringify_ns_node nskey forced k in
                           let! r := go ks' in Ok (s ++ r)
             end) kids in
        Ok (head ++ ">" ++ inner ++ "</" ++ tag_ ++ ">")
      else Ok (head ++ "/>")
  | _ => Raise EValueError
  end.

(** the children of the element, lxml.py:105-108 and :117-121 *)
Definition stringify_ns_kids (nskey : option str) (forced : bool) (kids : list node) : result str :=
  (fix go (ks : list node) : result str :=
     match ks with
     | [] => Ok []
     | Chr c :: ks' => let! r := go ks' in Ok (lxml_escape_for_html [c] ++ r)
     | k :: ks' => let! s := stringify_ns_node nskey forced k in
                   let! r := go ks' in Ok (s ++ r)
     end) kids.

(** lxml_stringify_namespaced_children, lxml.py:49-122.  [None] for the node
    models the call on a missing element (AttributeError on [.nsmap]). *)
Definition stringify_namespaced_children (n : node) (namespace_tag : option str) : result str :=
  match namespace_tag with
  | None =>
      match node_nsmap n with
      | [] => Raise EAssertionError
      | (k, _) :: _ => stringify_ns_kids k false (kids_of n)
      end
  | Some t => stringify_ns_kids (Some t) true (kids_of n)
  end.

(** lxml_stringify_node, lxml.py:125-189, without the tail. *)
Fixpoint stringify_node (root_node : bool) (n : node) : result str :=
  match n with
  | Cmt s => Ok ("<!--" ++ s ++ "-->")
  | El ns l defs inh attrs kids =>
      let m := extend defs inh in
      let tag_ := match m with
                  | (Some k, _) :: _ =>
                      match ns with Some _ => k ++ ":" ++ l | None => l end
                  | _ => l
                  end in
      let head := "<" ++ tag_ ++ print_attrs n
                  ++ (match m with
                      | (_, v) :: _ => if root_node then " xmlns=""" ++ v ++ """" else []
                      | [] => [] end) in
      if needs_close (clark ns l) kids then
        let! inner :=
          (fix go (ks : list node) : result str :=
             match ks with
             | [] => Ok []
             | Chr c :: ks' => let! r := go ks' in Ok (lxml_escape_for_html [c] ++ r)
             | k :: ks' => let! s := stringify_node false k in
                           let! r := go ks' in Ok (s ++ r)
             end) kids in
        Ok (head ++ ">" ++ inner ++ "</" ++ tag_ ++ ">")
      else Ok (head ++ "/>")
  | Pin _ => Raise EValueError
  | Chr _ => Raise EValueError
  end.

(** The children of an element with their tails. *)
Fixpoint tails (l : list node) : list (node * str) :=
  match l with
  | [] => []
  | Chr _ :: l' => tails l'
  | k :: l' => (k, lead l') :: tails l'
  end.

(** lxml_stringify_children, lxml.py:193-213: the leading text as it is, then
    for every child [lxml_stringify_node(child)], which already ends with the
    escaped tail, followed by the tail itself. *)
Definition stringify_children (n : node) : result str :=
  let! parts := mapM (fun kt => let! s := stringify_node true (fst kt) in
                                Ok (s ++ lxml_escape_for_html (snd kt) ++ snd kt))
                     (tails (kids_of n)) in
  Ok (lead (kids_of n) ++ concat parts).

(** lxml_convert_children_from_reqif_ns_xhtml_string, lxml.py:231-235 *)
Definition convert_children_from_reqif_ns (n : node) : result str :=
  match strip_ns true (deepcopy n) with
  | None => Raise EValueError
  | Some m => stringify_children (cleanup [] m)
  end.

(** helpers/string/xhtml_indent.py *)
(** re.compile(r" {16}").sub("", s): runs of 16 spaces are removed from the
    left; [k] spaces are pending. *)
Fixpoint sub_sp16 (k : nat) (s : str) : str :=
  match s with
  | [] => spaces k
  | c :: s' =>
      if N.eqb c 32 then
        if Nat.eqb k 15 then sub_sp16 0 s' else sub_sp16 (S k) s'
      else spaces k ++ c :: sub_sp16 0 s'
  end.
(** reqif_unindent_xhtml_string, xhtml_indent.py:18-19 *)
Definition reqif_unindent_xhtml_string (s : str) : str := strip (sub_sp16 0 s).
(** reqif_indent_xhtml_string, xhtml_indent.py:10-15 *)
Definition reqif_indent_xhtml_string (s : str) : str :=
  replace_char 10 (nl ++ spaces 16) (nl ++ strip s) ++ nl ++ spaces 14.
