(** SpecNamespaces.v -- what the names in a document mean, after the
    recommendation "Namespaces in XML 1.0 (third edition)"; numbers in brackets
    are those of its productions and sections. *)
From Verif Require SpecUri.
From Verif Require Import Base Xml Lxml SpecXml.

(** [4], [7]: a name is a prefix, if any, and a local part *)
Definition nc_name (s : str) : Prop := name s /\ ~ In 0x3A%N s.
Inductive q_name : str -> option str -> str -> Prop :=
| q_name_unprefixed l : nc_name l -> q_name l None l
| q_name_prefixed p l : nc_name p -> nc_name l -> q_name (p ++ ":" ++ l) (Some p) l.

(** [1]: the attributes that declare the default namespace or a prefix.  Section
    2 wants a namespace name to be a URI reference; sections 3 and 6.2 say which
    of them may be declared *)
Inductive declaring : str -> option str -> Prop :=
| declaring_default : declaring "xmlns" None
| declaring_prefix p : nc_name p -> declaring ("xmlns:" ++ p) (Some p).
Definition declarable (p : option str) (u : str) : Prop :=
  (p = Some "xml" /\ u = "http://www.w3.org/XML/1998/namespace")
  \/ (p = None /\ u = [])
  \/ (p <> Some "xml" /\ p <> Some "xmlns" /\ u <> [] /\ SpecUri.uri_ref u
      /\ u <> "http://www.w3.org/XML/1998/namespace" /\ u <> "http://www.w3.org/2000/xmlns/").

(** The attributes of an element are its declarations and the other ones (prefix,
    local part, value), both in document order *)
Inductive attributes_are : list (str * str) -> list (option str * str) -> list (option str * str * str) -> Prop :=
| attributes_none : attributes_are [] [] []
| attributes_declaration k p u rest d a :
    declaring k p -> declarable p u -> attributes_are rest d a -> attributes_are ((k, u) :: rest) ((p, u) :: d) a
| attributes_other k p l v rest d a :
    q_name k p l -> k <> "xmlns" -> p <> Some "xmlns" -> attributes_are rest d a ->
    attributes_are ((k, v) :: rest) d ((p, l, v) :: a).

(** Section 6.1: the declarations in scope are those of the element and those of
    its parent whose prefix it does not declare again *)
Inductive not_declared_again (d : list (option str * str)) : list (option str * str) -> list (option str * str) -> Prop :=
| not_again_nil : not_declared_again d [] []
| not_again_kept p u s s' : ~ In p (map fst d) -> not_declared_again d s s' -> not_declared_again d ((p, u) :: s) ((p, u) :: s')
| not_again_hidden p u s s' : In p (map fst d) -> not_declared_again d s s' -> not_declared_again d ((p, u) :: s) s'.

(** Section 6.2: the namespace (prefix and name) of an element or attribute, if any.  The prefix xml
    needs no declaration; an empty name takes the default back *)
Inductive element_namespace (scope : list (option str * str)) : option str -> option (option str * str) -> Prop :=
| namespace_none : (forall u, In (None, u) scope -> u = []) -> element_namespace scope None None
| namespace_default u : In (None, u) scope -> u <> [] -> element_namespace scope None (Some (None, u))
| namespace_xml : element_namespace scope (Some "xml") (Some (Some "xml", "http://www.w3.org/XML/1998/namespace"))
| namespace_prefix p u : p <> "xml" -> In (Some p, u) scope -> element_namespace scope (Some p) (Some (Some p, u)).
Inductive attribute_namespace (scope : list (option str * str)) : option str -> option (option str * str) -> Prop :=
| attribute_none : attribute_namespace scope None None
| attribute_prefix p n : element_namespace scope (Some p) n -> attribute_namespace scope (Some p) n.
Definition attribute_is (scope : list (option str * str)) (x : option str * str * str) (a : attr) : Prop :=
  match x with (p, l, v) => attribute_namespace scope p (a_ns a) /\ a_local a = l /\ a_val a = v end.
Definition expanded (a : attr) : option str * str := (option_map snd (a_ns a), a_local a).

(** [denotes scope x n]: the markup [x], in a place where the declarations
    [scope] are in force, is the tree [n].  No two attributes have the same name, nor the same
    namespace and local part (section 6.3) *)
Inductive denotes : list (option str * str) -> xnode -> node -> Prop :=
| denotes_char scope c : denotes scope (XChar c) (Chr c)
| denotes_comment scope s : denotes scope (XComment s) (Cmt s)
| denotes_instruction scope s : denotes scope (XPI s) (Pin s)
| denotes_element scope name p l ns atts d others rest attrs kids kids' :
    NoDup (map fst atts) -> attributes_are atts d others ->
    not_declared_again d scope rest ->
    q_name name p l -> element_namespace (d ++ rest) p ns ->
    Forall2 (attribute_is (d ++ rest)) others attrs -> NoDup (map expanded attrs) ->
    denote_all (d ++ rest) kids kids' ->
    denotes scope (XElem name atts kids) (El ns l d scope attrs kids')
with denote_all : list (option str * str) -> list xnode -> list node -> Prop :=
| denote_nil scope : denote_all scope [] []
| denote_cons scope x n xs ns : denotes scope x n -> denote_all scope xs ns -> denote_all scope (x :: xs) (n :: ns).

Scheme denotes_mut := Induction for denotes Sort Prop
  with denote_all_mut := Induction for denote_all Sort Prop.
Combined Scheme denotes_ind' from denotes_mut, denote_all_mut.
