(** SpecRoundTrip.v -- what it means that a written object is read back *)
From Verif Require Import Base Xml Lxml Py Models Parser SpecEscape SpecPrint SpecXhtml SpecDocument.

(** The text [s] as the only content of a document with the opening tag [r]:
    the XML parser accepts it, and the element found there is [n]. *)
Definition stands_in (r : root_tag) (s : str) (n : node) : Prop :=
  exists root, lxml_parse (root_text r ++ s ++ "</REQ-IF>") = Some (None, root)
               /\ children root = [n].
(** opening tags: without namespaces, and with XHTML under the prefix [p] *)
Definition plain_root : root_tag := RootTag [] [].
Definition xhtml_root (p u : str) : root_tag := RootTag [(Some p, u)] [].
Definition xhtml_ns (p u : str) : Prop :=
  decl_ok (Some p, u) /\ contains "http://www.w3.org/1999/xhtml" u = true.
(** the XHTML values and default values that can be written there *)
Definition xhtml_text (p v : str) : Prop := exists f, forest_ok f /\ v = show p f.

(** [x] is written, accepted by the XML parser in a document with the opening
    tag [r], and read back as [x'] with [erase x' = normal x]; writing [x']
    gives the same text. *)
Definition round_trip {X} (r : root_tag) (unp : X -> result str) (parse : node -> result X)
  (erase normal : X -> X) (x : X) : Prop :=
  exists s n x', unp x = Ok s /\ stands_in r s n /\ parse n = Ok x' /\ erase x' = normal x
                 /\ unp x' = Ok s.
(** ... for readers that skip comments *)
Definition round_trip_opt {X} (r : root_tag) (unp : X -> result str)
  (parse : node -> result (option X)) (erase normal : X -> X) (x : X) : Prop :=
  exists s n x', unp x = Ok s /\ stands_in r s n /\ parse n = Ok (Some x') /\ erase x' = normal x
                 /\ unp x' = Ok s.

(** What an XML parser makes of a text between the quotes of an attribute: line
    ends and tabs become spaces, CR LF a single one.  [cr]: the character before
    was CR. *)
Fixpoint on_one_line (cr : bool) (v : str) : str :=
  match v with
  | [] => []
  | c :: v' =>
      if N.eqb c 13 then 32%N :: on_one_line true v'
      else if N.eqb c 10 then if cr then on_one_line false v' else 32%N :: on_one_line false v'
      else (if N.eqb c 9 then 32%N else c) :: on_one_line false v'
  end.
