(** Prop_Accept.v -- C52: which documents are accepted *)
From Verif Require Import Base Xml Utf8 Lxml Py Models Progress Parser SpecInteger SpecProgress SpecParse SpecAccept
  DictProofs IntegerProofs ProgressProofs IsolationProofs AcceptProofs Prop_Parser.

(** A text is parsed successfully exactly when it is a well-formed document
    with a REQ-IF root and every element in it is acceptable on its own. *)
Theorem C52_accepted_exactly_when :
  forall s, (exists b, parse_string s = Ok b) <-> exists r, document_root s = Some r /\ accepted_document r.
Proof. exact accepted_iff. Qed.
(** ... where the root is found exactly when the text is well formed, its root
    is a REQ-IF element and, if it declares a default namespace, there is no
    processing instruction in it. *)
Theorem C52_root_found_exactly_when :
  forall s, (exists r, document_root s = Some r) <-> reqif_text s.
Proof. exact root_iff. Qed.

(** The only number in a document, the accuracy of real numbers, is one for
    Python: white space, a sign, digits of any script and single underscores
    between them. *)
Theorem C52_numbers :
  forall s z, py_int s = Some z <-> integer_text s z.
Proof. exact int_spec. Qed.
Example C52_numbers_example :
  map py_int ["12"; " -007 "; "+1_000"; [0x663; 0x661; 0xA0]%N; ""; "-"; "- 1"; "1__0"; "_1"; "1_"; "1.0"; "0x1"; "12a"]
  = [Some 12; Some (-7); Some 1000; Some 31; None; None; None; None; None; None; None; None; None]%Z.
Proof. vm_compute. reflexivity. Qed.

(** Consequence: items of the sections do not influence each other.  A document
    whose header is that of an accepted one and whose sections hold only items
    of that document's sections, in whatever number and order, is accepted. *)
Theorem C52_items_are_independent :
  forall s s' r r' b,
    parse_string s = Ok b -> document_root s = Some r -> document_root s' = Some r' ->
    find_child "THE-HEADER" r' = find_child "THE-HEADER" r ->
    (forall rc', path_node ["CORE-CONTENT"; "REQ-IF-CONTENT"] r' = Some rc' ->
       exists rc, path_node ["CORE-CONTENT"; "REQ-IF-CONTENT"] r = Some rc
         /\ forall t ks', In t parse_order -> section_items t rc' = Some ks' ->
              exists ks, section_items t rc = Some ks /\ incl ks' ks) ->
    exists b', parse_string s' = Ok b'.
Proof.
  intros s s' r r' b H R R' HH HC. apply accepted_iff. exists r'. split; [exact R'|].
  assert (A : exists r, document_root s = Some r /\ accepted_document r) by (apply accepted_iff; eauto).
  destruct A as (r0 & E & A1 & A2). assert (r0 = r) by congruence. subst r0. split.
  - unfold if_child. rewrite HH. exact A1.
  - intros rc' P. destruct (HC _ P) as (rc & P2 & I). specialize (A2 _ P2).
    assert (G : forall t f, In t parse_order -> SpecAccept.each t f rc = true -> SpecAccept.each t f rc' = true).
    { intros t f T. unfold SpecAccept.each. destruct (section_items t rc') as [ks'|] eqn:S; [|reflexivity].
      destruct (I _ _ T S) as (ks & -> & L). rewrite !forallb_forall. auto. }
    destruct A2 as [D1 D2 D3 D4 D5 D6].
    constructor; try (apply G; [cbn; tauto|assumption]).
    intros ks' k S K. destruct (I "SPECIFICATIONS" ks') as (ks & S2 & L); [cbn; tauto|exact S|]. exact (D5 _ _ S2 (L _ K)).
Qed.

(** ** A document with every kind of element, and what breaks it *)
Definition type_ref (t : str) : str :=
  "<TYPE><DATATYPE-DEFINITION-" ++ t ++ "-REF>d</DATATYPE-DEFINITION-" ++ t ++ "-REF></TYPE>".
Definition def_text (t attrs rest : str) : str :=
  "<ATTRIBUTE-DEFINITION-" ++ t ++ " " ++ attrs ++ ">" ++ type_ref t ++ rest ++ "</ATTRIBUTE-DEFINITION-" ++ t ++ ">".
Definition def_ref (t : str) : str :=
  "<DEFINITION><ATTRIBUTE-DEFINITION-" ++ t ++ "-REF>a</ATTRIBUTE-DEFINITION-" ++ t ++ "-REF></DEFINITION>".
Definition value_text (t attrs rest : str) : str :=
  "<ATTRIBUTE-VALUE-" ++ t ++ " " ++ attrs ++ ">" ++ rest ++ def_ref t ++ "</ATTRIBUTE-VALUE-" ++ t ++ ">".
Definition markup_text (s : str) : str :=
  "<THE-VALUE><xhtml:div>" ++ s ++ "</xhtml:div></THE-VALUE>".
(** the parts that vary: attributes of an enumeration value and of a REAL data
    type, the default of an INTEGER definition, the attributes of a
    specification type, an XHTML value, the values of a relation, a hierarchy *)
Definition full_text (key accuracy default sptype markup relvalue hier : str) : str :=
  "<?xml version='1.0'?><REQ-IF xmlns='http://r' xmlns:xhtml='http://www.w3.org/1999/xhtml'>"
  ++ "<THE-HEADER><REQ-IF-HEADER IDENTIFIER='h'/></THE-HEADER><CORE-CONTENT><REQ-IF-CONTENT><DATATYPES>"
  ++ "<DATATYPE-DEFINITION-ENUMERATION IDENTIFIER='d1'><SPECIFIED-VALUES><ENUM-VALUE IDENTIFIER='e'><PROPERTIES><EMBEDDED-VALUE "
  ++ key ++ "/></PROPERTIES></ENUM-VALUE></SPECIFIED-VALUES></DATATYPE-DEFINITION-ENUMERATION>"
  ++ "<DATATYPE-DEFINITION-REAL IDENTIFIER='d2' " ++ accuracy ++ "/></DATATYPES><SPEC-TYPES><!-- c --><SPEC-OBJECT-TYPE IDENTIFIER='t'><SPEC-ATTRIBUTES>"
  ++ def_text "INTEGER" "IDENTIFIER='a1'" default ++ def_text "STRING" "IDENTIFIER='a2'" "<DEFAULT-VALUE/>"
  ++ def_text "ENUMERATION" "IDENTIFIER='a3'" ("<DEFAULT-VALUE>" ++ value_text "ENUMERATION" [] "<VALUES/>" ++ "</DEFAULT-VALUE>")
  ++ def_text "XHTML" "IDENTIFIER='a4'" ("<DEFAULT-VALUE>" ++ value_text "XHTML" [] (markup_text "x") ++ "</DEFAULT-VALUE>")
  ++ "</SPEC-ATTRIBUTES></SPEC-OBJECT-TYPE><SPECIFICATION-TYPE IDENTIFIER='u' " ++ sptype ++ "/></SPEC-TYPES><SPEC-OBJECTS>"
  ++ "<SPEC-OBJECT IDENTIFIER='o'><TYPE><SPEC-OBJECT-TYPE-REF>t</SPEC-OBJECT-TYPE-REF></TYPE><VALUES>"
  ++ value_text "STRING" "THE-VALUE='v'" [] ++ value_text "DATE" "THE-VALUE='v'" [] ++ value_text "ENUMERATION" [] "<VALUES/>"
  ++ value_text "XHTML" [] markup
  ++ "</VALUES></SPEC-OBJECT><!-- c --></SPEC-OBJECTS><SPEC-RELATIONS>"
  ++ relation_text "r" (source_text ++ target_text ++ "<VALUES>" ++ relvalue ++ "</VALUES>") ++ relation_text "f" source_text
  ++ "</SPEC-RELATIONS><SPECIFICATIONS><SPECIFICATION IDENTIFIER='s'>" ++ kids_text (hier_text "x" (kids_text hier))
  ++ "</SPECIFICATION></SPECIFICATIONS><SPEC-RELATION-GROUPS><RELATION-GROUP IDENTIFIER='g'/></SPEC-RELATION-GROUPS>"
  ++ "</REQ-IF-CONTENT></CORE-CONTENT></REQ-IF>".
Definition good_text : str :=
  full_text "KEY='1'" "ACCURACY=' 3 '" "<DEFAULT-VALUE><ATTRIBUTE-VALUE-INTEGER THE-VALUE='5'/></DEFAULT-VALUE>"
    "LAST-CHANGE='now'" (markup_text "x <xhtml:b>y</xhtml:b>") (value_text "STRING" "THE-VALUE='w'" []) (hier_text "y" []).
Example C52_example :
  (exists b, parse_string good_text = Ok b) /\ (exists r, document_root good_text = Some r /\ accepted_document r)
  /\ reqif_text good_text.
Proof.
  assert (H : exists b, parse_string good_text = Ok b) by (apply okb_iff; vm_compute; reflexivity).
  split; [exact H|]. apply accepted_iff in H. split; [exact H|]. apply root_iff. destruct H as (r & H & _). eauto.
Qed.
(** Each of these is good_text with one part replaced; none of the replacements
    breaks the XML. *)
Example C52_refused_examples :
  let i := "<DEFAULT-VALUE><ATTRIBUTE-VALUE-INTEGER THE-VALUE='5'/></DEFAULT-VALUE>"%str in
  let v := value_text "STRING" "THE-VALUE='w'" [] in
  map (fun s => match document_root s with Some _ => outcome (parse_string s) | None => None end)
    [ full_text "CODE='1'" [] i "LAST-CHANGE='now'" (markup_text "x") v (hier_text "y" []);
      full_text "KEY='1'" "ACCURACY='3.0'" i "LAST-CHANGE='now'" (markup_text "x") v (hier_text "y" []);
      full_text "KEY='1'" [] "<DEFAULT-VALUE/>" "LAST-CHANGE='now'" (markup_text "x") v (hier_text "y" []);
      full_text "KEY='1'" [] i "DESC='now'" (markup_text "x") v (hier_text "y" []);
      full_text "KEY='1'" [] i "LAST-CHANGE='now'" (markup_text "x<!-- c -->") v (hier_text "y" []);
      full_text "KEY='1'" [] i "LAST-CHANGE='now'" (markup_text "x") (value_text "DATE" "THE-VALUE='w'" []) (hier_text "y" []);
      full_text "KEY='1'" [] i "LAST-CHANGE='now'" (markup_text "x") v (hier_text "y" [] ++ "<!-- c -->") ]
  = map Some [EKeyError; EValueError; EAssertionError; ENotImplementedError; EValueError; ENotImplementedError; EAssertionError].
Proof. vm_compute. reflexivity. Qed.
(** A processing instruction anywhere in a document with a default namespace. *)
Example C52_processing_instruction_example :
  ~ reqif_text "<REQ-IF xmlns='u'><THE-HEADER><?x y?></THE-HEADER></REQ-IF>"
  /\ exists b, parse_string "<REQ-IF><?x y?></REQ-IF>" = Ok b.
Proof.
  split; [|apply okb_iff; vm_compute; reflexivity].
  rewrite <- root_iff. intros (r & H). vm_compute in H. discriminate.
Qed.
(** Two objects swapped and one removed. *)
Definition small_object (i : str) : str :=
  "<SPEC-OBJECT IDENTIFIER='" ++ i ++ "'><TYPE><SPEC-OBJECT-TYPE-REF>t</SPEC-OBJECT-TYPE-REF></TYPE></SPEC-OBJECT>".
Definition three_objects : str :=
  wrap ("<SPEC-OBJECTS>" ++ small_object "a" ++ small_object "b" ++ small_object "c" ++ "</SPEC-OBJECTS>").
Definition two_objects : str :=
  wrap ("<SPEC-OBJECTS>" ++ small_object "c" ++ small_object "a" ++ "</SPEC-OBJECTS>").
Definition or_char (o : option node) : node := match o with Some n => n | None => Chr 0%N end.
Definition three_root : node := Eval vm_compute in or_char (document_root three_objects).
Definition two_root : node := Eval vm_compute in or_char (document_root two_objects).
Definition content_in (r : node) : node := or_char (path_node ["CORE-CONTENT"; "REQ-IF-CONTENT"] r).
Definition items_in (t : str) (r : node) : list node :=
  match section_items t (content_in r) with Some ks => ks | None => [] end.
Definition three_items : list node := Eval vm_compute in items_in "SPEC-OBJECTS" three_root.
Definition two_items : list node := Eval vm_compute in items_in "SPEC-OBJECTS" two_root.
Example C52_items_example : exists b', parse_string two_objects = Ok b'.
Proof.
  assert (B : exists b, parse_string three_objects = Ok b) by (apply okb_iff; vm_compute; reflexivity). destruct B as (b & B).
  apply (C52_items_are_independent three_objects two_objects three_root two_root b B); try (vm_compute; reflexivity).
  intros rc' E. exists (content_in three_root). split; [vm_compute; reflexivity|].
  assert (E' : rc' = content_in two_root) by (unfold content_in; rewrite E; reflexivity). rewrite E'. clear E E' rc'.
  intros t ks' T K. cbn [parse_order In] in T.
  destruct T as [<-|[<-|[<-|[<-|[<-|[<-|[]]]]]]]; try (vm_compute in K; discriminate K).
  exists three_items. split; [vm_compute; reflexivity|].
  assert (E : ks' = two_items).
  { assert (Q : section_items "SPEC-OBJECTS" (content_in two_root) = Some two_items) by (vm_compute; reflexivity). congruence. }
  rewrite E. clear K E. intros x [<-|[<-|[]]]; [right; right; left|left]; reflexivity.
Qed.

Print Assumptions C52_numbers.
Print Assumptions C52_accepted_exactly_when.
Print Assumptions C52_root_found_exactly_when.
Print Assumptions C52_items_are_independent.
