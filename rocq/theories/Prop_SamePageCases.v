(** Prop_SamePageCases.v -- C81: examples, and what does not hold *)
From Verif Require Import Base Xml Utf8 Lxml Py LxmlStr Models AttrDef Header Progress Parser Unparser Serialise Validate Zip Anonymize Dump Commands BundleModel
  SpecCommands SpecXml SpecFormat SpecTraversal SpecProgress SpecPrint SpecDocument SpecSettle SpecAnonymize SpecLayout SpecHidden SpecLookup SpecValidate SpecVerdict SpecDump SpecSamePage
  Prop_Document Prop_Settle Prop_Commands Prop_Format Prop_Reformat Prop_AnonymizeFile Prop_AnonymizeBundle Prop_Dump Prop_Verdict Prop_SamePage.
From Verif Require Import SpecAccept SpecConventional ConventionalCheck Prop_Accept Prop_Conventional Prop_ConventionalAnonymize.

Definition enum_value (reference : str) : str :=
  "<ATTRIBUTE-VALUE-ENUMERATION><DEFINITION><ATTRIBUTE-DEFINITION-ENUMERATION-REF>c</ATTRIBUTE-DEFINITION-ENUMERATION-REF></DEFINITION><VALUES><ENUM-VALUE-REF>e1</ENUM-VALUE-REF><ENUM-VALUE-REF>"
  ++ reference ++ "</ENUM-VALUE-REF></VALUES></ATTRIBUTE-VALUE-ENUMERATION>".
Definition page_text (xhtml reference : str) : str :=
  "<?xml version='1.0' encoding='UTF-8'?>" ++ nl ++ "<REQ-IF xmlns='http://www.omg.org/spec/ReqIF/20110401/reqif.xsd' xmlns:reqif-xhtml='http://www.w3.org/1999/xhtml'" ++ location ++ ">" ++ nl
  ++ "<THE-HEADER><REQ-IF-HEADER IDENTIFIER='h'><TITLE>t &amp; u</TITLE></REQ-IF-HEADER></THE-HEADER>" ++ nl
  ++ "<CORE-CONTENT><REQ-IF-CONTENT>" ++ nl
  ++ "<DATATYPES><DATATYPE-DEFINITION-STRING IDENTIFIER='ds' MAX-LENGTH='10'/></DATATYPES><SPEC-TYPES><SPEC-OBJECT-TYPE IDENTIFIER='ot' LONG-NAME='a &lt; b'/></SPEC-TYPES>" ++ nl
  ++ "<SPEC-OBJECTS><SPEC-OBJECT IDENTIFIER='o'><VALUES>" ++ xhtml
  ++ "<ATTRIBUTE-VALUE-STRING THE-VALUE='x &amp; &quot;y&quot;'><DEFINITION><ATTRIBUTE-DEFINITION-STRING-REF>b</ATTRIBUTE-DEFINITION-STRING-REF></DEFINITION></ATTRIBUTE-VALUE-STRING>"
  ++ enum_value reference ++ "</VALUES><TYPE><SPEC-OBJECT-TYPE-REF>ot</SPEC-OBJECT-TYPE-REF></TYPE></SPEC-OBJECT></SPEC-OBJECTS>" ++ nl
  ++ "<SPECIFICATIONS><SPECIFICATION IDENTIFIER='s' LONG-NAME='The list'><CHILDREN><SPEC-HIERARCHY IDENTIFIER='k'><OBJECT><SPEC-OBJECT-REF>o</SPEC-OBJECT-REF></OBJECT></SPEC-HIERARCHY></CHILDREN></SPECIFICATION></SPECIFICATIONS>" ++ nl
  ++ "</REQ-IF-CONTENT></CORE-CONTENT></REQ-IF>".
Definition xhtml_value : str :=
  "<ATTRIBUTE-VALUE-XHTML><DEFINITION><ATTRIBUTE-DEFINITION-XHTML-REF>a</ATTRIBUTE-DEFINITION-XHTML-REF></DEFINITION>"
  ++ "<THE-VALUE><reqif-xhtml:div class='c'><reqif-xhtml:p>1 &lt; 2</reqif-xhtml:p><reqif-xhtml:p>more</reqif-xhtml:p></reqif-xhtml:div></THE-VALUE></ATTRIBUTE-VALUE-XHTML>".
(** lists of references, as on the page *)
Definition joined (l : list (option str)) : str := flat_map (fun o => match o with Some s => s ++ "," | None => "-," end) l.
Definition page_of (s : str) : result str := let! b := parse_string s in dump_html joined b.
Definition formatted (s : str) : str := match format_text s with Ok t => t | Raise _ => [] end.
Definition anonymized (s : str) : str := match anonymize_doc s with Ok t => t | Raise _ => [] end.
Definition read (s : str) : bundle := or_empty (parse_string s).
Definition filledb (b : bundle) : bool :=
  forallb (fun o => forallb (fun a => match sa_value a with
                                      | VList l => forallb (fun r => match r with Some _ => true | None => false end) l
                                      | VStr _ => true
                                      end) (so_attributes o)) (spec_objects_of b).
Lemma filledb_sound b : filledb b = true -> enumerations_filled b.
Proof.
  unfold filledb. rewrite forallb_forall. intros H a l (o & Ho & Ha) E HN. specialize (H o Ho). rewrite forallb_forall in H. specialize (H a Ha). rewrite E in H.
  rewrite forallb_forall in H. specialize (H None HN). discriminate.
Qed.
(** a file that all three commands accept; it has a title, a STRING, an XHTML and an
    ENUMERATION value and a page *)
Example C81_example :
  let s := page_text xhtml_value "e2" in
  parse_string s = Ok (read s) /\ plain_bundle (anonymous_root true) "reqif-xhtml" "http://www.w3.org/1999/xhtml" (read s)
  /\ (exists t, unparse_string (read s) = Ok t) /\ enumerations_filled (read s)
  /\ formattable true s /\ anonymizable s
  /\ (exists html, page_of s = Ok html)
  /\ page_of (written s) = page_of s
  /\ page_of (formatted s) <> page_of s /\ page_of (anonymized s) <> page_of s.
Proof.
  cbv zeta. assert (HP : parse_string (page_text xhtml_value "e2") = Ok (read (page_text xhtml_value "e2"))) by (vm_compute; reflexivity).
  assert (HC : conventional_case (anonymous_root true) (page_text xhtml_value "e2")) by conventional_case (page_text xhtml_value "e2").
  split; [exact HP|]. split; [exact (C78_conventional_documents_can_be_read_back _ _ _ _ _ _ (proj1 HC) HP)|].
  split; [exists (written (page_text xhtml_value "e2")); vm_compute; reflexivity|]. split; [apply filledb_sound; vm_compute; reflexivity|].
  split; [apply formattableb_sound; vm_compute; reflexivity|].
  split; [eapply anonymizable_check; [vm_compute; reflexivity|vm_compute; reflexivity|]; vm_compute; reflexivity|].
  split; [eexists; vm_compute; reflexivity|]. split; [vm_compute; reflexivity|]. split; vm_compute; discriminate.
Qed.
(** without XHTML values, formatting makes no difference *)
Example C81_example_without_xhtml :
  let s := page_text [] "e2" in
  formattable true s /\ (forall a, attribute_of (read s) a -> sa_type a <> AT_XHTML)
  /\ formatted s <> s /\ exists html, page_of s = Ok html /\ page_of (formatted s) = Ok html.
Proof.
  cbv zeta. split; [apply formattableb_sound; vm_compute; reflexivity|]. split.
  - intros a (o & Ho & Ha) E.
    assert (X : existsb (fun o => existsb (fun a => match sa_type a with AT_XHTML => true | _ => false end) (so_attributes o)) (spec_objects_of (read (page_text [] "e2"))) = false)
      by (vm_compute; reflexivity).
    assert (Y : existsb (fun o => existsb (fun a => match sa_type a with AT_XHTML => true | _ => false end) (so_attributes o)) (spec_objects_of (read (page_text [] "e2"))) = true).
    { apply existsb_exists. exists o. split; [exact Ho|]. apply existsb_exists. exists a. split; [exact Ha|]. rewrite E. reflexivity. }
    congruence.
  - split; [vm_compute; discriminate|]. eexists. split; vm_compute; reflexivity.
Qed.
(** An empty reference in an ENUMERATION value is another one after passthrough. *)
Theorem C81_empty_enumeration_reference_refuted :
  exists s html html', parse_string s = Ok (read s) /\ plain_bundle (anonymous_root true) "reqif-xhtml" "http://www.w3.org/1999/xhtml" (read s)
    /\ page_of s = Ok html /\ page_of (written s) = Ok html' /\ html' <> html.
Proof.
  exists (page_text [] []). eexists _, _.
  assert (HP : parse_string (page_text [] []) = Ok (read (page_text [] []))) by (vm_compute; reflexivity).
  assert (HC : conventional_case (anonymous_root true) (page_text [] [])) by conventional_case (page_text [] []).
  split; [exact HP|]. split; [exact (C78_conventional_documents_can_be_read_back _ _ _ _ _ _ (proj1 HC) HP)|].
  split; [vm_compute; reflexivity|]. split; [vm_compute; reflexivity|]. vm_compute. discriminate.
Qed.
(** A file without a page can have one after passthrough: an empty reference
    becomes one to the object called None. *)
Definition none_text : str :=
  "<REQ-IF><CORE-CONTENT><REQ-IF-CONTENT><DATATYPES/><SPEC-TYPES/>"
  ++ "<SPEC-OBJECTS><SPEC-OBJECT IDENTIFIER=""None""><VALUES/><TYPE><SPEC-OBJECT-TYPE-REF>t</SPEC-OBJECT-TYPE-REF></TYPE></SPEC-OBJECT></SPEC-OBJECTS>"
  ++ "<SPECIFICATIONS><SPECIFICATION IDENTIFIER=""s""><CHILDREN><SPEC-HIERARCHY IDENTIFIER=""h""><OBJECT><SPEC-OBJECT-REF/></OBJECT></SPEC-HIERARCHY></CHILDREN></SPECIFICATION></SPECIFICATIONS>"
  ++ "</REQ-IF-CONTENT></CORE-CONTENT></REQ-IF>".
Theorem C81_page_needs_passthrough_refuted :
  exists s html, page_of s = Raise EKeyError /\ page_of (written s) = Ok html.
Proof. exists none_text. eexists. split; vm_compute; reflexivity. Qed.
Print Assumptions C81_example.
Print Assumptions C81_empty_enumeration_reference_refuted.
Print Assumptions C81_page_needs_passthrough_refuted.
