(** Prop_Settle.v -- C49, C50: documents that are read, written, read and written *)
From Verif Require Import Base Xml Utf8 Lxml Py LxmlStr Models AttrDef DataType Header AttrValue SpecObj Hierarchy
  SpecTypes Parser Unparser BundleModel Zip Commands SpecEscape EscapeProofs SpecPrint SpecXhtml SpecTraversal
  SpecDocument SpecRoundTrip SpecSettle Utf8Proofs ProgressProofs ParserProofs RT_Document RT_Strip
  SettleProofs LineProofs Prop_RoundTrip Prop_Document.

(** ** C49: passthrough settles after one pass *)
(** Every accepted document whose texts survive being written: what unparse
    writes for it is read back as the same bundle -- except that absent
    references now read None -- and writing that again reproduces the text. *)
Theorem C49_second_pass_changes_nothing :
  forall r p u s b t,
    parse_string s = Ok b -> plain_bundle r p u b -> unparse_string b = Ok t ->
    exists strip b', strips p strip
      /\ parse_string t = Ok b' /\ reads_back_as strip r (spell_bundle b) b' /\ unparse_string b' = Ok t.
Proof.
  intros r p u s b t HP HT HU. pose proof (parsed_bundle _ _ HP) as HR.
  assert (HW : writable_bundle b) by (apply (writable_iff_bundle b HR); eauto).
  pose proof (printable_spelled_bundle r p u b HR HT HW) as HB.
  assert (HS : strips p (strip_text p)) by (destruct HB as (_ & _ & H1 & H2 & _); apply strip_text_strips; assumption).
  destruct (document_round_trip r p u (strip_text p) _ HS HB) as (t' & b' & H1 & H2 & H3 & H4).
  rewrite us_bundle in H1. assert (t' = t) by congruence. subst t'. eauto 8.
Qed.
(** The same for the command: its output is a fixed point. *)
Theorem C49_passthrough_output_is_stable :
  forall r p u raw s b out,
    utf8_decode raw = Some s -> parse_string s = Ok b -> plain_bundle r p u b ->
    passthrough_reqif raw = Ok out -> passthrough_reqif out = Ok out.
Proof.
  intros r p u raw s b out HD HP HT H. unfold passthrough_reqif in H. rewrite HD in H.
  assert (EU : forall x, parse_string (universal_newlines x) = parse_string x)
    by (intros x; unfold parse_string; rewrite parse_from_string_un; reflexivity).
  rewrite EU, HP in H. cbn [bind] in H. destruct (unparse_string b) as [t|e] eqn:ET; [|discriminate]. cbn [bind] in H.
  destruct (utf8_encode t) as [x|] eqn:EE; [|discriminate]. assert (x = out) by congruence. subst x. clear H.
  destruct (C49_second_pass_changes_nothing r p u s b t HP HT ET) as (strip & b' & _ & H1 & _ & H2).
  unfold passthrough_reqif. rewrite (decode_encode _ _ EE), EU, H1. cbn [bind]. rewrite H2. cbn [bind]. rewrite EE. reflexivity.
Qed.
(** Filling in None changes neither the written text nor the identifiers, and
    nothing at all where the references are present. *)
Theorem C49_absent_references_are_written_as_None :
  forall b, unparse_string (spell_bundle b) = unparse_string b.
Proof. exact us_bundle. Qed.
Theorem C49_present_references_stay :
  forall o s, o = Some s -> spelled o = o.
Proof. intros o s ->. reflexivity. Qed.

(** ** C50: which accepted documents can be written *)
Theorem C50_writable_exactly_when :
  forall s b, parse_string s = Ok b -> ((exists t, unparse_string b = Ok t) <-> writable_bundle b).
Proof. intros s b H. apply writable_iff_bundle, (parsed_bundle _ _ H). Qed.

(** ** Examples *)
(** odd quoting, comments, unknown elements, two empty references and a faulty
    relation *)
Definition settle_text : str :=
  "<?xml version='1.0'?><!-- c -->" ++ [13; 10]%N ++ "<REQ-IF xmlns='http://reqif'  ><THE-HEADER><REQ-IF-HEADER IDENTIFIER='h'/></THE-HEADER><CORE-CONTENT><REQ-IF-CONTENT>"
  ++ "<SPEC-OBJECTS><!-- c --><SPEC-OBJECT LONG-NAME='l' IDENTIFIER='o'><TYPE><SPEC-OBJECT-TYPE-REF/></TYPE><FOO/><VALUES><ATTRIBUTE-VALUE-STRING THE-VALUE='a&lt;b&quot;'>"
  ++ "<DEFINITION><ATTRIBUTE-DEFINITION-STRING-REF>d</ATTRIBUTE-DEFINITION-STRING-REF></DEFINITION></ATTRIBUTE-VALUE-STRING></VALUES></SPEC-OBJECT></SPEC-OBJECTS>"
  ++ "<SPEC-RELATIONS><SPEC-RELATION><TYPE/></SPEC-RELATION></SPEC-RELATIONS>"
  ++ "<SPECIFICATIONS><SPECIFICATION IDENTIFIER='s'><CHILDREN><SPEC-HIERARCHY IDENTIFIER='x'><OBJECT><SPEC-OBJECT-REF/></OBJECT></SPEC-HIERARCHY></CHILDREN></SPECIFICATION></SPECIFICATIONS>"
  ++ "</REQ-IF-CONTENT></CORE-CONTENT></REQ-IF>".
Definition or_empty (r : result bundle) : bundle :=
  match r with Ok b => b | Raise _ => bundle_empty None None end.
Definition settle_bundle : bundle := Eval vm_compute in or_empty (parse_string settle_text).
Definition settle_root : root_tag := RootTag [(None, "http://reqif")] [].
Example C49_example :
  parse_string settle_text = Ok settle_bundle
  /\ plain_bundle settle_root "xhtml" xhtml_uri settle_bundle
  /\ exists t, unparse_string settle_bundle = Ok t /\ contains "<SPEC-OBJECT-REF>None</SPEC-OBJECT-REF>" t = true.
Proof.
  split; [vm_compute; reflexivity|]. split.
  - unfold plain_bundle. split; [apply root_okb_ok; vm_compute; reflexivity|]. split; [vm_compute; reflexivity|]. split; [reflexivity|].
    split; [discriminate|]. split; [reflexivity|]. split; [intros H; vm_compute in H; discriminate|]. split; [|split].
    + intros h E. assert (E' : b_header settle_bundle = Some (Header (Some "h") None None RepoNone None None None None)) by reflexivity.
      assert (h = Header (Some "h") None None RepoNone None None None None) by congruence. subst h. unfold plain_header. cbn. texts. intros r' H. discriminate.
    + intros c E. unfold settle_bundle in E. cbn [b_core_content] in E. assert (E' := f_equal (fun o => match o with Some (Some x) => x | _ => c end) E).
      cbv beta iota in E'. subst c. unfold plain_content.
      cbn [rc_data_types rc_spec_types rc_spec_objects rc_spec_relations rc_specifications rc_spec_relation_groups each].
      split; [exact I|]. split; [exact I|]. split; [|split; [constructor|split; [|exact I]]].
      * constructor; [|constructor]. unfold plain_spec_object, plain_ref. cbn [so_identifier so_spec_object_type so_description so_last_change so_long_name so_attributes when].
        texts. unfold plain_value, plain_ref. cbn [sa_definition_ref sa_value sa_type when]. texts; discriminate.
      * constructor; [|constructor]. unfold plain_specification. cbn [sp_identifier sp_description sp_last_change sp_long_name sp_specification_type sp_values sp_children when each].
        texts. intros x HX. inversion HX as [|h k d HI]; subst; [|cbn in HI; contradiction]. cbn [h_identifier h_spec_object h_long_name h_last_change]. unfold plain_ref. texts.
    + left. discriminate.
  - exists (match unparse_string settle_bundle with Ok t => t | Raise _ => [] end). vm_compute. auto.
Qed.

(** The restriction on texts cannot be dropped: a LONG-NAME containing an
    ampersand is written without escaping and the output is not XML. *)
Theorem C49_unescaped_text_refuted :
  exists s b t, parse_string s = Ok b /\ unparse_string b = Ok t
    /\ parse_string t = Raise EReqIFXMLParsingError.
Proof.
  set (s := "<REQ-IF><CORE-CONTENT><REQ-IF-CONTENT><SPEC-OBJECTS><SPEC-OBJECT IDENTIFIER=""o"" LONG-NAME=""a &amp; b""><VALUES/><TYPE><SPEC-OBJECT-TYPE-REF>t</SPEC-OBJECT-TYPE-REF></TYPE></SPEC-OBJECT></SPEC-OBJECTS></REQ-IF-CONTENT></CORE-CONTENT></REQ-IF>").
  exists s, (or_empty (parse_string s)), (match unparse_string (or_empty (parse_string s)) with Ok t => t | Raise _ => [] end).
  vm_compute. auto.
Qed.
(** Nor can the condition that there is something to keep: a document with
    unknown elements only changes twice. *)
Theorem C49_unknown_elements_only_refuted :
  exists s b t b' t', parse_string s = Ok b /\ unparse_string b = Ok t
    /\ parse_string t = Ok b' /\ unparse_string b' = Ok t' /\ t' <> t.
Proof.
  set (s := "<REQ-IF xmlns=""http://reqif"" version=""1""><FOO/></REQ-IF>").
  set (w := fun b => match unparse_string b with Ok t => t | Raise _ => [] end).
  exists s, (or_empty (parse_string s)), (w (or_empty (parse_string s))), (or_empty (parse_string (w (or_empty (parse_string s))))),
    (w (or_empty (parse_string (w (or_empty (parse_string s)))))).
  vm_compute. repeat split. discriminate.
Qed.

(** C50: each condition can fail *)
Definition writes_back (s : str) : option bool :=
  match parse_string s with
  | Ok b => Some (match unparse_string b with Ok _ => true | Raise _ => false end)
  | Raise _ => None
  end.
Definition object_text (kids : str) : str :=
  "<REQ-IF><CORE-CONTENT><REQ-IF-CONTENT><SPEC-OBJECTS><SPEC-OBJECT IDENTIFIER=""o""><TYPE><SPEC-OBJECT-TYPE-REF>t</SPEC-OBJECT-TYPE-REF></TYPE>"
  ++ kids ++ "</SPEC-OBJECT></SPEC-OBJECTS></REQ-IF-CONTENT></CORE-CONTENT></REQ-IF>".
Definition type_text (kids : str) : str :=
  "<REQ-IF><CORE-CONTENT><REQ-IF-CONTENT><SPEC-TYPES><SPEC-OBJECT-TYPE IDENTIFIER=""o""><SPEC-ATTRIBUTES><ATTRIBUTE-DEFINITION-ENUMERATION IDENTIFIER=""a"">"
  ++ "<TYPE><DATATYPE-DEFINITION-ENUMERATION-REF>t</DATATYPE-DEFINITION-ENUMERATION-REF></TYPE>" ++ kids
  ++ "</ATTRIBUTE-DEFINITION-ENUMERATION></SPEC-ATTRIBUTES></SPEC-OBJECT-TYPE></SPEC-TYPES></REQ-IF-CONTENT></CORE-CONTENT></REQ-IF>".
Definition default_text (definition : str) : str :=
  "<DEFAULT-VALUE><ATTRIBUTE-VALUE-ENUMERATION>" ++ definition ++ "<VALUES><ENUM-VALUE-REF>v</ENUM-VALUE-REF></VALUES></ATTRIBUTE-VALUE-ENUMERATION></DEFAULT-VALUE>".
Definition one_relation_text (kids : str) : str :=
  "<REQ-IF><CORE-CONTENT><REQ-IF-CONTENT><SPEC-RELATIONS><SPEC-RELATION IDENTIFIER=""r""><TYPE><SPEC-RELATION-TYPE-REF>t</SPEC-RELATION-TYPE-REF></TYPE>"
  ++ "<SOURCE><SPEC-OBJECT-REF>a</SPEC-OBJECT-REF></SOURCE><TARGET><SPEC-OBJECT-REF>b</SPEC-OBJECT-REF></TARGET>" ++ kids
  ++ "</SPEC-RELATION></SPEC-RELATIONS></REQ-IF-CONTENT></CORE-CONTENT></REQ-IF>".
Example C50_example :
  map writes_back
    [object_text "<VALUES/>"; object_text ""; object_text "<FOO/><VALUES/>";
     type_text ""; type_text "<!-- c -->"; type_text "<ALTERNATIVE-ID/>";
     type_text (default_text "<DEFINITION><ATTRIBUTE-DEFINITION-ENUMERATION-REF>a</ATTRIBUTE-DEFINITION-ENUMERATION-REF></DEFINITION>");
     type_text (default_text "");
     one_relation_text ""; one_relation_text "<VALUES/>"; one_relation_text "<FOO/>";
     "<REQ-IF/>"; "<REQ-IF xmlns=""u""/>"; "<REQ-IF><THE-HEADER><REQ-IF-HEADER IDENTIFIER=""""/></THE-HEADER></REQ-IF>"]
  = map Some [true; false; true; true; false; false; true; false; true; true; false; false; true; false].
Proof. vm_compute. reflexivity. Qed.

Print Assumptions C49_second_pass_changes_nothing.
Print Assumptions C49_passthrough_output_is_stable.
Print Assumptions C49_absent_references_are_written_as_None.
Print Assumptions C49_unescaped_text_refuted.
Print Assumptions C49_unknown_elements_only_refuted.
Print Assumptions C50_writable_exactly_when.
