(** Prop_Keep.v -- C67: passthrough keeps the document *)
From Verif Require Import Base Xml Lxml Py LxmlStr Models Header Parser Unparser Commands Utf8 SpecPrint SpecParse SpecDocument SpecSettle SpecProgress
  SpecAccept SpecLookup SpecKeep KeepProofs ProgressProofs ParserProofs Utf8Proofs LineProofs
  RT_Document RT_Strip XhtmlScope XhtmlKeep SpecEscape EscapeProofs SpecXhtml SettleProofs SpecTraversal Prop_Parser Prop_RoundTrip Prop_Document Prop_Settle.

Lemma read_parts s b : parse_string s = Ok b -> (b_header b <> None \/ b_core_content b <> None \/ b_tool_extensions b = true) ->
  exists root, document_root s = Some root
    /\ match find_child "THE-HEADER" root with
       | Some n => exists h, parse_header n = Ok h /\ b_header b = Some h
       | None => b_header b = None
       end
    /\ match find_child "CORE-CONTENT" root with
       | None => b_core_content b = None
       | Some n => match find_child "REQ-IF-CONTENT" n with
                   | None => b_core_content b = Some None
                   | Some rc => document_content s = Some rc
                                /\ exists c, b_core_content b = Some (Some c)
                   end
       end
    /\ b_tool_extensions b = match find_child "TOOL-EXTENSIONS" root with Some _ => true | None => false end.
Proof.
  intros H HN. rewrite (proj2 (string_traced s)) in H. unfold pure_string in H. unfold document_root, document_content.
  destruct s as [|x s]; [discriminate|]. destruct (lxml_parse (x :: s)) as [[decl root]|]; [|discriminate].
  unfold pure_reqif in H. destruct (strip_if_namespaced root) as [r|e]; [|discriminate]. cbn [bind] in H.
  destruct (tag_is "REQ-IF" r); [|discriminate]. cbn [negb] in H. destruct (children r) as [|k0 ks].
  { injection H as H. subst b. cbn in HN. exfalso. intuition congruence. }
  exists r. split; [reflexivity|].
  destruct (find_child "THE-HEADER" r) as [hn|]; cbn [bind] in H.
  - destruct (parse_header hn) as [h0|e] eqn:EH; [|discriminate]. cbn [bind] in H.
    destruct (find_child "CORE-CONTENT" r) as [cc|]; [destruct (find_child "REQ-IF-CONTENT" cc) as [rc|]; [destruct (pure_content rc) as [[[ct lk] xs]|e]; [|discriminate]|]|];
      cbn [bind] in H; injection H as H; subst b; cbn [b_header b_core_content b_tool_extensions]; eauto 9.
  - destruct (find_child "CORE-CONTENT" r) as [cc|]; [destruct (find_child "REQ-IF-CONTENT" cc) as [rc|]; [destruct (pure_content rc) as [[[ct lk] xs]|e]; [|discriminate]|]|];
      cbn [bind] in H; injection H as H; subst b; cbn [b_header b_core_content b_tool_extensions]; eauto 9.
Qed.
Lemma all_items {A} (l : option (list A)) : option_map (filter (fun _ => true)) l = l.
Proof. destruct l as [l|]; [|reflexivity]. cbn. f_equal. induction l as [|x l IH]; [reflexivity|]. cbn. rewrite IH. reflexivity. Qed.
Lemma contents_kept M p u strip s t b b' rc rc' c c' : plain_name p = true ->
  parse_string s = Ok b -> document_content s = Some rc -> b_core_content b = Some (Some c) ->
  parse_string t = Ok b' -> document_content t = Some rc' -> b_core_content b' = Some (Some c') ->
  inside false rc -> plain_content (xhtml_default M p u) (xhtml_value M p u) c -> inside (some_scope M) rc' ->
  erase_content c' = normal_content strip (spell_content c) -> content_kept rc rc'.
Proof.
  intros PN P1 D1 C1 P2 D2 C2 IA (_ & Q2 & Q3 & Q4 & Q5 & _) IB E.
  pose proof (rd_st _ (proj1 (proj2 (parsed_bundle _ _ P1)) _ C1)) as READ.
  destruct (C16_sections_are_images_of_their_elements _ _ _ P1 D1) as (d & Q & A1 & A2 & A3 & A4 & A5 & A6).
  destruct (C16_sections_are_images_of_their_elements _ _ _ P2 D2) as (d' & Q' & B1 & B2 & B3 & B4 & B5 & B6).
  unfold bundle_content in Q, Q'. rewrite C1 in Q. rewrite C2 in Q'. injection Q as <-. injection Q' as <-. clear C1 C2 D1 D2 P1 P2.
  unfold erase_content, normal_content, spell_content, map_content in E. cbn [rc_data_types rc_spec_types rc_spec_objects rc_spec_relations rc_specifications rc_spec_relation_groups] in E.
  injection E as E1 E2 E3 E4 E5 E6. rewrite !map_list_map in *.
  unfold content_kept, section_kept, every_node. rewrite !all_items.
  assert (WA : forall X t f (R : node -> X -> Prop) (Q : X -> Prop) o,
     match section_items t rc, o with Some ks, Some l => Forall2 R (filter f ks) l | None, None => True | _, _ => False end -> SpecPrint.each Q o ->
     pairs (input R Q) (option_map (filter f) (section_items t rc)) o).
  { intros X t0 f R Q o H HQ. unfold pairs. destruct (section_items t0 rc) as [ks|] eqn:ES, o as [l|]; try exact H. cbn [option_map].
    apply Forall2_with; [exact H|apply filter_sub, (inside_items _ _ _ _ IA ES)|exact HQ]. }
  assert (WB : forall X t f (R : node -> X -> Prop) o,
     match section_items t rc', o with Some ks, Some l => Forall2 R (filter f ks) l | None, None => True | _, _ => False end ->
     pairs (output M R) (option_map (filter f) (section_items t rc')) o).
  { intros X t0 f R o H. unfold pairs. destruct (section_items t0 rc') as [ks|] eqn:ES, o as [l|]; try exact H. cbn [option_map].
    apply Forall2_with; [exact H|apply filter_sub, (inside_items _ _ _ _ IB ES)|apply Forall_forall; auto]. }
  split; [|split; [|split; [|split; [|split]]]].
  - eapply images_back; [|exact A1|exact B1|exact E1]. cbn. intros n n' a a' X Y Z. subst a'. eapply data_kept; eassumption.
  - eapply pairs_back; [exact (type_kept M p u PN)|apply WA; [exact A2|destruct (rc_spec_types c); [apply Forall_and; assumption|exact I]]|apply WB; exact B2|exact E2].
  - eapply pairs_back; [exact (object_kept M p u PN strip)|apply WA; [exact A3|exact Q3]|apply WB; exact B3|exact E3].
  - eapply pairs_back; [exact (relation_kept M p u PN strip)|apply WA; [|exact Q4]|apply WB|exact E4].
    + destruct (section_items "SPEC-RELATIONS" rc), (rc_spec_relations c); tauto.
    + destruct (section_items "SPEC-RELATIONS" rc'), (rc_spec_relations c'); tauto.
  - eapply images_back; [exact (spec_kept M p u PN strip)|apply (images_with _ _ _ _ _ _ A5 IA Q5)|apply (images_with _ _ (fun _ => True) _ _ _ B5 IB); apply each_true|exact E5].
  - eapply images_back; [|exact A6|exact B6|exact E6]. exact group_kept.
Qed.
Lemma written_scope r p u s b t :
  parse_string s = Ok b -> plain_bundle r p u b -> unparse_string b = Ok t ->
  exists root, document_root t = Some root /\ node_nsmap root = visible r p (uses_markup b).
Proof.
  intros HP HT HU. pose proof (parsed_bundle _ _ HP) as HR.
  assert (HW : writable_bundle b) by (apply (writable_iff_bundle b HR); eauto).
  pose proof (printable_spelled_bundle r p u b HR HT HW) as HB.
  assert (HS : strips p (strip_text p)) by (destruct HB as (_ & _ & H1 & H2 & _); apply strip_text_strips; assumption).
  destruct (document_round_trip_scope r p u (strip_text p) _ HS HB) as (t' & b' & H1 & H2 & _ & _ & root & H3 & H4).
  rewrite us_bundle in H1. assert (t' = t) by congruence. subst t'. exists root. split; [exact H3|]. rewrite H4. f_equal. apply sx_markup.
Qed.
Lemma scoped_inside b m n k : scoped m n -> Forall key_named m -> In k (kids_of n) -> (b = true -> node_nsmap n <> []) -> inside b k.
Proof.
  intros H HM HI HN. destruct H as [c|x|x|ns l d a ks K1 K2 K3 K4]; cbn [kids_of] in HI; try contradiction. cbn [node_nsmap] in HN.
  exists (extend d m). split; [apply extend_named; assumption|]. split; [rewrite Forall_forall in K4; apply K4, HI|exact HN].
Qed.

(** Every accepted document whose texts survive being written: what unparse
    writes for it is a document that has, part by part and in order, everything
    SpecKeep lists -- identifiers, labels, references, flags, numbers, values,
    the content of XHTML values, header fields -- as it was in the document that was read. *)
Theorem C67_unparse_keeps_the_document :
  forall r p u s b t,
    parse_string s = Ok b -> plain_bundle r p u b -> unparse_string b = Ok t ->
    exists root root', document_root s = Some root /\ document_root t = Some root' /\ document_kept root root'.
Proof.
  intros r p u s b t HP HT HU. destruct (C49_second_pass_changes_nothing r p u s b t HP HT HU) as (strip & b' & _ & HP' & (_ & RH & RC & RT & _) & _).
  assert (HN : b_header b <> None \/ b_core_content b <> None \/ b_tool_extensions b = true) by apply HT.
  cbn [spell_bundle b_header b_core_content b_tool_extensions] in RH, RC, RT.
  assert (HN' : b_header b' <> None \/ b_core_content b' <> None \/ b_tool_extensions b' = true).
  { rewrite RH, RT. destruct HN as [HN|[HN|HN]]; [left|right; left|right; right]; auto.
    - destruct (b_header b); [discriminate|congruence].
    - destruct (b_core_content b) as [|]; [|congruence]. destruct (b_core_content b'); [discriminate|discriminate RC]. }
  destruct (read_parts _ _ HP HN) as (root & D & A1 & A2 & A3). destruct (read_parts _ _ HP' HN') as (root' & D' & B1 & B2 & B3).
  destruct (written_scope _ _ _ _ _ _ HP HT HU) as (root'' & D'' & NS).
  exists root, root'. split; [exact D|]. split; [exact D'|]. unfold document_kept, part_kept. cbn [path_node].
  split; [|split; [|split]].
  - destruct (find_child "THE-HEADER" root) as [n|], (find_child "THE-HEADER" root') as [n'|].
    + destruct A1 as (h & A1 & A1'), B1 as (h' & B1 & B1'). eapply headers_kept; [exact A1|exact B1|]. rewrite A1', B1' in RH. cbn in RH. congruence.
    + destruct A1 as (h & A1 & A1'). rewrite A1', B1 in RH. discriminate RH.
    + destruct B1 as (h' & B1 & B1'). rewrite A1, B1' in RH. discriminate RH.
    + exact I.
  - destruct (find_child "CORE-CONTENT" root) as [n|], (find_child "CORE-CONTENT" root') as [n'|]; try exact I.
    + destruct (find_child "REQ-IF-CONTENT" n); [destruct A2 as (_ & c & A2)|]; rewrite A2, B2 in RC; discriminate RC.
    + destruct (find_child "REQ-IF-CONTENT" n'); [destruct B2 as (_ & c & B2)|]; rewrite A2, B2 in RC; discriminate RC.
  - destruct (find_child "CORE-CONTENT" root) as [n|] eqn:E1, (find_child "CORE-CONTENT" root') as [n'|] eqn:E1'; try exact I.
    + destruct (find_child "REQ-IF-CONTENT" n) as [x|] eqn:E2, (find_child "REQ-IF-CONTENT" n') as [x'|] eqn:E2'; try exact I.
      * destruct A2 as (A2 & c & A4), B2 as (B2 & c' & B4). rewrite A4, B4 in RC. cbn [option_map] in RC.
        assert (PN : plain_name p = true) by apply HT. destruct HT as (_ & _ & _ & _ & _ & _ & _ & HC & _). specialize (HC _ A4).
        apply (contents_kept (visible r p (uses_markup b)) p u strip s t b b' x x' c c'); try assumption; [| |congruence].
        -- eapply inside_find; [|exact E2]. eapply (scoped_inside false []); [exact (root_scoped _ _ D)|constructor| |discriminate].
           unfold find_child, find_list in E1. apply find_some in E1. apply E1.
        -- eapply inside_find; [|exact E2']. eapply (scoped_inside _ []); [exact (root_scoped _ _ D')|constructor| |].
           ++ unfold find_child, find_list in E1'. apply find_some in E1'. apply E1'.
           ++ assert (root'' = root') by congruence. subst root''. rewrite NS. unfold some_scope. destruct (visible r p (uses_markup b)); discriminate.
      * destruct A2 as (A2 & c & A4). rewrite A4, B2 in RC. discriminate RC.
      * destruct B2 as (B2 & c & B4). rewrite A2, B4 in RC. discriminate RC.
    + destruct (find_child "REQ-IF-CONTENT" n); [destruct A2 as (_ & c & A2)|]; rewrite A2, B2 in RC; discriminate RC.
    + destruct (find_child "REQ-IF-CONTENT" n'); [destruct B2 as (_ & c & B2)|]; rewrite A2, B2 in RC; discriminate RC.
  - rewrite A3, B3 in RT. destruct (find_child "TOOL-EXTENSIONS" root), (find_child "TOOL-EXTENSIONS" root'); try exact I; discriminate RT.
Qed.

(** The same for the command, on bytes. *)
Theorem C67_passthrough_keeps_the_document :
  forall r p u raw s b out,
    utf8_decode raw = Some s -> parse_string s = Ok b -> plain_bundle r p u b -> passthrough_reqif raw = Ok out ->
    exists t root root', utf8_decode out = Some t
      /\ document_root s = Some root /\ document_root t = Some root' /\ document_kept root root'.
Proof.
  intros r p u raw s b out HD HP HT H. unfold passthrough_reqif in H. rewrite HD in H.
  assert (EU : forall x, parse_string (universal_newlines x) = parse_string x)
    by (intros x; unfold parse_string; rewrite parse_from_string_un; reflexivity).
  rewrite EU, HP in H. cbn [bind] in H. destruct (unparse_string b) as [t|e] eqn:ET; [|discriminate]. cbn [bind] in H.
  destruct (utf8_encode t) as [x|] eqn:EE; [|discriminate]. assert (x = out) by congruence. subst x.
  destruct (C67_unparse_keeps_the_document r p u s b t HP HT ET) as (root & root' & H1 & H2 & H3).
  exists t, root, root'. split; [exact (decode_encode _ _ EE)|]. auto.
Qed.

(** ** Example: every kind of element *)
Definition keep_text : str :=
  "<REQ-IF xmlns='http://reqif'><THE-HEADER><REQ-IF-HEADER IDENTIFIER='h'><COMMENT>c > d</COMMENT><REPOSITORY-ID/><TITLE>t &amp; u</TITLE></REQ-IF-HEADER></THE-HEADER>"
  ++ "<CORE-CONTENT><REQ-IF-CONTENT><DATATYPES><DATATYPE-DEFINITION-STRING MAX-LENGTH='9' IDENTIFIER='d' LONG-NAME='a&lt;b'/>"
  ++ "<DATATYPE-DEFINITION-REAL ACCURACY=' 007 ' MIN='0' MAX='1' IDENTIFIER='dr'/>"
  ++ "<DATATYPE-DEFINITION-ENUMERATION IDENTIFIER='de'><SPECIFIED-VALUES><ENUM-VALUE IDENTIFIER='e'><PROPERTIES><EMBEDDED-VALUE OTHER-CONTENT='x' KEY='1'/></PROPERTIES></ENUM-VALUE></SPECIFIED-VALUES></DATATYPE-DEFINITION-ENUMERATION></DATATYPES>"
  ++ "<SPEC-TYPES><!-- c --><SPEC-OBJECT-TYPE IDENTIFIER='ot'><SPEC-ATTRIBUTES><ATTRIBUTE-DEFINITION-STRING IS-EDITABLE='true' IDENTIFIER='a'>"
  ++ "<TYPE><DATATYPE-DEFINITION-STRING-REF>d</DATATYPE-DEFINITION-STRING-REF></TYPE><DEFAULT-VALUE><ATTRIBUTE-VALUE-STRING THE-VALUE='dv'><DEFINITION><ATTRIBUTE-DEFINITION-STRING-REF>a</ATTRIBUTE-DEFINITION-STRING-REF></DEFINITION></ATTRIBUTE-VALUE-STRING></DEFAULT-VALUE></ATTRIBUTE-DEFINITION-STRING>"
  ++ "<ATTRIBUTE-DEFINITION-ENUMERATION MULTI-VALUED='true' IDENTIFIER='b'><TYPE><DATATYPE-DEFINITION-ENUMERATION-REF/></TYPE></ATTRIBUTE-DEFINITION-ENUMERATION></SPEC-ATTRIBUTES></SPEC-OBJECT-TYPE></SPEC-TYPES>"
  ++ "<SPEC-OBJECTS><SPEC-OBJECT IDENTIFIER='o'><VALUES><ATTRIBUTE-VALUE-ENUMERATION><VALUES><ENUM-VALUE-REF>e</ENUM-VALUE-REF><ENUM-VALUE-REF/></VALUES><DEFINITION><ATTRIBUTE-DEFINITION-ENUMERATION-REF>b</ATTRIBUTE-DEFINITION-ENUMERATION-REF></DEFINITION></ATTRIBUTE-VALUE-ENUMERATION></VALUES><TYPE><SPEC-OBJECT-TYPE-REF>ot</SPEC-OBJECT-TYPE-REF></TYPE></SPEC-OBJECT></SPEC-OBJECTS>"
  ++ "<SPEC-RELATIONS><SPEC-RELATION IDENTIFIER='r'><TARGET><SPEC-OBJECT-REF>o</SPEC-OBJECT-REF></TARGET><SOURCE><SPEC-OBJECT-REF>p</SPEC-OBJECT-REF></SOURCE><TYPE><SPEC-RELATION-TYPE-REF>rt</SPEC-RELATION-TYPE-REF></TYPE></SPEC-RELATION></SPEC-RELATIONS>"
  ++ "<SPECIFICATIONS><SPECIFICATION IDENTIFIER='s'><TYPE><SPECIFICATION-TYPE-REF>st</SPECIFICATION-TYPE-REF></TYPE><CHILDREN><SPEC-HIERARCHY IDENTIFIER='x' IS-EDITABLE='false'><OBJECT><SPEC-OBJECT-REF>o</SPEC-OBJECT-REF></OBJECT><CHILDREN/></SPEC-HIERARCHY></CHILDREN></SPECIFICATION></SPECIFICATIONS>"
  ++ "<SPEC-RELATION-GROUPS><RELATION-GROUP IDENTIFIER='g'><TYPE><RELATION-GROUP-TYPE-REF>gt</RELATION-GROUP-TYPE-REF></TYPE><SPEC-RELATIONS><SPEC-RELATION-REF>r</SPEC-RELATION-REF></SPEC-RELATIONS></RELATION-GROUP></SPEC-RELATION-GROUPS>"
  ++ "</REQ-IF-CONTENT></CORE-CONTENT><TOOL-EXTENSIONS/></REQ-IF>".
Definition keep_bundle : bundle := Eval vm_compute in or_empty (parse_string keep_text).
Definition keep_output : str := Eval vm_compute in match unparse_string keep_bundle with Ok t => t | Raise _ => [] end.
Ltac all_texts := repeat match goal with
  | |- _ /\ _ => split
  | |- Forall _ [] => constructor
  | |- Forall _ (_ :: _) => constructor
  | |- True => exact I
  | |- forall v, _ = _ -> _ => intros ? ?
  | H : DVStr ?x = DVStr ?y |- _ => assert (x = y) by congruence; clear H; subst
  | H : DVNone = DVStr _ |- _ => discriminate H
  | H : RepoEmptyTag = RepoStr _ |- _ => discriminate H
  | H : None = Some _ |- _ => discriminate H
  | |- _ <> _ => discriminate
  end.
Ltac fields := cbn [dt_identifier dt_description dt_last_change dt_long_name ev_identifier ev_key ev_description ev_last_change ev_other_content ev_long_name
  sot_identifier sot_description sot_last_change sot_long_name sot_attribute_definitions ad_type ad_identifier ad_datatype_definition ad_description ad_last_change
  ad_long_name ad_default_value_definition_ref ad_default_value so_identifier so_spec_object_type so_description so_last_change so_long_name so_attributes
  sa_type sa_definition_ref sa_value sr_identifier sr_relation_type_ref sr_source sr_target sr_description sr_last_change sr_long_name sr_values_attribute
  sp_identifier sp_description sp_last_change sp_long_name sp_specification_type sp_values sp_children
  rg_identifier rg_description rg_last_change rg_long_name rg_type_ref rg_source_specification_ref rg_target_specification_ref rg_spec_relations
  when each h_identifier h_spec_object h_long_name h_last_change] in *.
Example C67_example :
  parse_string keep_text = Ok keep_bundle
  /\ plain_bundle settle_root "xhtml" xhtml_uri keep_bundle
  /\ unparse_string keep_bundle = Ok keep_output.
Proof.
  split; [vm_compute; reflexivity|]. split; [|vm_compute; reflexivity].
  unfold plain_bundle. split; [apply root_okb_ok; vm_compute; reflexivity|]. split; [vm_compute; reflexivity|]. split; [reflexivity|].
  split; [discriminate|]. split; [reflexivity|]. split; [intros H; vm_compute in H; discriminate|]. split; [|split].
  - intros h E. unfold keep_bundle in E. cbn [b_header] in E. assert (E' := f_equal (fun o => match o with Some x => x | _ => h end) E).
    cbv beta iota in E'. subst h. unfold plain_header. cbn [hd_identifier hd_comment hd_creation_time hd_repository_id hd_req_if_tool_id hd_req_if_version hd_source_tool_id hd_title when].
    all_texts; texts.
  - intros c E. unfold keep_bundle in E. cbn [b_core_content] in E. assert (E' := f_equal (fun o => match o with Some (Some x) => x | _ => c end) E).
    cbv beta iota in E'. subst c. unfold plain_content.
    cbn [rc_data_types rc_spec_types rc_spec_objects rc_spec_relations rc_specifications rc_spec_relation_groups each].
    clear E. unfold plain_data_type, plain_spec_type, plain_attr_def, plain_spec_object, plain_value, plain_spec_relation, plain_specification,
      plain_relation_group, plain_ref, printable_common, printable_enum_value, type_definitions, items.
    split; [|split; [|split; [|split; [|split]]]]; fields; all_texts; fields; texts; all_texts; fields; texts.
    + injection H as <-. apply plain_text_ok; reflexivity.
    + discriminate H.
    + discriminate H.
    + intros x HX. inversion HX as [|h k d HI]; subst; [|cbn in HI; contradiction]. unfold plain_ref. fields. texts; discriminate.
  - left. discriminate.
Qed.

(** An XHTML value and an XHTML default value *)
Definition keep_root : root_tag :=
  RootTag [(None, "http://reqif"); (Some "xhtml", "http://www.w3.org/1999/xhtml")] [].
Definition xhtml_keep_text : str :=
  "<REQ-IF xmlns='http://reqif' xmlns:xhtml='http://www.w3.org/1999/xhtml'><CORE-CONTENT><REQ-IF-CONTENT><SPEC-TYPES><SPEC-OBJECT-TYPE IDENTIFIER='ot'><SPEC-ATTRIBUTES><ATTRIBUTE-DEFINITION-XHTML IDENTIFIER='a'>"
  ++ "<TYPE><DATATYPE-DEFINITION-XHTML-REF>d</DATATYPE-DEFINITION-XHTML-REF></TYPE><DEFAULT-VALUE><ATTRIBUTE-VALUE-XHTML><THE-VALUE>n<xhtml:br  ></xhtml:br></THE-VALUE><DEFINITION><ATTRIBUTE-DEFINITION-XHTML-REF>a</ATTRIBUTE-DEFINITION-XHTML-REF></DEFINITION></ATTRIBUTE-VALUE-XHTML></DEFAULT-VALUE></ATTRIBUTE-DEFINITION-XHTML></SPEC-ATTRIBUTES></SPEC-OBJECT-TYPE></SPEC-TYPES>"
  ++ "<SPEC-OBJECTS><SPEC-OBJECT IDENTIFIER='o'><TYPE><SPEC-OBJECT-TYPE-REF>ot</SPEC-OBJECT-TYPE-REF></TYPE><VALUES><ATTRIBUTE-VALUE-XHTML><THE-VALUE><q:div xmlns:q='http://www.w3.org/1999/xhtml' class='a&amp;b'>x &lt; y<q:br/></q:div> z</THE-VALUE><DEFINITION><ATTRIBUTE-DEFINITION-XHTML-REF>a</ATTRIBUTE-DEFINITION-XHTML-REF></DEFINITION></ATTRIBUTE-VALUE-XHTML></VALUES></SPEC-OBJECT></SPEC-OBJECTS>"
  ++ "</REQ-IF-CONTENT></CORE-CONTENT></REQ-IF>".
Definition xhtml_keep_bundle : bundle := Eval vm_compute in or_empty (parse_string xhtml_keep_text).
Definition xhtml_keep_output : str := Eval vm_compute in match unparse_string xhtml_keep_bundle with Ok t => t | Raise _ => [] end.
Example C67_xhtml_example :
  parse_string xhtml_keep_text = Ok xhtml_keep_bundle
  /\ plain_bundle keep_root "xhtml" xhtml_uri xhtml_keep_bundle
  /\ unparse_string xhtml_keep_bundle = Ok xhtml_keep_output.
Proof.
  split; [vm_compute; reflexivity|]. split; [|vm_compute; reflexivity].
  unfold plain_bundle. split; [apply root_okb_ok; vm_compute; reflexivity|]. split; [vm_compute; reflexivity|]. split; [reflexivity|].
  split; [discriminate|]. split; [reflexivity|]. split; [intros _; right; left; reflexivity|]. split; [discriminate|]. split; [|right; left; discriminate].
  replace (visible keep_root "xhtml" (uses_markup xhtml_keep_bundle)) with [(Some "xhtml", "http://www.w3.org/1999/xhtml")] by (vm_compute; reflexivity).
  intros c E. unfold xhtml_keep_bundle in E. cbn [b_core_content] in E. assert (E' := f_equal (fun o => match o with Some (Some x) => x | _ => c end) E).
  cbv beta iota in E'. subst c. unfold plain_content.
  cbn [rc_data_types rc_spec_types rc_spec_objects rc_spec_relations rc_specifications rc_spec_relation_groups SpecPrint.each].
  clear E. unfold plain_spec_type, plain_attr_def, plain_spec_object, plain_value, plain_ref, type_definitions, items.
  split; [|split; [|split; [|split; [|split]]]]; fields; all_texts; fields; texts; all_texts; fields; texts.
  - injection H as <-. split; [|discriminate]. exists [XT 110; XE "br" [] []]. split; [|split; [reflexivity|split; [reflexivity|discriminate]]].
    apply forest_okb. reflexivity.
  - exists (XE "div" [("class", "a&b")] (map XT "x < y" ++ [XE "br" [] []]) :: map XT " z"). split; [|split; [reflexivity|split; [reflexivity|discriminate]]].
    apply forest_okb. reflexivity.
Qed.

(** ** What is not kept
    Each pair: a document, what passthrough writes for it, and a fact about the
    tree that the output lost. *)
Definition written (s : str) : str :=
  match parse_string s with Ok b => match unparse_string b with Ok t => t | Raise _ => [] end | Raise _ => [] end.
Definition at_path (path : list str) (s : str) : option node :=
  match document_root s with Some root => path_node path root | None => None end.
Definition attribute_of (path : list str) (k : str) (s : str) : option str :=
  match at_path path s with Some x => attr_opt k x | None => None end.
Definition number_of (path : list str) (s : str) : option nat :=
  option_map (fun n => length (children n)) (at_path path s).
Definition content_path (path : list str) : list str := "CORE-CONTENT" :: "REQ-IF-CONTENT" :: path.
Definition definition_text (k attrs kids : str) : str :=
  "<REQ-IF><CORE-CONTENT><REQ-IF-CONTENT><SPEC-TYPES><SPEC-OBJECT-TYPE IDENTIFIER=""o""><SPEC-ATTRIBUTES><ATTRIBUTE-DEFINITION-" ++ k ++ " IDENTIFIER=""a""" ++ attrs ++ ">"
  ++ "<TYPE><DATATYPE-DEFINITION-" ++ k ++ "-REF>t</DATATYPE-DEFINITION-" ++ k ++ "-REF></TYPE>" ++ kids
  ++ "</ATTRIBUTE-DEFINITION-" ++ k ++ "></SPEC-ATTRIBUTES></SPEC-OBJECT-TYPE></SPEC-TYPES></REQ-IF-CONTENT></CORE-CONTENT></REQ-IF>".

(** "1" is an XML spelling of true; it becomes "false". *)
Theorem C67_flag_spelled_one_refuted :
  exists s, let at_ := content_path ["SPEC-TYPES"; "SPEC-OBJECT-TYPE"; "SPEC-ATTRIBUTES"; "ATTRIBUTE-DEFINITION-STRING"] in
    attribute_of at_ "IS-EDITABLE" s = Some "1" /\ attribute_of at_ "IS-EDITABLE" (written s) = Some "false".
Proof. exists (definition_text "STRING" " IS-EDITABLE=""1""" ""). vm_compute. auto. Qed.
(** Of several default values of an enumeration, and of several values of a
    relation, only the first is written. *)
Theorem C67_further_default_values_refuted :
  exists s, let at_ := content_path ["SPEC-TYPES"; "SPEC-OBJECT-TYPE"; "SPEC-ATTRIBUTES"; "ATTRIBUTE-DEFINITION-ENUMERATION"; "DEFAULT-VALUE"; "ATTRIBUTE-VALUE-ENUMERATION"; "VALUES"] in
    number_of at_ s = Some 2 /\ number_of at_ (written s) = Some 1.
Proof.
  exists (definition_text "ENUMERATION" "" ("<DEFAULT-VALUE><ATTRIBUTE-VALUE-ENUMERATION><DEFINITION><ATTRIBUTE-DEFINITION-ENUMERATION-REF>a</ATTRIBUTE-DEFINITION-ENUMERATION-REF></DEFINITION>"
    ++ "<VALUES><ENUM-VALUE-REF>v</ENUM-VALUE-REF><ENUM-VALUE-REF>w</ENUM-VALUE-REF></VALUES></ATTRIBUTE-VALUE-ENUMERATION></DEFAULT-VALUE>")).
  vm_compute. auto.
Qed.
Theorem C67_further_relation_values_refuted :
  exists s, let at_ := content_path ["SPEC-RELATIONS"; "SPEC-RELATION"; "VALUES"] in
    number_of at_ s = Some 2 /\ number_of at_ (written s) = Some 1.
Proof.
  set (v := "<ATTRIBUTE-VALUE-STRING THE-VALUE=""x""><DEFINITION><ATTRIBUTE-DEFINITION-STRING-REF>d</ATTRIBUTE-DEFINITION-STRING-REF></DEFINITION></ATTRIBUTE-VALUE-STRING>").
  exists (one_relation_text ("<VALUES>" ++ v ++ v ++ "</VALUES>")). vm_compute. auto.
Qed.
(** The content of TOOL-EXTENSIONS, elements that are not known and relations
    without SOURCE are dropped. *)
Theorem C67_tool_extensions_refuted :
  exists s, number_of ["TOOL-EXTENSIONS"] s = Some 1 /\ number_of ["TOOL-EXTENSIONS"] (written s) = Some 0.
Proof. exists "<REQ-IF><TOOL-EXTENSIONS><REQ-IF-TOOL-EXTENSION/></TOOL-EXTENSIONS></REQ-IF>". vm_compute. auto. Qed.
Theorem C67_alternative_id_refuted :
  exists s, let at_ := content_path ["SPEC-OBJECTS"; "SPEC-OBJECT"; "ALTERNATIVE-ID"] in
    at_path at_ s <> None /\ at_path (content_path ["SPEC-OBJECTS"; "SPEC-OBJECT"]) (written s) <> None /\ at_path at_ (written s) = None.
Proof. exists (object_text "<ALTERNATIVE-ID IDENTIFIER=""i""/><VALUES/>"). vm_compute. repeat split; discriminate. Qed.
Theorem C67_incomplete_relation_refuted :
  exists s, let at_ := content_path ["SPEC-RELATIONS"] in number_of at_ s = Some 1 /\ number_of at_ (written s) = Some 0.
Proof.
  exists "<REQ-IF><CORE-CONTENT><REQ-IF-CONTENT><SPEC-RELATIONS><SPEC-RELATION IDENTIFIER=""r""><TYPE/></SPEC-RELATION></SPEC-RELATIONS></REQ-IF-CONTENT></CORE-CONTENT></REQ-IF>".
  vm_compute. auto.
Qed.

(** Without a namespace in scope, text that looks like markup becomes markup. *)
Theorem C67_escaped_markup_refuted :
  exists s, let at_ := content_path ["SPEC-OBJECTS"; "SPEC-OBJECT"; "VALUES"; "ATTRIBUTE-VALUE-XHTML"; "THE-VALUE"] in
    number_of at_ s = Some 0 /\ number_of at_ (written s) = Some 1.
Proof.
  exists (object_text ("<VALUES><ATTRIBUTE-VALUE-XHTML><THE-VALUE>&lt;br/&gt;</THE-VALUE><DEFINITION><ATTRIBUTE-DEFINITION-XHTML-REF>d</ATTRIBUTE-DEFINITION-XHTML-REF></DEFINITION></ATTRIBUTE-VALUE-XHTML></VALUES>")).
  vm_compute. auto.
Qed.
(** Every element of an XHTML value gets the first prefix, and so its namespace. *)
Theorem C67_namespace_changed_refuted :
  exists s, let at_ := content_path ["SPEC-OBJECTS"; "SPEC-OBJECT"; "VALUES"; "ATTRIBUTE-VALUE-XHTML"; "THE-VALUE"] in
    option_map child_tags (at_path at_ s) = Some [Some "{http://b}br"]
    /\ option_map child_tags (at_path at_ (written s)) = Some [Some "{http://www.w3.org/1999/xhtml}br"].
Proof.
  exists ("<REQ-IF xmlns:a=""http://www.w3.org/1999/xhtml"" xmlns:b=""http://b""><CORE-CONTENT><REQ-IF-CONTENT><SPEC-OBJECTS><SPEC-OBJECT IDENTIFIER=""o""><TYPE><SPEC-OBJECT-TYPE-REF>t</SPEC-OBJECT-TYPE-REF></TYPE>"
    ++ "<VALUES><ATTRIBUTE-VALUE-XHTML><THE-VALUE><b:br/></THE-VALUE><DEFINITION><ATTRIBUTE-DEFINITION-XHTML-REF>d</ATTRIBUTE-DEFINITION-XHTML-REF></DEFINITION></ATTRIBUTE-VALUE-XHTML></VALUES>"
    ++ "</SPEC-OBJECT></SPEC-OBJECTS></REQ-IF-CONTENT></CORE-CONTENT></REQ-IF>").
  vm_compute. auto.
Qed.

Print Assumptions C67_unparse_keeps_the_document.
Print Assumptions C67_passthrough_keeps_the_document.
Print Assumptions C67_flag_spelled_one_refuted.
Print Assumptions C67_further_default_values_refuted.
Print Assumptions C67_further_relation_values_refuted.
Print Assumptions C67_tool_extensions_refuted.
Print Assumptions C67_alternative_id_refuted.
Print Assumptions C67_incomplete_relation_refuted.
Print Assumptions C67_escaped_markup_refuted.
Print Assumptions C67_namespace_changed_refuted.

(** ** XHTML values that are not stringified faithfully (beside C44) *)
Definition xhtml_text (decls v : str) : str :=
  "<REQ-IF" ++ decls ++ "><CORE-CONTENT><REQ-IF-CONTENT><SPEC-OBJECTS><SPEC-OBJECT IDENTIFIER=""o""><TYPE><SPEC-OBJECT-TYPE-REF>t</SPEC-OBJECT-TYPE-REF></TYPE>"
  ++ "<VALUES><ATTRIBUTE-VALUE-XHTML><THE-VALUE>" ++ v ++ "</THE-VALUE><DEFINITION><ATTRIBUTE-DEFINITION-XHTML-REF>d</ATTRIBUTE-DEFINITION-XHTML-REF></DEFINITION></ATTRIBUTE-VALUE-XHTML></VALUES>"
  ++ "</SPEC-OBJECT></SPEC-OBJECTS></REQ-IF-CONTENT></CORE-CONTENT></REQ-IF>".
Definition declared : str := " xmlns:xhtml=""http://www.w3.org/1999/xhtml""".
Definition first_values (b : bundle) : list attr_value :=
  match b_core_content b with
  | Some (Some c) => match rc_spec_objects c with Some (o :: _) => map sa_value (so_attributes o) | _ => [] end
  | _ => []
  end.
(** An attribute with a prefix, such as xml:lang, is written with its namespace in
    braces; the output is not XML. *)
Theorem C44_prefixed_attribute_refuted :
  exists s b t, parse_string s = Ok b
    /\ first_values b = [VStr "<xhtml:p {http://www.w3.org/XML/1998/namespace}lang=""en"">a</xhtml:p>"]
    /\ unparse_string b = Ok t /\ parse_string t = Raise EReqIFXMLParsingError.
Proof.
  exists (xhtml_text declared "<xhtml:p xml:lang=""en"">a</xhtml:p>"). eexists. eexists.
  split; [vm_compute; reflexivity|]. split; [vm_compute; reflexivity|]. split; [vm_compute; reflexivity|]. vm_compute. reflexivity.
Qed.
(** A comment in an XHTML value is kept if no namespace is in scope; otherwise the
    document is rejected, and not with the error of the library. *)
Theorem C44_comment_refuted :
  exists v b e, parse_string (xhtml_text "" v) = Ok b /\ first_values b = [VStr v]
    /\ parse_string (xhtml_text declared v) = Raise e /\ e <> EReqIFXMLParsingError.
Proof.
  exists "<p>a<!-- c -->b</p>". eexists. eexists.
  split; [vm_compute; reflexivity|]. split; [vm_compute; reflexivity|]. split; [vm_compute; reflexivity|]. discriminate.
Qed.
(** An empty object keeps its closing tag only without a prefix. *)
Theorem C44_empty_object_refuted :
  exists b b', parse_string (xhtml_text "" "<object></object>") = Ok b /\ first_values b = [VStr "<object></object>"]
    /\ parse_string (xhtml_text declared "<xhtml:object></xhtml:object>") = Ok b' /\ first_values b' = [VStr "<xhtml:object/>"].
Proof.
  eexists. eexists. split; [vm_compute; reflexivity|]. split; [vm_compute; reflexivity|]. split; [vm_compute; reflexivity|]. vm_compute. reflexivity.
Qed.
(** Namespace names are written as they were read, so "&amp;" in one is lost (beside C32). *)
Theorem C32_ampersand_in_a_namespace_refuted :
  exists s b t, parse_string s = Ok b /\ unparse_string b = Ok t /\ parse_string t = Raise EReqIFXMLParsingError.
Proof.
  exists (xhtml_text " xmlns:h=""http://h?a&amp;b""" "x"). eexists. eexists.
  split; [vm_compute; reflexivity|]. split; [vm_compute; reflexivity|]. vm_compute. reflexivity.
Qed.
Print Assumptions C44_prefixed_attribute_refuted.
Print Assumptions C44_comment_refuted.
Print Assumptions C44_empty_object_refuted.
Print Assumptions C32_ampersand_in_a_namespace_refuted.
