(** Prop_Parser.v -- C08, C15, C16, C17, C18: what parsing yields and rejects *)
From Verif Require Import Base Xml Utf8 Lxml Py LxmlStr Models AttrDef DataType Header AttrValue SpecObj
  Hierarchy SpecTypes Progress Parser SpecTraversal SpecProgress SpecLookup SpecParse
  DictProofs ProgressProofs TraversalProofs ParserProofs FaithProofs ParserErrors IsolationProofs Prop_Lookup.

(** The REQ-IF-CONTENT reader without a callback. *)
Definition parse_content (n : node) : result (content * lookup * list exn) :=
  snd (parse_reqif_content None n []).
Lemma parse_content_pure n : parse_content n = pure_content n.
Proof. exact (proj2 (content_traced n)). Qed.
Lemma parsed_content s b rc :
  parse_string s = Ok b -> document_content s = Some rc ->
  exists c, bundle_content b = Some c /\ content_facts rc c (b_lookup b) (b_exceptions b).
Proof.
  intros H HC. apply parse_string_content in H. rewrite HC in H. destruct H as (c & E & F).
  exists c. split; [|exact F]. unfold bundle_content. rewrite E. reflexivity.
Qed.
Lemma parsed_content_eq s b rc :
  parse_string s = Ok b -> document_content s = Some rc ->
  exists c, bundle_content b = Some c /\ parse_content rc = Ok (c, b_lookup b, b_exceptions b).
Proof.
  intros H HC. rewrite parse_content_pure. rewrite (proj2 (string_traced s)) in H.
  unfold pure_string, document_content in *.
  destruct s as [|x s]; [discriminate|]. destruct (lxml_parse (x :: s)) as [[decl root]|]; [|discriminate].
  unfold pure_reqif in H. destruct (strip_if_namespaced root) as [r|e]; [|discriminate]. cbn [bind] in H.
  destruct (tag_is "REQ-IF" r); [|discriminate]. cbn [negb] in H.
  destruct (find_child "CORE-CONTENT" r) as [cc|] eqn:EC; [|discriminate].
  destruct (children r) as [|k0 ks] eqn:EK; [exfalso; apply (find_child_children _ _ _ EC EK)|].
  destruct (match find_child "THE-HEADER" r with
            | Some h => let! x0 := parse_header h in Ok (Some x0) | None => Ok None end) as [hd|e]; [|discriminate].
  cbn [bind] in H. rewrite HC in H.
  destruct (pure_content rc) as [[[ct lk] xs]|e]; [|discriminate]. cbn in H. injection H as <-.
  exists ct. split; reflexivity.
Qed.
Lemma spec_in {A} (f : content -> option (list A)) b c x :
  bundle_content b = Some c -> In x (b_list f b) -> exists l, f c = Some l /\ In x l.
Proof.
  unfold b_list. intros ->. unfold olist. destruct (f c) as [l|]; [eauto|intros []].
Qed.

Lemma mapM_in {A B} (f : A -> result B) l l' x :
  mapM f l = Ok l' -> In x l -> exists y, f x = Ok y.
Proof.
  intros HM HI. apply mapM_Ok in HM. induction HM as [|a y l l' Hy _ IH]; [destruct HI|].
  destruct HI as [->|HI]; eauto.
Qed.
Lemma Forall2_in {A B} (R : A -> B -> Prop) l l' x : Forall2 R l l' -> In x l -> exists y, R x y.
Proof.
  intros HM HI. induction HM as [|a y l l' Hy _ IH]; [destruct HI|].
  destruct HI as [->|HI]; eauto.
Qed.

(** ** C08 *)
(** In a parsed document the hierarchy nodes directly under a specification
    have level 1 and the children of a node of level n have level n+1. *)
Theorem C08_levels_equal_nesting_depth :
  forall s b sp, parse_string s = Ok b -> In sp (specifications_of b) ->
    Forall (leveled 1) (olist (sp_children sp)).
Proof.
  intros s b sp H HI. pose proof (parse_string_content _ _ H) as F.
  destruct (document_content s) as [rc|].
  - destruct F as (c & E & F). pose proof (cf_sp _ _ _ _ F) as S.
    destruct (spec_in rc_specifications b c sp) as (l & EL & HI'); [|exact HI|].
    { unfold bundle_content. rewrite E. reflexivity. }
    unfold sec_facts in S. destruct (find_child "SPECIFICATIONS" rc) as [x|]; [|congruence].
    destruct S as (l' & E' & HM). rewrite EL in E'. injection E' as <-.
    apply mapM_Ok in HM. clear -HM HI'. induction HM as [|n y ks ys Hy _ IH]; [destruct HI'|].
    destruct HI' as [->|HI']; [apply parse_specification_leveled in Hy; exact Hy|auto].
  - exfalso. unfold specifications_of, b_list, bundle_content in HI.
    destruct F as ([E|E] & _); rewrite E in HI; destruct HI.
Qed.

(** ** C16 *)
(** Each list of the parsed content is the in-order image of its section.
    Comments are skipped in SPEC-TYPES and SPEC-OBJECTS; relations without
    SOURCE or TARGET are reported in [exceptions] instead, in order. *)
Theorem C16_sections_are_images_of_their_elements :
  forall s b rc, parse_string s = Ok b -> document_content s = Some rc ->
    exists c, bundle_content b = Some c
      /\ images "DATATYPES" data_type_of rc (rc_data_types c)
      /\ match section_items "SPEC-TYPES" rc, rc_spec_types c with
         | Some ks, Some l => Forall2 spec_type_of (no_comments ks) l
         | None, None => True | _, _ => False end
      /\ match section_items "SPEC-OBJECTS" rc, rc_spec_objects c with
         | Some ks, Some l => Forall2 spec_object_of (no_comments ks) l
         | None, None => True | _, _ => False end
      /\ match section_items "SPEC-RELATIONS" rc, rc_spec_relations c with
         | Some ks, Some l => Forall2 spec_relation_of (filter (fun k => negb (incomplete k)) ks) l
                              /\ b_exceptions b = flat_map report ks
         | None, None => b_exceptions b = []
         | _, _ => False end
      /\ images "SPECIFICATIONS" specification_of rc (rc_specifications c)
      /\ images "SPEC-RELATION-GROUPS" relation_group_of rc (rc_spec_relation_groups c).
Proof.
  intros s b rc H HC. destruct (parsed_content _ _ _ H HC) as (c & E & F). exists c. split; [exact E|].
  destruct F as [_ Hdt Hst Hsp Hsr Hso Hrg _]. unfold sec_facts, images, section_items in *.
  split; [|split; [|split; [|split; [|split]]]].
  - destruct (find_child "DATATYPES" rc) as [x|]; cbn; [|rewrite Hdt; exact I].
    destruct Hdt as (l & -> & HM). eapply mapM_Forall2; [|exact HM]. apply data_type_faithful.
  - destruct (find_child "SPEC-TYPES" rc) as [x|]; cbn; [|rewrite Hst; exact I].
    destruct Hst as (l & -> & ol & HM & ->). eapply catSomes_Forall2; [| |exact HM].
    + apply spec_type_none.
    + apply spec_type_faithful.
  - destruct (find_child "SPEC-OBJECTS" rc) as [x|]; cbn; [|rewrite Hso; exact I].
    destruct Hso as (l & -> & ol & HM & ->). eapply catSomes_Forall2; [| |exact HM].
    + apply object_item_none.
    + intros n o Hn. apply object_item_faithful in Hn. tauto.
  - destruct Hsr as (ol & HM & HX). destruct (find_child "SPEC-RELATIONS" rc) as [x|]; cbn.
    + destruct HM as [-> HM]. apply relations_report in HM. destruct HM as [H1 H2].
      split; [exact H1|congruence].
    + destruct HM as [-> ->]. exact HX.
  - destruct (find_child "SPECIFICATIONS" rc) as [x|]; cbn; [|rewrite Hsp; exact I].
    destruct Hsp as (l & -> & HM). eapply mapM_Forall2; [|exact HM].
    intros n y Hn. apply specification_faithful, Hn.
  - destruct (find_child "SPEC-RELATION-GROUPS" rc) as [x|]; cbn; [|rewrite Hrg; exact I].
    destruct Hrg as (l & -> & HM). eapply mapM_Forall2; [|exact HM].
    intros n y Hn. apply relation_group_faithful, Hn.
Qed.
Theorem C16_without_content_element :
  forall s b, parse_string s = Ok b -> document_content s = None ->
    bundle_content b = None /\ b_exceptions b = [].
Proof.
  intros s b H HC. apply parse_string_content in H. rewrite HC in H. unfold bundle_content.
  destruct H as ([-> | ->] & _ & ->); auto.
Qed.

(** ** C15 *)
(** Reading a REQ-IF-CONTENT element is reading it with the faulty relations
    removed, plus one report per faulty relation, in order. *)
Theorem C15_faulty_relations_are_isolated :
  forall rc,
    parse_content rc =
    match parse_content (drop_faulty rc) with
    | Ok (c, lk, _) => Ok (c, lk, flat_map report (faulty_relations rc))
    | Raise e => Raise e
    end.
Proof. intros rc. rewrite !parse_content_pure. apply content_drop. Qed.
Theorem C15_no_faults_no_reports :
  forall rc c lk xs, parse_content (drop_faulty rc) = Ok (c, lk, xs) -> xs = [].
Proof. intros rc c lk xs. rewrite parse_content_pure. apply content_drop_quiet. Qed.
(** The same of whole documents. *)
Theorem C15_document :
  forall s b rc, parse_string s = Ok b -> document_content s = Some rc ->
    b_exceptions b = flat_map report (faulty_relations rc)
    /\ exists c, bundle_content b = Some c
         /\ parse_content (drop_faulty rc) = Ok (c, b_lookup b, [])
         /\ match section_items "SPEC-RELATIONS" rc, rc_spec_relations c with
            | Some ks, Some l => Forall2 spec_relation_of (filter (fun k => negb (faulty k)) ks) l
            | None, None => True | _, _ => False end.
Proof.
  intros s b rc H HC. destruct (parsed_content_eq _ _ _ H HC) as (c & E & P).
  destruct (parsed_content _ _ _ H HC) as (c' & E' & F). rewrite E in E'. injection E' as <-.
  pose proof (C15_faulty_relations_are_isolated rc) as I. rewrite P in I.
  destruct (parse_content (drop_faulty rc)) as [[[c' lk] xs]|e] eqn:ED; [|discriminate].
  pose proof (C15_no_faults_no_reports _ _ _ _ ED) as ->. injection I as -> -> EX.
  split; [exact EX|]. exists c'. split; [exact E|]. split; [reflexivity|].
  destruct (cf_sr _ _ _ _ F) as (ol & HM & _). unfold section_items.
  destruct (find_child "SPEC-RELATIONS" rc) as [x|]; cbn; [|destruct HM as [-> _]; exact Logic.I].
  destruct HM as [-> HM]. pose proof (items_split (children x)) as S.
  destruct (mapM relation_item (filter _ (children x))) as [l'|e].
  - destruct S as (_ & FF & l & E1 & E2 & _). rewrite HM in E1. injection E1 as <-. rewrite E2.
    clear -FF. induction FF as [|n r ks l Hn _ IH]; constructor; [|exact IH].
    apply spec_relation_faithful, Hn.
  - rewrite HM in S. discriminate.
Qed.

(** ** C17 *)
Lemma values_of_supported n o : values_of n o -> values_supported n.
Proof.
  unfold values_of, values_supported, every. intros HV ks v E HI. rewrite E in HV.
  destruct o as [l|]; [|contradiction]. unfold or_comment.
  destruct (is_comment v) eqn:EC; [reflexivity|]. cbn.
  assert (HI' : In v (no_comments ks)) by (apply filter_In; rewrite EC; auto).
  destruct (Forall2_in _ _ _ _ HV HI') as [y Hy]. eapply attr_value_supported, Hy.
Qed.
Lemma comment_section t n : is_comment n = true -> section_items t n = None.
Proof. destruct n; try discriminate. reflexivity. Qed.
Lemma supported_content rc c lk xs : content_facts rc c lk xs -> supported rc.
Proof.
  intros [_ Hdt Hst Hsp Hsr Hso Hrg _]. unfold sec_facts in *.
  constructor; unfold every at 1, section_items at 1; intros ks k E HI;
    match type of E with option_map _ ?f = _ => destruct f as [x|]; [|discriminate] end; injection E as <-.
  - destruct Hdt as (l & _ & HM). destruct (mapM_in _ _ _ _ HM HI) as [y Hy].
    eapply data_type_supported, data_type_faithful, Hy.
  - destruct Hst as (l & _ & ol & HM & _). destruct (mapM_in _ _ _ _ HM HI) as [y Hy].
    unfold or_comment. destruct y as [t|].
    + apply spec_type_faithful in Hy. destruct Hy as [-> Hy]. cbn. split; [eapply spec_type_supported, Hy|].
      assert (IM : exists o, images "SPEC-ATTRIBUTES" attr_def_of k o) by (destruct t; eexists; apply Hy).
      destruct IM as (o & IM). unfold images in IM. intros as_ a EA HA. rewrite EA in IM.
      destruct o as [l'|]; [|contradiction]. destruct (Forall2_in _ _ _ _ IM HA) as [y Hya].
      eapply attr_def_supported, Hya.
    + apply spec_type_none in Hy. rewrite Hy. split; [reflexivity|].
      intros as_ a EA. rewrite comment_section in EA by exact Hy. discriminate.
  - destruct Hso as (l & _ & ol & HM & _). destruct (mapM_in _ _ _ _ HM HI) as [y Hy].
    unfold or_comment. destruct y as [o|].
    + apply object_item_faithful in Hy. destruct Hy as (-> & -> & _ & _ & Hy). split; [reflexivity|].
      apply (values_of_supported k (match section_items "VALUES" k with Some _ => Some (so_attributes o) | None => None end)).
      unfold values_of. destruct (section_items "VALUES" k); [exact Hy|exact Logic.I].
    + apply object_item_none in Hy. rewrite Hy. split; [reflexivity|].
      intros as_ a EA. rewrite comment_section in EA by exact Hy. discriminate.
  - destruct Hsr as (ol & [_ HM] & _). destruct (mapM_in _ _ _ _ HM HI) as [y Hy].
    destruct y as [r|e].
    + apply inl_item, spec_relation_faithful in Hy. destruct Hy as (_ & Hy). split; [apply tag_is_eq, Hy|].
      intros _ v more EV. destruct Hy as (_ & _ & _ & _ & _ & Hy). unfold relation_values_of in Hy. rewrite EV in Hy.
      destruct (sr_values_attribute r) as [a|]; [|contradiction]. eapply relation_value_supported, Hy.
    + destruct (faulty k) eqn:F; [|destruct (sound_item _ _ F Hy); discriminate].
      unfold faulty in F. rewrite !andb_true_iff in F. split; [apply F|].
      intros N. destruct F as [[_ F] _]. congruence.
  - destruct Hsp as (l & _ & HM). destruct (mapM_in _ _ _ _ HM HI) as [y Hy].
    apply specification_faithful in Hy. destruct Hy as (H1 & _ & _ & H2 & H3).
    split; [exact H1|]. split; [eapply values_of_supported, H3|].
    destruct (last_section "CHILDREN" k) as [hs|]; [|exact Logic.I]. destruct (sp_children y) as [l'|]; [|contradiction].
    clear -H2. induction H2; constructor; [eapply hier_of_supported; eassumption|assumption].
  - destruct Hrg as (l & _ & HM). destruct (mapM_in _ _ _ _ HM HI) as [y Hy].
    apply relation_group_faithful in Hy. apply Hy.
Qed.
(** A document with an unsupported element anywhere in its content does not
    parse. *)
Theorem C17_unsupported_elements_are_rejected :
  forall s rc, document_content s = Some rc -> ~ supported rc ->
    exists e, parse_string s = Raise e.
Proof.
  intros s rc HC HN. destruct (parse_string s) as [b|e] eqn:E; [|eauto].
  exfalso. apply HN. destruct (parsed_content _ _ _ E HC) as (c & _ & F). eapply supported_content, F.
Qed.

(** ** C18 *)
Theorem C18_empty_input :
  forall cb h, parse_from_string cb [] h = (h, Raise EReqIFXMLParsingError).
Proof. reflexivity. Qed.
Theorem C18_malformed_input :
  forall cb s h, lxml_parse s = None -> parse_from_string cb s h = (h, Raise EReqIFXMLParsingError).
Proof. intros cb [|x s] h H; [reflexivity|]. unfold parse_from_string. rewrite H. reflexivity. Qed.
Theorem C18_wrong_root :
  forall cb s h decl root, lxml_parse s = Some (decl, root) -> pi_free root = true -> ~ reqif_root root ->
    parse_from_string cb s h = (h, Raise EReqIFXMLParsingError).
Proof.
  intros cb [|x s] h decl root H P N; [reflexivity|]. unfold parse_from_string. rewrite H.
  unfold parse_reqif.
  assert (E : exists r, strip_if_namespaced root = Ok r).
  { unfold strip_if_namespaced. destruct (ns_get _ None); [|eauto].
    destruct (strip_total root false P) as [m ->]. eauto. }
  destruct E as [r E]. rewrite E. unfold mbind, lift. cbn [bind].
  destruct (tag_is "REQ-IF" r) eqn:T; [|reflexivity].
  exfalso. apply N. apply (root_tag _ _ E), T.
Qed.
(** The exception is raised in these cases only. *)
Theorem C18_raised_only_then :
  forall s, parse_string s = Raise EReqIFXMLParsingError ->
    s = [] \/ lxml_parse s = None
    \/ exists decl root, lxml_parse s = Some (decl, root) /\ ~ reqif_root root.
Proof.
  intros s H. rewrite (proj2 (string_traced s)) in H. unfold pure_string in H.
  destruct s as [|x s]; [left; reflexivity|]. right.
  destruct (lxml_parse (x :: s)) as [[decl root]|]; [|left; reflexivity]. right. exists decl, root.
  split; [reflexivity|]. intros R. unfold pure_reqif in H.
  destruct (strip_if_namespaced root) as [r|e] eqn:E.
  2: { unfold strip_if_namespaced in E. destruct (ns_get _ None); [|discriminate].
       destruct (strip_ns false root); [discriminate|]. injection E as <-. discriminate. }
  cbn [bind] in H. apply (root_tag _ _ E) in R. rewrite R in H. cbn [negb] in H.
  destruct (children r); [discriminate|].
  match type of H with ?r = _ => assert (X : nx r); [|specialize (X _ H); discriminate] end.
  apply nx_bind; [destruct (find_child "THE-HEADER" r); nx; apply nx_header|]. intros hd _.
  apply nx_bind; [|intros [[? ?] ?] _; apply nx_ok].
  destruct (find_child "CORE-CONTENT" r) as [cc|]; [|apply nx_ok].
  destruct (find_child "REQ-IF-CONTENT" cc) as [rc|]; [|apply nx_ok].
  apply nx_bind; [apply nx_content|intros [[? ?] ?] _; apply nx_ok].
Qed.

(** ** Cases *)
Definition wrap (s : str) : str :=
  "<REQ-IF><CORE-CONTENT><REQ-IF-CONTENT>" ++ s ++ "</REQ-IF-CONTENT></CORE-CONTENT></REQ-IF>".
Definition hier_text (i kids : str) : str :=
  "<SPEC-HIERARCHY IDENTIFIER=""" ++ i ++ """><OBJECT><SPEC-OBJECT-REF>o</SPEC-OBJECT-REF></OBJECT>" ++ kids ++ "</SPEC-HIERARCHY>".
Definition kids_text (s : str) : str := "<CHILDREN>" ++ s ++ "</CHILDREN>".
Definition relation_text (i parts : str) : str :=
  "<SPEC-RELATION IDENTIFIER=""" ++ i ++ """><TYPE><SPEC-RELATION-TYPE-REF>rt</SPEC-RELATION-TYPE-REF></TYPE>"
  ++ parts ++ "</SPEC-RELATION>".
Definition source_text : str := "<SOURCE><SPEC-OBJECT-REF>o1</SPEC-OBJECT-REF></SOURCE>".
Definition target_text : str := "<TARGET><SPEC-OBJECT-REF>o2</SPEC-OBJECT-REF></TARGET>".
Definition outcome {A} (r : result A) : option exn := match r with Ok _ => None | Raise e => Some e end.
Definition missing (e : exn) : option str := match e with EMissingTag _ t => Some t | _ => None end.

(** C08: three levels *)
Example C08_example :
  with_bundle (wrap ("<SPECIFICATIONS><SPECIFICATION IDENTIFIER=""s"">"
     ++ kids_text (hier_text "a" (kids_text (hier_text "b" (kids_text (hier_text "c" [])) ++ hier_text "d" [])) ++ hier_text "e" [])
     ++ "</SPECIFICATION></SPECIFICATIONS>"))
    (fun b => map (fun h => (h_identifier h, h_level h))
                  (flat_map (fun sp => fpreorder (olist (sp_children sp))) (specifications_of b)))
  = Some [("a", 1); ("b", 2); ("c", 3); ("d", 2); ("e", 1)].
Proof. vm_compute. reflexivity. Qed.

(** C15, C16: two faulty relations between sound ones *)
Definition faulty_text : str :=
  wrap ("<SPEC-RELATIONS>" ++ relation_text "r1" (source_text ++ target_text)
        ++ relation_text "r2" target_text ++ relation_text "r3" source_text
        ++ relation_text "r4" (source_text ++ target_text) ++ "</SPEC-RELATIONS>").
Example C15_example :
  with_bundle faulty_text (fun b => (map sr_identifier (relations_of b), map missing (b_exceptions b)))
  = Some (["r1"; "r4"], [Some "SOURCE"; Some "TARGET"])
  /\ option_map (fun rc => length (faulty_relations rc)) (document_content faulty_text) = Some 2.
Proof. vm_compute. auto. Qed.
(** A processing instruction inside a faulty relation aborts parsing: the error
    report cannot be formatted. *)
Theorem C15_pi_in_faulty_relation_refuted :
  exists s, (exists rc ks k, document_content s = Some rc /\ section_items "SPEC-RELATIONS" rc = Some ks
                             /\ In k ks /\ tag_is "SPEC-RELATION" k = true /\ lacks k = Some "TARGET")
            /\ parse_string s = Raise EValueError.
Proof.
  exists (wrap ("<SPEC-RELATIONS>" ++ relation_text "r" (source_text ++ "<?x?>") ++ "</SPEC-RELATIONS>")).
  split; [|vm_compute; reflexivity].
  do 3 eexists. split; [vm_compute; reflexivity|]. split; [vm_compute; reflexivity|].
  split; [left; reflexivity|]. split; vm_compute; reflexivity.
Qed.
(** Removing the faulty relation from the text of the document is not the same
    as ignoring it: when it holds the only use of a declared namespace, the
    other values are read differently without it. *)
Definition ns_doc (rel : str) : str :=
  "<REQ-IF xmlns=""u"" xmlns:xhtml=""http://www.w3.org/1999/xhtml""><CORE-CONTENT><REQ-IF-CONTENT>"
  ++ "<SPEC-OBJECTS><SPEC-OBJECT IDENTIFIER=""o""><TYPE><SPEC-OBJECT-TYPE-REF>t</SPEC-OBJECT-TYPE-REF></TYPE><VALUES>"
  ++ "<ATTRIBUTE-VALUE-XHTML><DEFINITION><ATTRIBUTE-DEFINITION-XHTML-REF>d</ATTRIBUTE-DEFINITION-XHTML-REF></DEFINITION>"
  ++ "<THE-VALUE>a &amp; b</THE-VALUE></ATTRIBUTE-VALUE-XHTML></VALUES></SPEC-OBJECT></SPEC-OBJECTS>"
  ++ "<SPEC-RELATIONS>" ++ rel ++ "</SPEC-RELATIONS></REQ-IF-CONTENT></CORE-CONTENT></REQ-IF>".
Theorem C15_removed_from_the_text_refuted :
  exists s s' b b',
    parse_string s = Ok b /\ parse_string s' = Ok b'
    /\ (exists rel, s = ns_doc rel /\ s' = ns_doc []) /\ length (b_exceptions b) = 1 /\ relations_of b = []
    /\ map (fun o => map sa_value (so_attributes o)) (spec_objects_of b)
       <> map (fun o => map sa_value (so_attributes o)) (spec_objects_of b').
Proof.
  exists (ns_doc (relation_text "r" (source_text ++ "<xhtml:p/>"))), (ns_doc []).
  do 2 eexists. split; [vm_compute; reflexivity|]. split; [vm_compute; reflexivity|].
  split; [eauto|]. split; [reflexivity|]. split; [reflexivity|]. vm_compute. discriminate.
Qed.

Example C16_example :
  with_bundle (wrap ("<SPEC-OBJECTS><!-- c --><SPEC-OBJECT IDENTIFIER=""o1"" DESC=""d""><TYPE><SPEC-OBJECT-TYPE-REF>t</SPEC-OBJECT-TYPE-REF></TYPE>"
      ++ "<VALUES><!-- c --><ATTRIBUTE-VALUE-DATE THE-VALUE=""v""><DEFINITION><ATTRIBUTE-DEFINITION-DATE-REF>x</ATTRIBUTE-DEFINITION-DATE-REF></DEFINITION></ATTRIBUTE-VALUE-DATE></VALUES>"
      ++ "</SPEC-OBJECT><SPEC-OBJECT IDENTIFIER=""o2""><TYPE><SPEC-OBJECT-TYPE-REF/></TYPE></SPEC-OBJECT></SPEC-OBJECTS>"
      ++ "<DATATYPES><DATATYPE-DEFINITION-REAL IDENTIFIER=""r"" ACCURACY="" 7 ""/></DATATYPES>"))
    (fun b => (map (fun o => (so_identifier o, so_description o, so_spec_object_type o, map sa_value (so_attributes o)))
                   (spec_objects_of b), data_types_of b))
  = Some ([("o1", Some "d", Some "t", [VStr "v"]); ("o2", None, None, [])],
          [DTReal (DTC "r" None None None true) (Some 7%Z) None None]).
Proof. vm_compute. reflexivity. Qed.

(** C17: an unknown element deep in a hierarchy, an unknown definition, an
    unknown relation value *)
Example C17_example :
  map (fun s => outcome (parse_string (wrap s)))
    ["<SPECIFICATIONS><SPECIFICATION IDENTIFIER=""s"">" ++ kids_text (hier_text "a" (kids_text "<FOO/>")) ++ "</SPECIFICATION></SPECIFICATIONS>";
     "<SPEC-TYPES><SPEC-OBJECT-TYPE IDENTIFIER=""t""><SPEC-ATTRIBUTES><FOO IDENTIFIER=""a""/></SPEC-ATTRIBUTES></SPEC-OBJECT-TYPE></SPEC-TYPES>";
     "<SPEC-RELATIONS>" ++ relation_text "r" (source_text ++ target_text ++ "<VALUES><ATTRIBUTE-VALUE-DATE/></VALUES>") ++ "</SPEC-RELATIONS>"]
  = [Some EAssertionError; Some ENotImplementedError; Some ENotImplementedError].
Proof. vm_compute. reflexivity. Qed.
(** Two kinds of foreign elements are accepted: in SPEC-OBJECTS any element
    whose tag merely contains SPEC-OBJECT, and in the VALUES of a relation
    anything after the first child. *)
Theorem C17_look_alike_tag_refuted :
  exists s b rc k, document_content s = Some rc /\ parse_string s = Ok b
    /\ section_items "SPEC-OBJECTS" rc = Some [k] /\ tag k = Some "X-SPEC-OBJECTIVE"
    /\ map so_identifier (spec_objects_of b) = ["o"].
Proof.
  exists (wrap "<SPEC-OBJECTS><X-SPEC-OBJECTIVE IDENTIFIER=""o""><TYPE><SPEC-OBJECT-TYPE-REF>t</SPEC-OBJECT-TYPE-REF></TYPE></X-SPEC-OBJECTIVE></SPEC-OBJECTS>").
  do 3 eexists. split; [vm_compute; reflexivity|]. split; [vm_compute; reflexivity|].
  split; [vm_compute; reflexivity|]. split; vm_compute; reflexivity.
Qed.
Theorem C17_later_relation_value_refuted :
  exists s b rc k, document_content s = Some rc /\ parse_string s = Ok b
    /\ section_items "SPEC-RELATIONS" rc = Some [k]
    /\ option_map (map tag) (section_items "VALUES" k) = Some [Some "ATTRIBUTE-VALUE-STRING"; Some "FOO"]
    /\ b_exceptions b = [].
Proof.
  exists (wrap ("<SPEC-RELATIONS>" ++ relation_text "r" (source_text ++ target_text
    ++ "<VALUES><ATTRIBUTE-VALUE-STRING THE-VALUE=""v""><DEFINITION><ATTRIBUTE-DEFINITION-STRING-REF>d</ATTRIBUTE-DEFINITION-STRING-REF></DEFINITION></ATTRIBUTE-VALUE-STRING><FOO/></VALUES>")
    ++ "</SPEC-RELATIONS>")).
  do 3 eexists. split; [vm_compute; reflexivity|]. split; [vm_compute; reflexivity|].
  split; [vm_compute; reflexivity|]. split; vm_compute; reflexivity.
Qed.

Example C18_example :
  map (fun s => outcome (parse_string s))
      ["<REQ-IF>"; "<REQ-IF><a></b></REQ-IF>"; "<html><body/></html>"; "<x:REQ-IF xmlns:x=""u""><a/></x:REQ-IF>"; "hello"]
  = repeat (Some EReqIFXMLParsingError) 5
  /\ outcome (parse_string "<REQ-IF/>") = None.
Proof. vm_compute. auto. Qed.
(** With a default namespace and a processing instruction inside, a document
    with the wrong root is rejected with another exception. *)
Theorem C18_wrong_root_with_pi_refuted :
  exists s decl root, lxml_parse s = Some (decl, root) /\ ~ reqif_root root
    /\ parse_string s = Raise ETypeError.
Proof.
  exists "<html xmlns=""u""><?x?></html>". do 2 eexists. split; [vm_compute; reflexivity|].
  split; [|vm_compute; reflexivity]. cbn. intros [H _]. discriminate.
Qed.

Print Assumptions C08_levels_equal_nesting_depth.
Print Assumptions C15_faulty_relations_are_isolated.
Print Assumptions C15_no_faults_no_reports.
Print Assumptions C15_document.
Print Assumptions C15_pi_in_faulty_relation_refuted.
Print Assumptions C15_removed_from_the_text_refuted.
Print Assumptions C16_sections_are_images_of_their_elements.
Print Assumptions C16_without_content_element.
Print Assumptions C17_unsupported_elements_are_rejected.
Print Assumptions C17_look_alike_tag_refuted.
Print Assumptions C17_later_relation_value_refuted.
Print Assumptions C18_empty_input.
Print Assumptions C18_malformed_input.
Print Assumptions C18_wrong_root.
Print Assumptions C18_raised_only_then.
Print Assumptions C18_wrong_root_with_pi_refuted.
