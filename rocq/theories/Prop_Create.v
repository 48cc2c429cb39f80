(** Prop_Create.v -- C72: documents built by a program *)
From Verif Require Import Base Xml Lxml Py Models LxmlStr Create Progress Parser Unparser SpecEscape SpecXhtml SpecPrint SpecDocument SpecCreate
  ProgressProofs ParserProofs RT Frag RT_Xhtml RT_Document Prop_RoundTrip Prop_Document.

(** ** The program *)
Definition make_data_type (q : ask_data_type) : data_type :=
  match q with
  | AskString i => create_string i
  | AskBoolean i => create_boolean i
  | AskEnumeration i vs => create_enumeration i (option_map (map (fun v => create_enum_value (fst v) (snd v))) vs)
  end.
Definition make_definition (q : ask_definition) : attr_def :=
  create_definition (ask_kind q) (ask_definition_id q) (ask_data_type_ref q) (ask_definition_name q) (ask_multi q).
Definition make_type (q : ask_type) : spec_type :=
  STObject (create_object_type (ask_type_id q) (ask_type_name q) (ask_type_desc q) (ask_type_change q)
              (option_map (map make_definition) (ask_definitions q))).
Definition make_value (q : ask_value) : spec_attr :=
  match q with
  | AskText r v => create_value AT_STRING r (VStr v)
  | AskPlain k r v => create_value k r (VStr v)
  | AskXhtml r f => create_value AT_XHTML r (VStr (show "xhtml" f))
  | AskChoice r l => create_value AT_ENUMERATION r (VList (map Some l))
  end.
Definition make_object (q : ask_object) : spec_object :=
  create_object (ask_object_id q) (ask_object_type q) (map make_value (ask_values q)).
Definition make_bundle (ds : list ask_data_type) (ts : list ask_type) (os : list ask_object) : bundle :=
  Bundle namespace_info_default None
    (Some (Some (Content (Some (map make_data_type ds)) (Some (map make_type ts)) (Some (map make_object os)) None None None)))
    false lookup_empty [].

(** ** It can be written *)
Definition default_root : root_tag := root_of_fields namespace_info_default.
Lemma fair_printable_data_type q : fair_data_type q -> printable_data_type (make_data_type q).
Proof.
  destruct q as [i|i|i vs]; cbn; intros H; [repeat split; exact H|repeat split; exact H|]. destruct H as [H1 H2].
  split; [repeat split; exact H1|]. split; [|discriminate]. destruct vs as [vs|]; [|exact I]. cbn in *.
  induction H2 as [|v vs [HA HB] _ IH]; constructor; [|exact IH]. repeat split; assumption.
Qed.
Lemma fair_ref s : reference s -> ref_ok (Some s).
Proof. intros [H1 H2]. exists s. auto. Qed.
Lemma fair_printable_definition D q : fair_definition q -> printable_attr_def D (make_definition q).
Proof.
  intros (H1 & H2 & H3 & H4). unfold printable_attr_def, make_definition, create_definition, printable_default, ad_order, order_of.
  cbn [ad_identifier ad_datatype_definition ad_description ad_last_change ad_long_name ad_type ad_multi_valued ad_default_value ad_xml_node when].
  repeat match goal with |- _ /\ _ => split end; auto using fair_ref; try exact I.
  - constructor; [left; reflexivity|constructor; [right; reflexivity|constructor]].
  - right. left. reflexivity.
  - intros H. destruct H. reflexivity.
Qed.
Lemma fair_printable_type D q : fair_type q -> printable_spec_type D (make_type q).
Proof.
  intros (H1 & H2 & H3 & H4 & H5). unfold printable_spec_type, make_type, create_object_type.
  cbn [sot_identifier sot_description sot_last_change sot_long_name sot_attribute_definitions].
  repeat match goal with |- _ /\ _ => split end; auto. destruct (ask_definitions q) as [l|]; [|exact I]. cbn in *.
  clear - H5. induction H5; constructor; [apply fair_printable_definition; assumption|assumption].
Qed.
Lemma fair_printable_value (V : str -> Prop) q :
  (forall r f, q = AskXhtml r f -> V (show "xhtml" f)) -> fair_value q -> printable_value V (make_value q).
Proof.
  intros HV. destruct q as [r v|k r v|r f|r l]; unfold fair_value, printable_value, make_value, create_value, value_order, order_of;
    cbn [sa_type sa_definition_ref sa_value sa_xml_node].
  - intros [H1 H2]. split; [apply fair_ref; exact H1|exact H2].
  - intros (H1 & H2 & H3). split; [apply fair_ref; exact H1|]. cbn [In] in H3. destruct H3 as [<-|[<-|[<-|[<-|[]]]]]; exact H2.
  - intros (H1 & _). split; [apply fair_ref; exact H1|]. eapply HV. reflexivity.
  - intros (H1 & H2). split; [apply fair_ref; exact H1|]. split; [|split; [left; reflexivity|right; left; reflexivity]].
    clear - H2. induction H2; constructor; [apply fair_ref; assumption|assumption].
Qed.
Lemma markup_used ds ts os o r f :
  Forall fair_object os -> In o os -> In (AskXhtml r f) (ask_values o) -> uses_markup (make_bundle ds ts os) = true.
Proof.
  intros HF HO HI. unfold uses_markup, bundle_xhtml, make_bundle, content_xhtml.
  cbn [b_core_content rc_spec_types rc_spec_objects rc_spec_relations rc_specifications items].
  apply existsb_exists. exists (show "xhtml" f). split.
  - apply in_or_app. right. apply in_or_app. left. apply in_flat_map. exists (make_value (AskXhtml r f)). split; [|left; reflexivity].
    apply in_flat_map. exists (make_object o). split; [apply in_map; exact HO|]. unfold make_object, create_object. cbn [so_attributes].
    apply in_map. exact HI.
  - rewrite show_markup. rewrite Forall_forall in HF. destruct (HF _ HO) as (_ & _ & HV). rewrite Forall_forall in HV.
    apply (HV _ HI).
Qed.
Lemma made_printable ds ts os :
  Forall fair_data_type ds -> Forall fair_type ts -> Forall fair_object os ->
  printable_bundle default_root "xhtml" "http://www.w3.org/1999/xhtml" (make_bundle ds ts os).
Proof.
  intros HD HT HO. unfold printable_bundle. set (M := visible _ _ _).
  split; [apply root_okb_ok; vm_compute; reflexivity|].
  split; [split; [reflexivity|split; [left; discriminate|constructor]]|].
  split; [reflexivity|]. split; [discriminate|]. split; [reflexivity|]. split; [intros _; right; left; reflexivity|].
  split; [discriminate|]. split; [|right; left; discriminate].
  intros c E. unfold make_bundle in E. cbn [b_core_content] in E.
  assert (E' := f_equal (fun o => match o with Some (Some x) => x | _ => c end) E). cbv beta iota in E'. subst c. clear E.
  unfold printable_content. cbn [rc_data_types rc_spec_types rc_spec_objects rc_spec_relations rc_specifications rc_spec_relation_groups each].
  repeat match goal with |- _ /\ _ => split end; try exact I.
  - clear - HD. induction HD; constructor; [apply fair_printable_data_type; assumption|assumption].
  - apply Forall_map. revert HT. apply Forall_impl. intros a. apply fair_printable_type.
  - rewrite Forall_forall. intros x HX. apply in_map_iff in HX. destruct HX as (o & <- & HIN).
    pose proof HO as HO'. rewrite Forall_forall in HO'. destruct (HO' _ HIN) as (H1 & H2 & H3).
    unfold printable_spec_object, make_object, create_object, so_order, order_of.
    cbn [so_identifier so_spec_object_type so_description so_last_change so_long_name so_attributes so_xml_node when].
    repeat match goal with |- _ /\ _ => split end; auto using fair_ref; try exact I; [|left; reflexivity|right; left; reflexivity].
    rewrite Forall_forall. intros a HA. apply in_map_iff in HA. destruct HA as (q & <- & HQ). rewrite Forall_forall in H3.
    apply fair_printable_value; [|apply H3; exact HQ]. intros r f ->.
    assert (EM : M = [(Some "xhtml", "http://www.w3.org/1999/xhtml")]).
    { unfold M. rewrite (markup_used ds ts os o r f HO HIN HQ). vm_compute. reflexivity. }
    exists f. destruct (H3 _ HQ) as (_ & HF & _). split; [exact HF|]. split; [reflexivity|]. rewrite EM. split; [reflexivity|discriminate].
Qed.

(** ** What is read is what was asked for *)
Lemma map_both {A B C} (f : A -> C) (g : B -> C) l l' : map f l = map g l' -> Forall2 (fun x y => f x = g y) l l'.
Proof.
  revert l'. induction l as [|x l IH]; intros [|y l'] H; try discriminate; constructor; cbn [map] in H.
  - exact (f_equal (hd (f x)) H).
  - apply IH. exact (f_equal (@tl C) H).
Qed.
Lemma both_map {A B C} (h : A -> B) (R : B -> C -> Prop) (R' : A -> C -> Prop) l l' :
  (forall x y, R (h x) y -> R' x y) -> Forall2 (fun y x => R x y) l' (map h l) -> Forall2 R' l l'.
Proof.
  intros HR. revert l'. induction l as [|x l IH]; intros l' H; inversion H; subst; constructor; auto.
Qed.
Lemma definition_back q a : erase_attr_def a = normal_attr_def (make_definition q) -> definition_as_asked q a.
Proof.
  destruct a. unfold erase_attr_def, normal_attr_def, make_definition, create_definition, definition_as_asked. cbn. intros H.
  injection H as -> -> -> -> -> -> -> -> -> ->. repeat split.
Qed.
Lemma type_back q t : erase_spec_type t = normal_spec_type (make_type q) -> type_as_asked q t.
Proof.
  unfold make_type, create_object_type, normal_spec_type. cbn [map_spec_type settle_spec_type sot_identifier sot_description sot_last_change sot_long_name sot_attribute_definitions].
  destruct t as [o|o|o|o]; intros H; try discriminate. exists o. split; [reflexivity|]. destruct o as [i d c n l]. unfold erase_spec_type in H.
  cbn [map_spec_type sot_identifier sot_description sot_last_change sot_long_name sot_attribute_definitions] in H |- *.
  injection H as -> -> -> -> H. repeat match goal with |- _ /\ _ => split end; try reflexivity.
  destruct (ask_definitions q) as [ql|], l as [l|]; cbn [map_list option_map] in H; try discriminate; [|exact I].
  assert (H' : map erase_attr_def l = map normal_attr_def (map make_definition ql)) by congruence. cbn [both_lists].
  apply map_both in H'. eapply both_map; [|exact H']. intros x y. apply definition_back.
Qed.
Lemma value_back strip q a : erase_value a = normal_value strip (make_value q) -> value_as_asked q a.
Proof.
  destruct a as [t r v s n]. unfold erase_value, normal_value. cbn [sa_type sa_definition_ref sa_value sa_value_stripped_xhtml]. intros H.
  assert (H1 := f_equal sa_type H). assert (H2 := f_equal sa_definition_ref H). assert (H3 := f_equal sa_value H). clear H.
  destruct q; unfold make_value, create_value, value_as_asked in *; cbn [sa_type sa_definition_ref sa_value] in *; auto.
Qed.
Lemma object_back strip q o : erase_spec_object o = normal_spec_object strip (make_object q) -> object_as_asked q o.
Proof.
  destruct o as [i l t d c n x]. unfold erase_spec_object, normal_spec_object, make_object, create_object, object_as_asked.
  cbn [so_identifier so_attributes so_spec_object_type so_description so_last_change so_long_name]. intros H.
  assert (H1 := f_equal so_identifier H). assert (H2 := f_equal so_spec_object_type H). assert (H3 := f_equal so_description H).
  assert (H4 := f_equal so_last_change H). assert (H5 := f_equal so_long_name H). assert (H6 := f_equal so_attributes H).
  cbn [so_identifier so_attributes so_spec_object_type so_description so_last_change so_long_name drop_empty] in *. clear H.
  repeat match goal with |- _ /\ _ => split end; auto. apply map_both in H6. eapply both_map; [|exact H6]. intros y z. apply value_back.
Qed.
Lemma data_type_back q d : d = normal_data_type (make_data_type q) -> data_type_as_asked q d.
Proof.
  intros ->. destruct q as [i|i|i vs]; cbn; repeat split; destruct vs as [vs|]; cbn; try exact I; try reflexivity.
  - f_equal. rewrite map_map. rewrite <- (map_id vs) at 2. apply map_ext. intros [a b]. reflexivity.
  - rewrite Forall_forall. intros v HV. apply in_map_iff in HV. destruct HV as (w & <- & _). repeat split.
Qed.
Theorem C72_built_documents_are_read_as_asked_for :
  forall ds ts os, Forall fair_data_type ds -> Forall fair_type ts -> Forall fair_object os ->
    exists t b' c, unparse_string (make_bundle ds ts os) = Ok t /\ parse_string t = Ok b'
      /\ b_core_content b' = Some (Some c) /\ b_exceptions b' = [] /\ b_header b' = None
      /\ both_lists data_type_as_asked (Some ds) (rc_data_types c)
      /\ both_lists type_as_asked (Some ts) (rc_spec_types c)
      /\ both_lists object_as_asked (Some os) (rc_spec_objects c)
      /\ rc_spec_relations c = None /\ rc_specifications c = None /\ rc_spec_relation_groups c = None.
Proof.
  intros ds ts os HD HT HO. destruct (C29_document_round_trip _ _ _ _ (made_printable ds ts os HD HT HO)) as (strip & t & b' & _ & H1 & H2 & (_ & RH & RC & _ & RE)).
  unfold make_bundle in RC, RH. cbn [b_core_content b_header option_map] in RC, RH.
  destruct (b_core_content b') as [[c|]|] eqn:EC; try discriminate. cbn [option_map] in RC.
  assert (R : erase_content c = normal_content strip (Content (Some (map make_data_type ds)) (Some (map make_type ts)) (Some (map make_object os)) None None None)) by congruence.
  clear RC. unfold erase_content, normal_content, map_content in R.
  assert (R1 := f_equal rc_data_types R). assert (R2 := f_equal rc_spec_types R). assert (R3 := f_equal rc_spec_objects R).
  assert (R4 := f_equal rc_spec_relations R). assert (R5 := f_equal rc_specifications R). assert (R6 := f_equal rc_spec_relation_groups R). clear R.
  cbn [rc_data_types rc_spec_types rc_spec_objects rc_spec_relations rc_specifications rc_spec_relation_groups] in *.
  exists t, b', c. split; [exact H1|]. split; [exact H2|]. split; [exact EC|]. split; [exact RE|]. split; [exact RH|].
  unfold map_list in *. cbn [option_map] in *.
  split; [|split; [|split; [|split; [|split]]]].
  - destruct (rc_data_types c) as [l|]; [|discriminate]. cbn [option_map both_lists] in *.
    assert (E : map (fun x => x) l = map normal_data_type (map make_data_type ds)) by congruence.
    apply map_both in E. eapply both_map; [|exact E]. intros x y. apply data_type_back.
  - destruct (rc_spec_types c) as [l|]; [|discriminate]. cbn [option_map both_lists] in *.
    assert (E : map erase_spec_type l = map normal_spec_type (map make_type ts)) by congruence.
    apply map_both in E. eapply both_map; [|exact E]. intros x y. apply type_back.
  - destruct (rc_spec_objects c) as [l|]; [|discriminate]. cbn [option_map both_lists] in *.
    assert (E : map erase_spec_object l = map (normal_spec_object strip) (map make_object os)) by congruence.
    apply map_both in E. eapply both_map; [|exact E]. intros x y. apply object_back.
  - destruct (rc_spec_relations c); [discriminate|reflexivity].
  - destruct (rc_specifications c); [discriminate|reflexivity].
  - destruct (rc_spec_relation_groups c); [discriminate|reflexivity].
Qed.

(** ** The empty bundle
    With neither a namespace nor a configuration it cannot be written.  Otherwise,
    if these are URI references that can stand in the opening tag, it is read back
    exactly. *)
Theorem C72_empty_bundle :
  unparse_string (bundle_empty None None) = Raise EAssertionError
  /\ forall ns cfg, ns <> None \/ cfg <> None ->
       (forall s, ns = Some s -> decl_ok (None, s)) -> (forall s, cfg = Some s -> decl_ok (Some "configuration", s)) ->
       exists t, unparse_string (bundle_empty ns cfg) = Ok t /\ parse_string t = Ok (bundle_empty ns cfg).
Proof.
  split; [reflexivity|]. intros ns cfg HN H1 H2. set (r := root_of_fields (namespace_info_empty ns cfg)).
  assert (ED : rt_decls r = SpecDocument.given (fun s => (None, s)) ns ++ SpecDocument.given (fun s => (Some "configuration", s)) cfg).
  { unfold r, root_of_fields. cbn [rt_decls ni_namespace ni_schema_namespace ni_configuration ni_namespace_id ni_namespace_xhtml namespace_info_empty SpecDocument.given app].
    rewrite app_nil_r. reflexivity. }
  assert (EA : rt_attrs r = []) by reflexivity.
  assert (HR : root_ok r).
  { unfold root_ok, declared_prefixes. rewrite ED, EA. split; [|split; [|split; [|split; constructor]]].
    - destruct ns, cfg; cbn; repeat constructor; cbn; intuition discriminate.
    - destruct ns, cfg; cbn; repeat constructor; cbn; intuition discriminate.
    - apply Forall_app. split; [destruct ns|destruct cfg]; cbn; constructor; auto. }
  assert (HW : writes_root (namespace_info_empty ns cfg) r).
  { split; [reflexivity|]. rewrite ED, EA. split; [|constructor]. left. destruct ns, cfg; cbn; try discriminate. destruct HN; congruence. }
  set (body := fws nl). set (t := ("<?xml version=""1.0"" encoding=""UTF-8""?>" ++ nl) ++ root_text r ++ f_str body ++ "</REQ-IF>" ++ nl).
  assert (GB : good "xhtml" "http://www.w3.org/1999/xhtml" body) by (apply good_ws; reflexivity).
  destruct (root_nons r HR _ _ body GB) as (kids & K1 & K2); [discriminate|].
  assert (EP : lxml_parse t = Some (Some xml_decl, root_node r kids)).
  { unfold lxml_parse, t. rewrite read_document; [|exact HR|apply GB]. cbn [d_root d_decl]. rewrite (root_resolve r HR kids); [reflexivity|exact K1]. }
  exists t. split.
  - rewrite (proj2 (unparse_traced _)). unfold pure_unparse, bundle_empty. cbn [b_namespace_info b_header b_core_content b_tool_extensions].
    rewrite (writes_root_text _ _ HW). cbn [bind]. f_equal. unfold t, body. cbn [fws ftxt f_str]. strs.
  - rewrite (proj2 (string_traced t)). unfold pure_string. rewrite EP.
    assert (ES : exists c0 s0, t = c0 :: s0) by (unfold t; eexists; eexists; reflexivity). destruct ES as (c0 & s0 & ->).
    unfold pure_reqif. rewrite K2. cbn [bind]. change (tag_is "REQ-IF" (nons_node r "xhtml" body)) with true. cbn [negb].
    assert (EC : children (nons_node r "xhtml" body) = []).
    { unfold nons_node, children. cbn [kids_of]. fold (elements (f_n body (visible r "xhtml" (f_use body)))). unfold body. cbn [fws ftxt f_n]. apply elements_chr. }
    rewrite EC. unfold nons_node. rewrite info_ok by exact HR. unfold info_of, uri_of. rewrite ED.
    cbn [ni_namespace ni_configuration]. destruct ns, cfg; reflexivity.
Qed.

(** ** Examples *)
Definition asked_types : list ask_data_type := [AskString "ds"; AskBoolean "db"; AskEnumeration "de" (Some [("v1", "1"); ("v2", "2")])].
Definition asked_objects : list ask_object :=
  [AskObject "o1" "t" [AskText "a" "x < y & z"; AskPlain AT_INTEGER "n" "7"; AskChoice "e" ["v1"; "v2"]; AskXhtml "h" [XE "p" [] [XT 97; XT 60]]];
   AskObject "o2" "t" []].
Definition asked_object_types : list ask_type :=
  [AskType "t" (Some "A & B") None (Some "2024")
     (Some [AskDefinition AT_STRING "a" "ds" (Some "Text") None; AskDefinition AT_ENUMERATION "e" "de" None (Some true)])].
Ltac fair := repeat (texts; match goal with
  | |- fair_data_type _ => unfold fair_data_type
  | |- fair_type _ => unfold fair_type; cbn [ask_type_id ask_type_name ask_type_desc ask_type_change ask_definitions]
  | |- fair_definition _ => unfold fair_definition; cbn [ask_kind ask_definition_id ask_data_type_ref ask_definition_name ask_multi]
  | |- fair_object _ => unfold fair_object; cbn [ask_object_id ask_object_type ask_values]
  | |- fair_value _ => unfold fair_value
  | |- reference _ => unfold reference
  | |- attr_raw (fst _) => cbn [fst]
  | |- attr_raw (snd _) => cbn [snd]
  | |- forest_ok _ => apply forest_okb; reflexivity
  | |- ?k <> ?k -> _ => let H := fresh in intros H; destruct H; reflexivity
  | |- _ <> _ -> _ => intros _
  end).
Example C72_example :
  Forall fair_data_type asked_types /\ Forall fair_type asked_object_types /\ Forall fair_object asked_objects
  /\ exists t, unparse_string (make_bundle asked_types asked_object_types asked_objects) = Ok t.
Proof.
  unfold asked_types, asked_object_types, asked_objects. split; [|split; [|split; [|eexists; vm_compute; reflexivity]]].
  - fair.
  - fair.
  - fair.
Qed.
(** Identifiers are not escaped: with "&" in one, what is written is not XML. *)
Theorem C72_any_identifier_refuted :
  exists q t, unparse_string (make_bundle [] [] [q]) = Ok t /\ parse_string t = Raise EReqIFXMLParsingError.
Proof. exists (AskObject "a&b" "t" []). eexists. split; [vm_compute; reflexivity|]. vm_compute. reflexivity. Qed.
Example C72_empty_example :
  decl_ok (None, "http://www.omg.org/spec/ReqIF/20110401/reqif.xsd")
  /\ unparse_string (bundle_empty (Some "http://www.omg.org/spec/ReqIF/20110401/reqif.xsd") None)
     = Ok ("<?xml version=""1.0"" encoding=""UTF-8""?>" ++ nl ++ "<REQ-IF xmlns=""http://www.omg.org/spec/ReqIF/20110401/reqif.xsd"">" ++ nl ++ "</REQ-IF>" ++ nl).
Proof.
  split; [|vm_compute; reflexivity].
  assert (H : root_ok default_root) by (apply root_okb_ok; vm_compute; reflexivity). destruct H as (_ & _ & H & _). inversion H. assumption.
Qed.
Print Assumptions C72_built_documents_are_read_as_asked_for.
Print Assumptions C72_empty_bundle.
Print Assumptions C72_any_identifier_refuted.
