(** Prop_Document.v -- C29 ... C32, C38, C44, C45: whole documents, the opening
    tag, archives and XHTML content *)
From Verif Require UriProofs.
From Verif Require Import Base Xml Utf8 Lxml Py LxmlStr Models AttrDef DataType Header AttrValue SpecObj Hierarchy
  SpecTypes Parser Unparser BundleModel Zip XmlProofs XmlChars DictProofs SpecEscape EscapeProofs SpecPrint SpecXhtml SpecTraversal
  SpecDocument SpecRoundTrip SpecLookup SpecIdentifiers SpecZip ProgressProofs ParserProofs Frag RT RT_Header RT_DataType RT_AttrDef RT_SpecTypes RT_Values RT_Objects
  RT_Hier RT_Xhtml RT_Content RT_Document RT_Strip RT_Tag RT_Public RT_OneLine Prop_Lookup Prop_Zip Prop_RoundTrip.

(** ** Tools for the examples *)
Definition root_valueb (s : str) : bool :=
  forallb (fun c => is_xml_char c && N.ltb c 128 && negb (existsb (N.eqb c) [9; 10; 13; 34; 38; 60; 62]%N)) s.
Lemma root_valueb_ok s : root_valueb s = true -> root_value s.
Proof.
  unfold root_valueb, root_value. rewrite forallb_forall, Forall_forall. intros H c Hc. specialize (H c Hc).
  rewrite !andb_true_iff, negb_true_iff in H. destruct H as [[H1 H2] H3]. split; [exact H1|]. split; [apply N.ltb_lt, H2|].
  intros HI. assert (existsb (N.eqb c) [9; 10; 13; 34; 38; 60; 62]%N = true) by (apply existsb_exists; exists c; split; [exact HI|apply N.eqb_refl]). congruence.
Qed.
Definition ascii_nameb (s : str) : bool := plain_name s && forallb (fun c => N.ltb c 128) s.
Lemma ascii_nameb_ok s : ascii_nameb s = true -> ascii_name s.
Proof.
  unfold ascii_nameb, ascii_name. rewrite andb_true_iff, forallb_forall, Forall_forall. intros [H1 H2]. split; [exact H1|].
  intros c Hc. apply N.ltb_lt, H2, Hc.
Qed.
Lemma not_eqb a b : negb (str_eqb a b) = true -> a <> b.
Proof. intros H ->. rewrite str_eqb_refl in H. discriminate. Qed.
Definition decl_okb (d : option str * str) : bool :=
  negb (str_eqb (snd d) []) && negb (str_eqb (snd d) xml_uri) && (root_valueb (snd d) && uri_reference (snd d) && negb (str_eqb (snd d) xmlns_uri))
  && match fst d with
     | Some q => ascii_nameb q && negb (str_eqb q "xml") && negb (str_eqb q "xmlns")
     | None => negb (contains xhtml_uri (snd d))
     end.
Lemma decl_okb_ok d : decl_okb d = true -> decl_ok d.
Proof.
  unfold decl_okb, decl_ok. rewrite !andb_true_iff. intros [[[H1 H2] [[H3 H3b] H3c]] H4]. split; [apply not_eqb, H1|]. split; [apply not_eqb, H2|].
  split; [split; [apply root_valueb_ok, H3|split; [apply UriProofs.uri_reference_spec, H3b|apply not_eqb, H3c]]|]. destruct (fst d).
  - rewrite !andb_true_iff in H4. destruct H4 as [[H4 H5] H6]. split; [apply ascii_nameb_ok, H4|]. split; apply not_eqb; assumption.
  - apply negb_true_iff, H4.
Qed.
Definition attr_okb (r : root_tag) (a : option str * str * str) : bool :=
  ascii_nameb (snd (fst a)) && forallb is_xml_char (snd a)
  && match fst (fst a) with
     | Some q => str_eqb q "xml" || ostr_mem (Some q) (declared_prefixes r)
     | None => negb (str_eqb (snd (fst a)) "xmlns")
     end.
Lemma attr_okb_ok r a : attr_okb r a = true -> attr_ok r a.
Proof.
  unfold attr_okb, attr_ok. rewrite !andb_true_iff. intros [[H1 H2] H3]. split; [apply ascii_nameb_ok, H1|].
  split; [unfold xml_text_without; rewrite forallb_forall in H2; apply Forall_forall; intros c Hc; split; [apply H2, Hc|intros []]|].
  destruct (fst (fst a)).
  - apply orb_prop in H3. destruct H3 as [H3|H3]; [left; apply str_eqb_eq, H3|right]. unfold ostr_mem in H3. apply existsb_exists in H3.
    destruct H3 as (x & HI & HE). apply ostr_eqb_eq in HE. subst x. exact HI.
  - apply not_eqb, H3.
Qed.
Fixpoint nodupB {A} (eqb : A -> A -> bool) (l : list A) : bool :=
  match l with [] => true | x :: l' => negb (existsb (eqb x) l') && nodupB eqb l' end.
Lemma nodupB_ok {A} (eqb : A -> A -> bool) l : (forall x, eqb x x = true) -> nodupB eqb l = true -> NoDup l.
Proof.
  intros HR. induction l as [|x l IH]; intros H; [constructor|]. cbn in H. apply andb_prop in H. destruct H as [H1 H2].
  constructor; [|apply IH, H2]. intros HI. apply negb_true_iff in H1.
  assert (existsb (eqb x) l = true) by (apply existsb_exists; exists x; auto). congruence.
Qed.
Definition root_okb (r : root_tag) : bool :=
  nodupB ostr_eqb (declared_prefixes r)
  && nodupB str_eqb (map snd (filter (fun d => negb (is_default d)) (rt_decls r)))
  && forallb decl_okb (rt_decls r)
  && nodupB (fun x y => ostr_eqb (fst x) (fst y) && str_eqb (snd x) (snd y)) (map fst (rt_attrs r))
  && forallb (attr_okb r) (rt_attrs r).
Lemma root_okb_ok r : root_okb r = true -> root_ok r.
Proof.
  unfold root_okb, root_ok. rewrite !andb_true_iff. intros [[[[H1 H2] H3] H4] H5].
  split; [apply (nodupB_ok _ _ ostr_eqb_refl H1)|]. split; [apply (nodupB_ok _ _ str_eqb_refl H2)|]. rewrite forallb_forall in H3, H5.
  split; [apply Forall_forall; intros d Hd; apply decl_okb_ok, H3, Hd|].
  split; [|apply Forall_forall; intros d Hd; apply attr_okb_ok, H5, Hd].
  refine (nodupB_ok _ _ _ H4). intros x. rewrite ostr_eqb_refl, str_eqb_refl. reflexivity.
Qed.

(** ** C29: a printable bundle is read back *)
Theorem C29_document_round_trip :
  forall r p u b, printable_bundle r p u b ->
    exists strip s b', strips p strip
      /\ unparse_string b = Ok s /\ parse_string s = Ok b' /\ reads_back_as strip r b b'.
Proof.
  intros r p u b H. assert (HS : strips p (strip_text p)) by (destruct H as (_ & _ & H1 & H2 & _); apply strip_text_strips; assumption).
  destruct (document_round_trip r p u (strip_text p) b HS H) as (s & b' & H1 & H2 & H3 & _). eauto 8.
Qed.
Print Assumptions C29_document_round_trip.
(** the identifiers and the relations that a reader sees *)
Lemma reads_back_lists {A B} strip r b b' (f : content -> option (list A)) (k : A -> B) (norm er : A -> A) :
  reads_back_as strip r b b' ->
  (forall c, f (normal_content strip c) = map_list norm (f c)) -> (forall c, f (erase_content c) = map_list er (f c)) ->
  (forall x, k (norm x) = k x) -> (forall x, k (er x) = k x) ->
  map k (b_list f b') = map k (b_list f b).
Proof.
  intros (_ & _ & H & _) F1 F2 K1 K2. unfold b_list, bundle_content.
  destruct (b_core_content b') as [[c'|]|], (b_core_content b) as [[c|]|]; try discriminate; try reflexivity.
  cbn [option_map] in H. assert (H' : erase_content c' = normal_content strip c) by congruence. clear H. rename H' into H. apply (f_equal f) in H. rewrite F1, F2 in H. unfold map_list in H.
  destruct (f c') as [l'|], (f c) as [l|]; try discriminate; [|reflexivity]. cbn [option_map] in H. injection H as H. cbn [olist].
  apply (f_equal (map k)) in H. rewrite !map_map in H. rewrite (map_ext _ k) in H by exact K2. rewrite (map_ext (fun x => k (norm x)) k) in H by exact K1. exact H.
Qed.
Theorem C29_lookups_rebuilt :
  forall r p u b, printable_bundle r p u b ->
    exists s b', unparse_string b = Ok s /\ parse_string s = Ok b'
      /\ (forall i, spec_object_exists (b_lookup b') (Some i) = true <-> In i (map so_identifier (spec_objects_of b)))
      /\ (forall i, (exists d, get_data_type_by_ref (b_lookup b') (Some i) = Ok d) <-> In i (map data_type_identifier (data_types_of b)))
      /\ (forall i, (exists d, get_spec_type_by_ref (b_lookup b') (Some i) = Ok d) <-> In i (map spec_type_identifier (spec_types_of b)))
      /\ (forall i, bundle_content b <> None -> snd (get_spec_object_parents (b_lookup b') i) = Ok (targets_from i (relations_of b))).
Proof.
  change data_type_identifier with dt_id. change spec_type_identifier with st_identifier.
  intros r p u b H. destruct (C29_document_round_trip r p u b H) as (strip & s & b' & HS & H1 & H2 & H3).
  assert (EO : map so_identifier (spec_objects_of b') = map so_identifier (spec_objects_of b)) by (eapply reads_back_lists; [exact H3|reflexivity..]).
  assert (ED : map dt_id (data_types_of b') = map dt_id (data_types_of b)).
  { eapply reads_back_lists; [exact H3|reflexivity|intros c; unfold erase_content, map_content; cbn [rc_data_types]; reflexivity| |reflexivity].
    intros x. destruct x; try reflexivity. }
  assert (ET : map st_identifier (spec_types_of b') = map st_identifier (spec_types_of b)).
  { eapply reads_back_lists; [exact H3|reflexivity|reflexivity| |]; intros [x|x|x|x]; reflexivity. }
  assert (ER : map (fun x => (sr_source x, sr_target x)) (relations_of b') = map (fun x => (sr_source x, sr_target x)) (relations_of b)).
  { eapply reads_back_lists; [exact H3|reflexivity..]. }
  exists s, b'. split; [exact H1|]. split; [exact H2|]. split; [|split; [|split]].
  - intros i. rewrite <- EO. apply (C11_spec_object_exists s b' i H2).
  - intros i. rewrite <- ED. destruct (C11_data_type_lookup s b' i H2) as [_ HM]. destruct (get_data_type_by_ref (b_lookup b') (Some i)) as [d|e].
    + split; [intros _|eauto]. destruct (in_dec (list_eq_dec N.eq_dec) i (map dt_id (data_types_of b'))) as [HI|HI]; [exact HI|].
      specialize (HM EKeyError). destruct HM as [_ HM]. discriminate HM. auto.
    + split; [intros (d & HD); discriminate|]. intros HI. specialize (HM e). destruct HM as [HM _]. destruct (HM eq_refl) as [_ HN]. contradiction.
  - intros i. rewrite <- ET. destruct (C11_spec_type_lookup s b' i H2) as [_ HM]. destruct (get_spec_type_by_ref (b_lookup b') (Some i)) as [d|e].
    + split; [intros _|eauto]. destruct (in_dec (list_eq_dec N.eq_dec) i (map st_identifier (spec_types_of b'))) as [HI|HI]; [exact HI|].
      specialize (HM EKeyError). destruct HM as [_ HM]. discriminate HM. auto.
    + split; [intros (d & HD); discriminate|]. intros HI. specialize (HM e). destruct HM as [HM _]. destruct (HM eq_refl) as [_ HN]. contradiction.
  - intros i HC.
    assert (HC' : exists c, bundle_content b' = Some c).
    { unfold bundle_content in *. destruct H3 as (_ & _ & HE & _). destruct (b_core_content b') as [[c'|]|]; [eauto|..];
        destruct (b_core_content b) as [[c|]|]; try discriminate; congruence. }
    destruct HC' as (c & HC'). pose proof (C12_parents_lookup_in_any_session s b' c [QParents i] H2 HC') as HQ.
    cbn [session map] in HQ.
    assert (ES : targets_from i (relations_of b') = targets_from i (relations_of b)).
    { unfold targets_from. revert ER. generalize (relations_of b') (relations_of b). clear.
      induction l as [|x l IH]; intros [|y l0] E; try discriminate; [reflexivity|]. cbn [map] in E. injection E as E1 E2 E3.
      cbn [filter]. rewrite E1. specialize (IH l0 E3). destruct (ostr_eqb (sr_source y) i); [cbn [map]; rewrite E2, IH; reflexivity|exact IH]. }
    rewrite <- ES. unfold ask in HQ. destruct (get_spec_object_parents (b_lookup b') i) as [lk [l|e]]; cbn [snd] in *; congruence.
Qed.
Print Assumptions C29_lookups_rebuilt.

(** A whole document: a default namespace, XHTML, header and every kind of object *)
Definition ex_root : root_tag :=
  RootTag [(None, "http://www.omg.org/spec/ReqIF/20110401/reqif.xsd"); (Some "xhtml", "http://www.w3.org/1999/xhtml");
           (Some "xsi", "http://www.w3.org/2001/XMLSchema-instance")]
          [(Some "xml", "lang", "en"); (None, "version", "1.2")].
Definition ex_bundle : bundle :=
  Bundle (NamespaceInfo (Some (root_text ex_root)) true "UTF-8" None None None None None None None) (Some ex_header)
    (Some (Some (Content (Some [ex_enum; ex_real]) (Some [ex_type]) (Some [ex_object]) (Some [ex_relation])
                   (Some [ex_specification]) (Some [ex_group]))))
    true lookup_empty [].
Lemma visible_xhtml : visible ex_root "xhtml" (uses_markup ex_bundle) = [(Some "xhtml", "http://www.w3.org/1999/xhtml")].
Proof. vm_compute. reflexivity. Qed.
Example ex_bundle_ok : printable_bundle ex_root "xhtml" "http://www.w3.org/1999/xhtml" ex_bundle.
Proof.
  unfold printable_bundle. rewrite visible_xhtml.
  set (M := [(Some "xhtml", "http://www.w3.org/1999/xhtml")]).
  assert (HV : xhtml_value M "xhtml" "http://www.w3.org/1999/xhtml" "<xhtml:p class=""x&lt;"">a <xhtml:br/>&amp;</xhtml:p>").
  { exists ex_forest. split; [apply ex_forest_ok|]. split; [reflexivity|]. split; [reflexivity|discriminate]. }
  assert (HD : xhtml_default M "xhtml" "http://www.w3.org/1999/xhtml" "<xhtml:p class=""x&lt;"">a <xhtml:br/>&amp;</xhtml:p>") by (split; [exact HV|discriminate]).
  split; [apply root_okb_ok; vm_compute; reflexivity|]. split; [reflexivity|]. split; [reflexivity|]. split; [discriminate|].
  split; [reflexivity|]. split; [intros _; right; left; reflexivity|].
  split; [intros h E; injection E as <-; apply ex_header_ok|]. split; [|left; discriminate].
  intros c E. injection E as <-. unfold printable_content. cbn [rc_data_types rc_spec_types rc_spec_objects rc_spec_relations rc_specifications rc_spec_relation_groups each].
  split; [constructor; [apply ex_enum_ok|constructor; [apply ex_real_ok|constructor]]|].
  split; [constructor; [|constructor]; unfold printable_spec_type, ex_type, ex_def_enum, ex_def_xhtml; cbn; texts; try apply HD; intros H; try exact H; texts; congruence|].
  split; [constructor; [|constructor]; unfold printable_spec_object, ex_object, ex_values, so_order, order_of; cbn; texts; apply HV|].
  split; [constructor; [|constructor]; unfold printable_spec_relation, ex_relation, sr_order, order_of; cbn; texts; intros a E; injection E as <-; cbn; texts|].
  split; [constructor; [|constructor]|constructor; [apply ex_group_ok|constructor]].
  unfold printable_specification, ex_specification, sp_order, order_of. cbn [sp_identifier sp_description sp_last_change sp_long_name sp_values sp_specification_type sp_children sp_xml_node].
  destruct ex_hier_ok as (H1 & H2 & _). cbn [each when]. texts; try assumption; intros _; texts.
Qed.

(** ** C30: what unparse wrote is reproduced by reading and writing it again *)
Theorem C30_passthrough_fixpoint :
  forall r p u b, printable_bundle r p u b ->
    exists s b', unparse_string b = Ok s /\ parse_string s = Ok b' /\ unparse_string b' = Ok s.
Proof.
  intros r p u b H. assert (HS : strips p (strip_text p)) by (destruct H as (_ & _ & H1 & H2 & _); apply strip_text_strips; assumption).
  destruct (document_round_trip r p u (strip_text p) b HS H) as (s & b' & H1 & H2 & _ & H3). eauto.
Qed.
Print Assumptions C30_passthrough_fixpoint.

(** ** C31: well-formed output *)
Lemma written_prefix b r s : writes_root (b_namespace_info b) r -> unparse_string b = Ok s ->
  exists rest, s = prolog ++ root_text r ++ nl ++ rest.
Proof.
  intros HW H1. rewrite (proj2 (unparse_traced b)) in H1. unfold pure_unparse in H1. rewrite (writes_root_text _ _ HW) in H1. cbn [bind] in H1.
  repeat match type of H1 with bind ?m _ = _ => destruct m; [cbn [bind] in H1|discriminate] end. apply Ok_inj in H1. subst s.
  unfold prolog. rewrite <- (app_assoc (root_text r)). eexists. reflexivity.
Qed.
Theorem C31_output_well_formed :
  forall r p u b, printable_bundle r p u b ->
    exists s root, unparse_string b = Ok s /\ lxml_parse s = Some (Some "xml version=""1.0"" encoding=""UTF-8""", root)
      /\ tag root = Some (match uri_of r None with Some d => "{" ++ d ++ "}REQ-IF" | None => "REQ-IF" end).
Proof.
  intros r p u b H. destruct (C29_document_round_trip r p u b H) as (strip & s & b' & HS & H1 & H2 & H3).
  pose proof H as (HR & HW & _).
  destruct (written_prefix b r s HW H1) as (rest0 & ->). set (rest := nl ++ rest0) in *.
  rewrite (proj2 (string_traced _)) in H2. unfold pure_string in H2.
  destruct (lxml_parse (prolog ++ root_text r ++ rest)) as [[d n]|] eqn:E.
  - destruct (parse_root r prolog rest d n HR (or_intror eq_refl) E) as [(kids & ->) ->]. eexists. eexists. split; [exact H1|]. split; [exact E|].
    unfold root_node, root_ns, uri_of. unfold ns_get. cbn [tag]. destruct (dict_get (rt_decls r) None); reflexivity.
  - exfalso. destruct (prolog ++ root_text r ++ rest); discriminate.
Qed.
Print Assumptions C31_output_well_formed.
(** A document with "&amp;" in a LONG-NAME is read, but what is written for it
    is not XML. *)
Definition escaped_name_document : str :=
  "<REQ-IF><CORE-CONTENT><REQ-IF-CONTENT><SPEC-OBJECTS><SPEC-OBJECT IDENTIFIER=""i"" LONG-NAME=""a &amp; b"">"
  ++ "<TYPE><SPEC-OBJECT-TYPE-REF>t</SPEC-OBJECT-TYPE-REF></TYPE><VALUES/></SPEC-OBJECT></SPEC-OBJECTS></REQ-IF-CONTENT></CORE-CONTENT></REQ-IF>".
Theorem C31_written_back_malformed_refuted :
  exists s b s', parse_string s = Ok b /\ unparse_string b = Ok s' /\ lxml_parse s' = None.
Proof.
  assert (H : match parse_string escaped_name_document with
              | Ok b => match unparse_string b with Ok s' => match lxml_parse s' with None => true | _ => false end | _ => false end
              | _ => false end = true) by (vm_compute; reflexivity).
  destruct (parse_string escaped_name_document) as [b|] eqn:E1; [|discriminate]. destruct (unparse_string b) as [s'|] eqn:E2; [|discriminate].
  destruct (lxml_parse s') eqn:E3; [discriminate|]. exists escaped_name_document, b, s'. auto.
Qed.
(** So is a title with "]]&gt;": the reference is not written again. *)
Definition section_end_document : str :=
  "<REQ-IF><THE-HEADER><REQ-IF-HEADER IDENTIFIER=""i""><TITLE>a[b[0]]&gt;c</TITLE></REQ-IF-HEADER></THE-HEADER></REQ-IF>".
Theorem C31_title_written_back_malformed_refuted :
  exists s b h s', parse_string s = Ok b /\ b_header b = Some h /\ hd_title h = Some "a[b[0]]>c"
    /\ unparse_string b = Ok s' /\ lxml_parse s' = None.
Proof.
  assert (H : match parse_string section_end_document with
              | Ok b => match b_header b with
                        | Some h => ostr_eqb (hd_title h) (Some "a[b[0]]>c")
                            && match unparse_string b with Ok s' => match lxml_parse s' with None => true | _ => false end | _ => false end
                        | None => false end
              | _ => false end = true) by (vm_compute; reflexivity).
  destruct (parse_string section_end_document) as [b|] eqn:E1; [|discriminate]. destruct (b_header b) as [h|] eqn:EH; [|discriminate].
  apply andb_prop in H. destruct H as [HT H]. apply ostr_eqb_eq in HT. destruct (unparse_string b) as [s'|] eqn:E2; [|discriminate].
  destruct (lxml_parse s') eqn:E3; [discriminate|]. exists section_end_document, b, h, s'. auto.
Qed.
Print Assumptions C31_title_written_back_malformed_refuted.

(** ** C32: the opening tag *)
(** what is reported about the opening tag [r] with and without XML declaration *)
Definition reported (declared : bool) (r : root_tag) : namespace_info :=
  if declared then info_of r
  else let i := info_of r in
       NamespaceInfo (ni_dump i) false (ni_encoding i) (ni_namespace i) (ni_configuration i) (ni_namespace_id i)
         (ni_namespace_xhtml i) (ni_schema_namespace i) (ni_schema_location i) (ni_language i).
Lemma nons_attribs r kids n : strip_if_namespaced (root_node r kids) = Ok n ->
  exists ns d ks, n = El ns "REQ-IF" d [] (map (rattr r) (rt_attrs r)) ks.
Proof.
  unfold strip_if_namespaced, root_node. destruct (ns_get _ None); [|intros H; apply Ok_inj in H; subst n; eauto].
  cbn [strip_ns]. destruct (map_opt (strip_ns false) kids) as [ks|]; [|discriminate]. intros H. apply Ok_inj in H. subst n.
  cbn [cleanup]. eauto.
Qed.
Lemma root_reported r d kids b : root_ok r -> pure_reqif d (root_node r kids) = Ok b ->
  (b_header b <> None \/ b_core_content b <> None \/ b_tool_extensions b = true) ->
  exists nons_kids M', b_namespace_info b = namespace_info_of d (root_node r kids) (El None "REQ-IF" M' [] (map (rattr r) (rt_attrs r)) nons_kids).
Proof.
  intros HR HQ HNE. unfold pure_reqif in HQ. destruct (strip_if_namespaced (root_node r kids)) as [nn|] eqn:EN; [|discriminate]. cbn [bind] in HQ.
  destruct (nons_attribs _ _ _ EN) as (ns & dd & ks & ->). destruct (negb _); [discriminate|].
  destruct (children _) as [|k0 l0] eqn:EC.
  { apply Ok_inj in HQ. subst b. exfalso. destruct HNE as [H|[H|H]]; cbn in H; congruence. }
  destruct (match find_child "THE-HEADER" _ with Some _ => _ | None => _ end) as [hdr|]; [|discriminate]. cbn [bind] in HQ.
  match type of HQ with bind ?m _ = _ => destruct m as [[[core lk] exns]|]; [|discriminate] end. cbn [bind] in HQ. apply Ok_inj in HQ. subst b.
  cbn [b_namespace_info]. exists ks, dd. reflexivity.
Qed.
Theorem C32_opening_tag_kept :
  forall r (declared : bool) rest b, root_ok r ->
    parse_string ((if declared then prolog else []) ++ root_text r ++ rest) = Ok b ->
    (b_header b <> None \/ b_core_content b <> None \/ b_tool_extensions b = true) ->
    b_namespace_info b = reported declared r
    /\ forall s, unparse_string b = Ok s -> exists rest', s = prolog ++ root_text r ++ nl ++ rest'.
Proof.
  intros r declared rest b HR HP HNE.
  assert (EI : b_namespace_info b = reported declared r).
  { set (pre := if declared then prolog else []) in *.
    assert (HPre : pre = [] \/ pre = prolog) by (unfold pre; destruct declared; auto).
    rewrite (proj2 (string_traced _)) in HP. unfold pure_string in HP.
    destruct (lxml_parse (pre ++ root_text r ++ rest)) as [[d n]|] eqn:E; [|destruct (pre ++ root_text r ++ rest); discriminate].
    destruct (parse_root r pre rest d n HR HPre E) as [(kids & ->) ->].
    assert (HQ : pure_reqif (if str_eqb pre prolog then Some xml_decl else None) (root_node r kids) = Ok b) by (destruct (pre ++ root_text r ++ rest); [discriminate|exact HP]).
    clear HP. destruct (root_reported r _ kids b HR HQ HNE) as (ks & dd & ->).
    pose proof (info_ok r kids ks dd HR) as HI.
    unfold pre. destruct declared; cbn [reported].
    - exact HI.
    - rewrite <- HI. reflexivity. }
  split; [exact EI|]. intros s HU. apply (written_prefix b r s); [|exact HU]. rewrite EI. unfold reported. destruct declared; reflexivity.
Qed.
Print Assumptions C32_opening_tag_kept.
(** whatever the text looked like (quotes, spaces, references, order of
    declarations and attributes), the tag that is written has the declarations
    and attributes of the tag that was read *)
Lemma opens_root r root : opens_with r root <-> exists kids, root = root_node r kids.
Proof.
  unfold opens_with, root_node. change (match uri_of r None with Some d => Some (None, d) | None => None end) with (root_ns r). split.
  - intros (attrs & kids & -> & H). exists kids. f_equal. revert H. generalize (rt_attrs r) as l. intros l H.
    induction H as [|a x l attrs (H1 & H2 & H3) _ IH]; [reflexivity|]. cbn [map]. rewrite <- IH. f_equal. destruct x as [ns lo va]. cbn in H1, H2, H3. subst.
    reflexivity.
  - intros (kids & ->). exists (map (rattr r) (rt_attrs r)), kids. split; [reflexivity|]. generalize (rt_attrs r) as l. intros l.
    induction l as [|a l IH]; [constructor|]. cbn [map]. constructor; [|exact IH]. split; [reflexivity|split; reflexivity].
Qed.
(** the reported information, apart from the XML declaration *)
Definition about_tag (i : namespace_info) : namespace_info :=
  NamespaceInfo (ni_dump i) true "UTF-8" (ni_namespace i) (ni_configuration i) (ni_namespace_id i)
    (ni_namespace_xhtml i) (ni_schema_namespace i) (ni_schema_location i) (ni_language i).
Theorem C32_declarations_and_attributes_kept :
  forall r s d root b, root_ok r -> lxml_parse s = Some (d, root) -> opens_with r root ->
    parse_string s = Ok b -> (b_header b <> None \/ b_core_content b <> None \/ b_tool_extensions b = true) ->
    about_tag (b_namespace_info b) = info_of r
    /\ forall s' d' root', unparse_string b = Ok s' -> lxml_parse s' = Some (d', root') -> opens_with r root'.
Proof.
  intros r s d root b HR HL HO HP HNE. apply opens_root in HO. destruct HO as (kids & ->).
  rewrite (proj2 (string_traced _)) in HP. unfold pure_string in HP.
  assert (HQ : pure_reqif d (root_node r kids) = Ok b) by (destruct s; [discriminate|]; rewrite HL in HP; exact HP). clear HP.
  destruct (root_reported r _ kids b HR HQ HNE) as (ks & dd & EI).
  assert (EA : about_tag (b_namespace_info b) = info_of r) by (rewrite EI; rewrite <- (info_ok r kids ks dd HR); reflexivity).
  split; [exact EA|]. intros s' d' root' HU HL'.
  assert (HW : writes_root (b_namespace_info b) r).
  { assert (HD : ni_dump (b_namespace_info b) = Some (root_text r)) by (change (ni_dump (about_tag (b_namespace_info b)) = Some (root_text r)); rewrite EA; reflexivity).
    unfold writes_root. rewrite HD. reflexivity. }
  destruct (written_prefix b r s' HW HU) as (rest & ->). apply opens_root.
  apply (parse_root r prolog (nl ++ rest) d' root' HR (or_intror eq_refl)) in HL'. apply HL'.
Qed.
Print Assumptions C32_declarations_and_attributes_kept.
(** single quotes, a line break, references, text beyond ASCII *)
Definition odd_tag_document : str :=
  "<REQ-IF  xml:lang = 'a&lt;&#38;" ++ [233]%N ++ "&quot;" ++ nl ++ "b&#10;' xmlns='urn:a'" ++ nl ++ "xmlns:c=""urn:c"" c:x=""'1'"" ><CORE-CONTENT/></REQ-IF >".
Definition odd_tag : root_tag :=
  RootTag [(None, "urn:a"); (Some "c", "urn:c")]
          [(Some "xml", "lang", "a<&" ++ [233]%N ++ """ b" ++ nl); (Some "c", "x", "'1'")].
Definition odd_tag_written : str :=
  prolog ++ "<REQ-IF xmlns=""urn:a"" xmlns:c=""urn:c"" xml:lang=""a&lt;&amp;&#xE9;&quot; b&#10;"" c:x=""'1'"">" ++ nl
  ++ "  <CORE-CONTENT>" ++ nl ++ "  </CORE-CONTENT>" ++ nl ++ "</REQ-IF>" ++ nl.
Example C32_odd_tag_applies :
  root_ok odd_tag
  /\ (exists d root, lxml_parse odd_tag_document = Some (d, root) /\ opens_with odd_tag root)
  /\ exists b, parse_string odd_tag_document = Ok b /\ b_core_content b <> None /\ unparse_string b = Ok odd_tag_written.
Proof.
  split; [apply root_okb_ok; vm_compute; reflexivity|]. split.
  - destruct (lxml_parse odd_tag_document) as [[d root]|] eqn:E; [|exfalso; vm_compute in E; discriminate].
    exists d, root. split; [reflexivity|]. apply opens_root. vm_compute in E. injection E as <- <-. eexists. vm_compute. reflexivity.
  - assert (H : match parse_string odd_tag_document with Ok b => match b_core_content b with Some _ => match unparse_string b with Ok t => str_eqb t odd_tag_written | _ => false end | _ => false end | _ => false end = true) by (vm_compute; reflexivity).
    destruct (parse_string odd_tag_document) as [b|] eqn:E; [|discriminate]. exists b. split; [reflexivity|].
    destruct (b_core_content b) as [c|]; [|discriminate]. split; [discriminate|].
    destruct (unparse_string b) as [t|]; [|discriminate]. apply str_eqb_eq in H. subst t. reflexivity.
Qed.
(** a bundle without a stored tag: one component per field that is set *)
Theorem C32_tag_from_fields :
  forall i, ni_dump i = None ->
    (unparse_namespace_info i = Raise EAssertionError <-> rt_decls (root_of_fields i) = [] /\ rt_attrs (root_of_fields i) = [])
    /\ (rt_decls (root_of_fields i) <> [] \/ rt_attrs (root_of_fields i) <> [] ->
        unparse_namespace_info i = Ok (unescaped_text (root_of_fields i) ++ nl)).
Proof.
  intros i HD.
  assert (HW : rt_decls (root_of_fields i) <> [] \/ rt_attrs (root_of_fields i) <> [] ->
    unparse_namespace_info i = Ok (unescaped_text (root_of_fields i) ++ nl)).
  { intros H. apply fields_text; assumption. }
  split; [|exact HW]. split.
  - intros H. destruct (rt_decls (root_of_fields i)) as [|d l] eqn:E1; [|rewrite HW in H; [discriminate|left; discriminate]].
    destruct (rt_attrs (root_of_fields i)) as [|a l'] eqn:E2; [auto|rewrite HW in H; [discriminate|right; discriminate]].
  - intros [H1 H2]. unfold unparse_namespace_info. rewrite HD. unfold root_of_fields in H1, H2. cbn [rt_decls rt_attrs] in H1, H2.
    destruct (ni_namespace i), (ni_schema_namespace i), (ni_configuration i), (ni_namespace_id i), (ni_namespace_xhtml i),
      (ni_schema_location i), (ni_language i); try discriminate. reflexivity.
Qed.
Print Assumptions C32_tag_from_fields.
(** A bundle whose tag is written from its fields is read back with the same fields,
    provided that the schema location comes with the namespace of its prefix; the
    encoding is always reported as UTF-8 with an XML declaration.  In particular the two
    constructors of the library give what a reader reports. *)
Definition without_dump (i : namespace_info) : namespace_info :=
  NamespaceInfo None (ni_doctype_is_present i) (ni_encoding i) (ni_namespace i) (ni_configuration i) (ni_namespace_id i)
    (ni_namespace_xhtml i) (ni_schema_namespace i) (ni_schema_location i) (ni_language i).
Theorem C32_fields_read_back :
  forall r p u b i, printable_bundle r p u b -> b_namespace_info b = i -> ni_dump i = None ->
    (ni_schema_location i <> None -> ni_schema_namespace i <> None) ->
    exists s b', unparse_string b = Ok s /\ parse_string s = Ok b'
      /\ starts_with (prolog ++ unescaped_text (root_of_fields i) ++ nl) s = true
      /\ (forall ns cfg, i = namespace_info_default \/ i = namespace_info_empty ns cfg -> without_dump (b_namespace_info b') = i)
      /\ without_dump (b_namespace_info b')
         = NamespaceInfo None true "UTF-8" (ni_namespace i) (ni_configuration i) (ni_namespace_id i)
             (ni_namespace_xhtml i) (ni_schema_namespace i) (ni_schema_location i) (ni_language i).
Proof.
  intros r p u b i H HI HD HL. destruct (C29_document_round_trip r p u b H) as (strip & s & b' & _ & H1 & H2 & (H3 & _)).
  exists s, b'. split; [exact H1|]. split; [exact H2|].
  destruct H as (_ & HW & _). pose proof HW as HW'. rewrite HI in HW'. unfold writes_root in HW'. rewrite HD in HW'. destruct HW' as (-> & HN & HV).
  split.
  { destruct (written_prefix b _ s HW H1) as (rest & ->). rewrite unescaped_root_text by exact HV. apply starts_with_iff. eexists. rewrite <- !app_assoc. reflexivity. }
  assert (E : without_dump (b_namespace_info b')
         = NamespaceInfo None true "UTF-8" (ni_namespace i) (ni_configuration i) (ni_namespace_id i)
             (ni_namespace_xhtml i) (ni_schema_namespace i) (ni_schema_location i) (ni_language i)).
  { rewrite H3. destruct i as [d0 d1 e0 ns cfg id xh sn sl la]. unfold without_dump, info_of, root_of_fields in *. cbn in *.
    destruct ns, cfg, id, xh, sn, sl, la; try reflexivity; exfalso; apply HL; congruence. }
  split; [|exact E]. intros ns cfg HC. rewrite E. destruct HC as [-> | ->]; reflexivity.
Qed.
Print Assumptions C32_fields_read_back.
Example C32_created_applies :
  let xhtml := "http://www.w3.org/1999/xhtml" in
  let b := Bundle namespace_info_default None (Some None) false lookup_empty [] in
  printable_bundle (root_of_fields namespace_info_default) "xhtml" xhtml b
  /\ unparse_string b
     = Ok (prolog ++ "<REQ-IF xmlns=""http://www.omg.org/spec/ReqIF/20110401/reqif.xsd"" xmlns:xhtml=""http://www.w3.org/1999/xhtml"">" ++ nl
           ++ "  <CORE-CONTENT>" ++ nl ++ "  </CORE-CONTENT>" ++ nl ++ "</REQ-IF>" ++ nl).
Proof.
  cbv zeta. split; [|vm_compute; reflexivity]. unfold printable_bundle.
  split; [apply root_okb_ok; vm_compute; reflexivity|]. split; [split; [reflexivity|split; [left; discriminate|constructor]]|].
  split; [reflexivity|]. split; [discriminate|]. split; [vm_compute; reflexivity|]. split; [discriminate|]. split; [discriminate|].
  split; [discriminate|]. right. left. discriminate.
Qed.
(** An element without children loses its opening tag. *)
Definition empty_document : str := "<REQ-IF xmlns=""urn:a"" xmlns:xhtml=""http://www.w3.org/1999/xhtml""></REQ-IF>".
Theorem C32_empty_root_drops_tag_refuted :
  exists r b s, root_ok r /\ parse_string (root_text r ++ "</REQ-IF>") = Ok b /\ unparse_string b = Ok s
    /\ uri_of r (Some "xhtml") = Some "http://www.w3.org/1999/xhtml" /\ ni_namespace_xhtml (b_namespace_info b) = None
    /\ s = prolog ++ "<REQ-IF xmlns=""urn:a"">" ++ nl ++ "</REQ-IF>" ++ nl.
Proof.
  set (r := RootTag [(None, "urn:a"); (Some "xhtml", "http://www.w3.org/1999/xhtml")] []).
  assert (H : option_map (fun b => (ni_namespace_xhtml (b_namespace_info b), unparse_string b)) (match parse_string (root_text r ++ "</REQ-IF>") with Ok b => Some b | _ => None end)
    = Some (None, Ok (prolog ++ "<REQ-IF xmlns=""urn:a"">" ++ nl ++ "</REQ-IF>" ++ nl))) by (vm_compute; reflexivity).
  destruct (parse_string (root_text r ++ "</REQ-IF>")) as [b|] eqn:E; [|discriminate]. cbn [option_map] in H.
  assert (H1 : ni_namespace_xhtml (b_namespace_info b) = None) by congruence.
  assert (H2 : unparse_string b = Ok (prolog ++ "<REQ-IF xmlns=""urn:a"">" ++ nl ++ "</REQ-IF>" ++ nl)) by congruence.
  exists r, b. eexists. split; [|split; [exact E|split; [exact H2|split; [reflexivity|split; [exact H1|reflexivity]]]]].
  apply root_okb_ok. vm_compute. reflexivity.
Qed.

(** ** C38: archives of printable bundles *)
Theorem C38_printable_archive_round_trip :
  forall z h h1, well_named z ->
    (forall k b, In (k, b) (z_bundles z) -> exists r p u, printable_bundle r p u b) ->
    exists a z', zip_unparse None z h = (h, Ok a) /\ zip_parse None (Some a) h1 = (h1, Ok z')
      /\ z_attachments z' = z_attachments z
      /\ Forall2 (fun x y => fst x = fst y
                    /\ exists r p u strip, printable_bundle r p u (snd x) /\ strips p strip /\ reads_back_as strip r (snd x) (snd y))
                 (z_bundles z) (z_bundles z').
Proof.
  intros z h h1 HW HP.
  assert (HA : exists x, mapM entry (z_bundles z) = Ok x).
  { assert (G : forall l, (forall k b, In (k, b) l -> exists r p u, printable_bundle r p u b) -> exists x, mapM entry l = Ok x).
    { induction l as [|[k b] l IH]; intros H; [exists []; reflexivity|].
      destruct IH as (x & E); [intros k' b' Hb; apply (H k' b'); right; exact Hb|]. destruct (H k b) as (r & p & u & HB); [left; reflexivity|].
      destruct (C31_output_well_formed r p u b HB) as (s & root & E1 & E2 & _).
      assert (HE : exists raw, utf8_encode s = Some raw).
      { unfold lxml_parse in E2. destruct (etree_parse s) as [d|] eqn:E3; [|discriminate]. apply (etree_parse_xml s d E3). }
      destruct HE as (raw & HE). cbn [mapM]. unfold entry at 1, encoded. cbn [snd fst]. rewrite E1. cbn [bind]. rewrite HE. cbn [bind]. rewrite E. cbn [bind]. eauto. }
    apply G, HP. }
  destruct HA as (x & EX). set (a := x ++ map kept (z_attachments z)).
  assert (HU : zip_unparse None z h = (h, Ok a)).
  { destruct (zip_unparse_traced z) as [(evs & rest & _ & _ & HN & _) P]. rewrite HN, P, EX. reflexivity. }
  destruct (C38_archive_round_trip None z h h a h1 HU HW) as (z' & Z1 & Z2 & Z3).
  { intros k b s HI HS. destruct (HP k b HI) as (r & p & u & HB). destruct (C29_document_round_trip r p u b HB) as (st & s' & b' & _ & E1 & E2 & _).
    rewrite E1 in HS. apply Ok_inj in HS. subst s'. eauto. }
  exists a, z'. split; [exact HU|]. split; [exact Z1|]. split; [exact Z2|].
  assert (G : forall l l' : dict bundle, (forall k b, In (k, b) l -> exists r p u, printable_bundle r p u b) ->
    Forall2 (fun p q => fst p = fst q /\ exists s, unparse_string (snd p) = Ok s /\ parse_string s = Ok (snd q)) l l' ->
    Forall2 (fun x y => fst x = fst y
                    /\ exists r p u strip, printable_bundle r p u (snd x) /\ strips p strip /\ reads_back_as strip r (snd x) (snd y)) l l').
  { intros l l' H F. induction F as [|[k b] [k' b'] l l' (F1 & s & F2 & F3) _ IH]; [constructor|]. constructor.
    - split; [exact F1|]. destruct (H k b) as (r & p & u & HB); [left; reflexivity|]. exists r, p, u.
      destruct (C29_document_round_trip r p u b HB) as (st & s' & b2 & E0 & E1 & E2 & E3). cbn [snd] in *. rewrite E1 in F2. apply Ok_inj in F2. subst s'.
      rewrite E2 in F3. apply Ok_inj in F3. subst b2. exists st. auto.
    - apply IH. intros k2 b2 H2. apply (H k2 b2). right. exact H2. }
  apply G; assumption.
Qed.
Print Assumptions C38_printable_archive_round_trip.
Definition ex_archive : zbundle := ZBundle [(Some "a.reqif", ex_bundle); (Some "dir/b.reqif", ex_bundle)] [(Some "image.png", [137; 80; 255]%N)].
Example ex_archive_ok : well_named ex_archive /\ forall k b, In (k, b) (z_bundles ex_archive) -> exists r p u, printable_bundle r p u b.
Proof.
  split.
  - split; [repeat constructor; cbn; intuition discriminate|]. split; [repeat constructor; cbn; intuition discriminate|]. split.
    + cbn. intros k [<-|[<-|[]]]; eexists; (split; [reflexivity|]); apply is_reqif_spec; reflexivity.
    + cbn. intros k [<-|[]]. eexists. split; [reflexivity|]. apply is_reqif_false. reflexivity.
  - cbn. intros k b [E|[E|[]]]; injection E as <- <-; exists ex_root, "xhtml", "http://www.w3.org/1999/xhtml"; apply ex_bundle_ok.
Qed.

(** ** C44, C45: XHTML content *)
(** [xnodes q m f]: the elements of the forest with namespace [q] below a node
    where the namespaces [m] are visible. *)
Theorem C44_xhtml_value_faithful :
  forall p u m f n a, plain_name p = true -> p <> "xml" -> forest_ok f ->
    hd_error m = Some (Some p, u) -> ~ In (None, u) m ->
    find_child "THE-VALUE" n = Some (El None "THE-VALUE" [] m [] (map (xnodes (Some (Some p, u)) m) f)) ->
    parse_xhtml_attribute_value n = Ok a ->
    sa_value a = VStr (show p f)
    (* read again, it is the same content *)
    /\ read_text ("<X>" ++ show p f ++ "</X>") = Some (XDoc None (XElem "X" [] (map (named p) f)))
    (* the stripped form, see C45 *)
    /\ sa_value_stripped_xhtml a = Some (reqif_unindent_xhtml_string (bare_doubled f)).
Proof.
  intros p u m f n a H1 H2 H3 H4 H5 H6 H7.
  assert (EM : exists d m', m = d :: m') by (destruct m; [discriminate|eauto]). destruct EM as (d & m' & EM).
  unfold parse_xhtml_attribute_value in H7. destruct (tag_contains "ATTRIBUTE-VALUE-XHTML" n) as [[|]|]; cbn [bind py_assert] in H7; try discriminate.
  unfold find_req in H7. rewrite H6 in H7. cbn [bind] in H7.
  set (tv := El None "THE-VALUE" [] m [] (map (xnodes (Some (Some p, u)) m) f)) in *.
  assert (EN : node_nsmap tv = m) by (unfold tv; cbn [node_nsmap]; apply extend_nil). rewrite EN in H7.
  assert (E1 : stringify_namespaced_children tv None = Ok (show p f)).
  { unfold stringify_namespaced_children. rewrite EN. rewrite EM in H4 |- *. destruct d as [k w]. cbn [hd_error] in H4. injection H4 as -> ->.
    unfold tv. cbn [kids_of]. apply stringify_ns_forest. exact H5. }
  assert (E2 : convert_children_from_reqif_ns tv = Ok (bare_doubled f)) by (unfold tv; apply convert_x).
  rewrite E1, E2 in H7. rewrite EM in H7. cbn [bind] in H7.
  destruct (definition_ref_text _ n) as [ref|]; [|discriminate]. cbn [bind] in H7. apply Ok_inj in H7. subst a. cbn [sa_value sa_value_stripped_xhtml].
  split; [reflexivity|]. split; [apply show_read_text; assumption|reflexivity].
Qed.
Print Assumptions C44_xhtml_value_faithful.
(** different content, different stored values *)
Theorem C44_xhtml_value_injective :
  forall p f g, plain_name p = true -> p <> "xml" -> forest_ok f -> forest_ok g -> show p f = show p g -> f = g.
Proof. exact show_inj. Qed.
Print Assumptions C44_xhtml_value_injective.
Definition sample_value : node :=
  let m := [(Some "xhtml", "http://www.w3.org/1999/xhtml")] in
  El None "ATTRIBUTE-VALUE-XHTML" [] m []
    [El None "THE-VALUE" [] m [] (map (xnodes (Some (Some "xhtml", "http://www.w3.org/1999/xhtml")) m) ex_forest);
     El None "DEFINITION" [] m [] [El None "ATTRIBUTE-DEFINITION-XHTML-REF" [] m [] [Chr 97]]].
Example C44_applies :
  let m := [(Some "xhtml", "http://www.w3.org/1999/xhtml")] in
  forest_ok ex_forest /\ hd_error m = Some (Some "xhtml", "http://www.w3.org/1999/xhtml")
  /\ find_child "THE-VALUE" sample_value
     = Some (El None "THE-VALUE" [] m [] (map (xnodes (Some (Some "xhtml", "http://www.w3.org/1999/xhtml")) m) ex_forest))
  /\ exists a, parse_xhtml_attribute_value sample_value = Ok a
       /\ sa_value_stripped_xhtml a = Some "<p class=""x&lt;"">a <br/>&amp;</p>".
Proof.
  split; [apply ex_forest_ok|]. split; [reflexivity|]. split; [vm_compute; reflexivity|].
  exists (SpecAttr AT_XHTML (Some "a") (VStr "<xhtml:p class=""x&lt;"">a <xhtml:br/>&amp;</xhtml:p>") (Some "<p class=""x&lt;"">a <br/>&amp;</p>") (Some sample_value)).
  split; [vm_compute; reflexivity|reflexivity].
Qed.

(** Without prefix: what the fallback makes of a forest ... *)
Theorem C45_unprefixed_children_exact :
  forall ns l d i a f, stringify_children (El ns l d i a (map (xnodes None []) f)) = Ok (bare_doubled f).
Proof. exact stringify_children_x. Qed.
Print Assumptions C45_unprefixed_children_exact.
(** ... is the content exactly once if nothing but elements follow each other and
    the leading text needs no escaping, *)
Lemma followed_show f : bare f = substitute lxml_table (leading f)
  ++ flat_map (fun kt => show_node is_object [] (fst kt) ++ substitute lxml_table (snd kt)) (followed f).
Proof.
  unfold bare, show_forest. induction f as [|x f IH]; [reflexivity|]. cbn [flat_map]. rewrite IH. destruct x as [c|n at_ k].
  - cbn [show_node leading followed]. unfold substitute. cbn [flat_map]. rewrite app_nil_r, <- app_assoc. reflexivity.
  - cbn [leading followed flat_map fst snd]. change (substitute lxml_table []) with (@nil N). rewrite app_nil_l, <- !app_assoc. reflexivity.
Qed.
Theorem C45_correct_without_tails :
  forall ns l d i a f, substitute lxml_table (leading f) = leading f -> (forall kt, In kt (followed f) -> snd kt = []) ->
    stringify_children (El ns l d i a (map (xnodes None []) f)) = Ok (bare f).
Proof.
  intros ns l d i a f H1 H2. rewrite stringify_children_x, followed_show, H1. unfold bare_doubled. do 2 f_equal.
  rewrite <- !flat_map_concat. f_equal. apply map_ext_in. intros kt Hk. rewrite (H2 kt Hk). change (substitute lxml_table []) with (@nil N). rewrite !app_nil_r. reflexivity.
Qed.
Print Assumptions C45_correct_without_tails.
Example C45_applies : substitute lxml_table (leading (XT 97 :: ex_forest)%N) = leading (XT 97 :: ex_forest)%N
  /\ (forall kt, In kt (followed (XT 97 :: ex_forest)%N) -> snd kt = []) /\ bare (XT 97 :: ex_forest)%N = "a<p class=""x&lt;"">a <br/>&amp;</p>".
Proof. split; [reflexivity|]. split; [|reflexivity]. cbn. intros kt [<-|[]]. reflexivity. Qed.
(** ... but text after an element comes twice, *)
Theorem C45_tail_twice_refuted :
  exists f s, forest_ok f /\ stringify_children (El None "THE-VALUE" [] [] [] (map (xnodes None []) f)) = Ok s
    /\ bare f = "<b/>x" /\ s = "<b/>xx".
Proof.
  exists [XE "b" [] []; XT 120%N], "<b/>xx". split; [apply forest_okb; reflexivity|]. split; [vm_compute; reflexivity|]. split; reflexivity.
Qed.
(** ... and leading text is not escaped. *)
Theorem C45_leading_text_not_escaped_refuted :
  exists f s, forest_ok f /\ stringify_children (El None "THE-VALUE" [] [] [] (map (xnodes None []) f)) = Ok s
    /\ bare f = "a &lt; b" /\ s = "a < b" /\ read_text ("<X>" ++ s ++ "</X>") = None.
Proof.
  exists (map XT "a < b"), "a < b". split; [apply forest_okb; reflexivity|]. split; [vm_compute; reflexivity|]. repeat split.
Qed.
