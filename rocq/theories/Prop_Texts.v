(** Prop_Texts.v -- C70: every text of a parsed bundle can be written *)
From Verif Require Import Base Xml Utf8 Lxml Py LxmlStr Models Header Progress Parser Unparser Serialise Validate Zip Dump Commands
  SpecXml SpecParse SpecLookup SpecProgress SpecTraversal SpecTexts SpecDump SpecUtf8 SpecCommands DictProofs ParserProofs ProgressProofs
  GrammarProofs XmlChars CleanProofs CleanTree Utf8Proofs Utf8SpecProofs Prop_Parser Prop_Zip Prop_Dump Prop_Commands Prop_Utf8.

(** Every text field of a bundle that was read from a document consists of the
    characters that XML allows. *)
Theorem C70_texts_are_xml_characters :
  forall s b, parse_string s = Ok b -> bundle_texts (Forall char) b.
Proof.
  intros s b H. assert (HS := H). rewrite (proj2 (string_traced s)) in HS. unfold pure_string in HS.
  destruct s as [|c0 s0]; [discriminate|]. set (s := c0 :: s0) in *.
  destruct (lxml_parse s) as [[decl root]|] eqn:EL; [|discriminate]. unfold pure_reqif in HS.
  destruct (strip_if_namespaced root) as [r|] eqn:ER; [|discriminate]. cbn [bind] in HS.
  assert (NR : nok r) by (eapply bare_nok; [eapply root_nok, EL|exact ER]).
  assert (NI : namespace_texts xc (namespace_info_of decl root r)) by (eapply namespace_xc; eassumption).
  destruct (negb _) eqn:ET in HS; [discriminate|]. apply negb_false_iff in ET.
  destruct (children r) as [|k ks] eqn:EK.
  { apply CleanProofs.Ok_inj in HS. subst b. destruct NI as (_ & _ & N3 & N4 & _).
    unfold bundle_empty, bundle_texts. cbn. repeat split; auto. apply xc_lit. reflexivity. }
  destruct (match find_child "THE-HEADER" r with None => Ok None | Some h => let! x := parse_header h in Ok (Some x) end)
    as [hdr|] eqn:EH; [|discriminate]. cbn [bind] in HS.
  match type of HS with bind ?m _ = _ => destruct m as [[[core lk] exns]|] eqn:EM; [|discriminate] end. cbn [bind] in HS.
  apply CleanProofs.Ok_inj in HS. subst b. unfold bundle_texts. cbn [b_namespace_info b_header b_core_content] in *.
  split; [exact NI|]. split.
  - destruct (find_child "THE-HEADER" r) as [h|] eqn:EF; [|injection EH as <-; exact I].
    destruct (parse_header h) as [x|] eqn:EP; [|discriminate]. injection EH as <-.
    eapply header_xc; [eapply find_child_nok; eassumption|exact EP].
  - destruct (document_content s) as [rc|] eqn:ED.
    + destruct (C16_sections_are_images_of_their_elements _ _ _ H ED) as (c & EC & I1 & I2 & I3 & I4 & I5 & I6).
      unfold bundle_content in EC. cbn [b_core_content] in EC. destruct core as [[c'|]|]; try discriminate. injection EC as ->.
      assert (NC : nok rc).
      { unfold document_content in ED. rewrite EL, ER, ET in ED.
        destruct (find_child "CORE-CONTENT" r) as [cc|] eqn:E1; [|discriminate].
        eapply find_child_nok; [|exact ED]. eapply find_child_nok; eassumption. }
      assert (SN : forall t ks, section_items t rc = Some ks -> Forall nok ks) by (intros; eapply section_nok; eassumption).
      unfold content_texts. repeat match goal with |- _ /\ _ => split end.
      * eapply images_texts; [intros; eapply data_type_xc; eassumption|exact NC|exact I1].
      * destruct (section_items "SPEC-TYPES" rc) as [l|] eqn:E1, (rc_spec_types c) as [x|]; try contradiction; [|exact I].
        eapply Forall2_texts; [intros; eapply spec_type_xc; eassumption|apply no_comments_nok, (SN _ _ E1)|exact I2].
      * destruct (section_items "SPEC-OBJECTS" rc) as [l|] eqn:E1, (rc_spec_objects c) as [x|]; try contradiction; [|exact I].
        eapply Forall2_texts; [intros; eapply spec_object_xc; eassumption|apply no_comments_nok, (SN _ _ E1)|exact I3].
      * destruct (section_items "SPEC-RELATIONS" rc) as [l|] eqn:E1, (rc_spec_relations c) as [x|]; try contradiction; [|exact I].
        eapply Forall2_texts; [intros; eapply spec_relation_xc; eassumption| |exact (proj1 I4)].
        apply Forall_forall. intros k' HK. apply filter_In in HK. eapply Forall_forall; [apply (SN _ _ E1)|apply HK].
      * eapply images_texts; [intros; eapply specification_xc; eassumption|exact NC|exact I5].
      * eapply images_texts; [intros; eapply relation_group_xc; eassumption|exact NC|exact I6].
    + destruct (C16_without_content_element _ _ H ED) as (EC & _). unfold bundle_content in EC. cbn [b_core_content] in EC.
      destruct core as [[c'|]|]; try discriminate; exact I.
Qed.

Lemma section_xc {A} t (f : A -> result str) (Q : A -> Prop) o s : xc t ->
  (forall x y, Q x -> f x = Ok y -> xc y) -> all_of Q o -> pure_unparse_section t f o = Ok s -> xc s.
Proof.
  intros HT HF HA H. unfold pure_unparse_section in H. destruct o as [l|]; [|apply CleanProofs.Ok_inj in H; subst s; constructor].
  destruct (mapM f l) as [parts|] eqn:EM; [|discriminate]. cbn [bind] in H. apply CleanProofs.Ok_inj in H. subst s. xs.
  apply xc_concat. exact (mapM_ok _ Q _ _ HF HA EM).
Qed.
(** What is written for a bundle whose texts consist of XML characters consists of
    XML characters, whether the bundle was read or built by a program. *)
Theorem C70_writing_keeps_xml_characters :
  forall b t, bundle_texts (Forall char) b -> unparse_string b = Ok t -> Forall char t.
Proof.
  intros b t (B1 & B2 & B3) H. rewrite (proj2 (unparse_traced b)) in H. unfold pure_unparse in H.
  destruct (unparse_namespace_info _) as [ns|] eqn:E1; [|discriminate]. cbn [bind] in H.
  match type of H with bind ?m _ = _ => destruct m as [hd|] eqn:E2; [|discriminate] end. cbn [bind] in H.
  match type of H with bind ?m _ = _ => destruct m as [core|] eqn:E3; [|discriminate] end. cbn [bind] in H.
  apply CleanProofs.Ok_inj in H. subst t. change (xc ns) with (xc ns). fold (xc).
  assert (X1 : xc ns) by (eapply xc_namespace; eassumption).
  assert (X2 : xc hd).
  { destruct (b_header b) as [h|]; [eapply xc_header; eassumption|]. apply CleanProofs.Ok_inj in E2. subst. constructor. }
  assert (X3 : xc core).
  { destruct (b_core_content b) as [oc|]; [|apply CleanProofs.Ok_inj in E3; subst; constructor].
    match type of E3 with bind ?m _ = _ => destruct m as [x|] eqn:E4; [|discriminate] end. cbn [bind] in E3.
    apply CleanProofs.Ok_inj in E3. subst core. assert (xc x); [|xs].
    destruct oc as [c|]; [|apply CleanProofs.Ok_inj in E4; subst; constructor]. destruct B3 as (C1 & C2 & C3 & C4 & C5 & C6).
    unfold pure_unparse_content in E4.
    match type of E4 with bind ?m _ = _ => destruct m as [s1|] eqn:F1; [|discriminate] end. cbn [bind] in E4.
    match type of E4 with bind ?m _ = _ => destruct m as [s2|] eqn:F2; [|discriminate] end. cbn [bind] in E4.
    match type of E4 with bind ?m _ = _ => destruct m as [s3|] eqn:F3; [|discriminate] end. cbn [bind] in E4.
    match type of E4 with bind ?m _ = _ => destruct m as [s4|] eqn:F4; [|discriminate] end. cbn [bind] in E4.
    match type of E4 with bind ?m _ = _ => destruct m as [s5|] eqn:F5; [|discriminate] end. cbn [bind] in E4.
    match type of E4 with bind ?m _ = _ => destruct m as [s6|] eqn:F6; [|discriminate] end. cbn [bind] in E4.
    apply CleanProofs.Ok_inj in E4. subst x.
    assert (xc s1) by (refine (section_xc _ _ _ _ _ _ _ C1 F1); [xlit|intros d y D Y; apply CleanProofs.Ok_inj in Y; subst y; apply xc_data_type, D]).
    assert (xc s2) by (refine (section_xc _ _ _ _ _ _ _ C2 F2); [xlit|intros; eapply xc_spec_type; eassumption]).
    assert (xc s3) by (refine (section_xc _ _ _ _ _ _ _ C3 F3); [xlit|intros; eapply xc_spec_object; eassumption]).
    assert (xc s4) by (refine (section_xc _ _ _ _ _ _ _ C4 F4); [xlit|intros; eapply xc_spec_relation; eassumption]).
    assert (xc s5) by (refine (section_xc _ _ _ _ _ _ _ C5 F5); [xlit|intros; eapply xc_specification; eassumption]).
    assert (xc s6) by (refine (section_xc _ _ _ _ _ _ _ C6 F6); [xlit|intros d y D Y; apply CleanProofs.Ok_inj in Y; subst y; apply xc_relation_group, D]).
    xs. }
  change (xc (("<?xml version=""1.0"" encoding=""UTF-8""?>" ++ nl) ++ ns ++ hd ++ core
      ++ (if b_tool_extensions b then "  <TOOL-EXTENSIONS>" ++ nl ++ "  </TOOL-EXTENSIONS>" ++ nl else [])
      ++ "</REQ-IF>" ++ nl)).
  destruct (b_tool_extensions b); xs.
Qed.
Lemma char_scalar c : char c -> scalar c.
Proof. intros H. apply scalar_spec, xml_scalar, char_ok, H. Qed.
Lemma xc_utf8 s : xc s -> exists raw, utf8 s raw.
Proof. intros H. apply encode_some. eapply Forall_impl; [apply char_scalar|exact H]. Qed.
(** So the text that passthrough writes can always be encoded: of the input's bytes,
    only those that are not UTF-8, not readable or not writable make it fail. *)
Theorem C70_passthrough_can_encode :
  forall raw s b t, utf8 s raw -> parse_string s = Ok b -> unparse_string b = Ok t ->
    exists out, utf8 t out /\ passthrough_reqif raw = Ok out.
Proof.
  intros raw s b t HS HB HT.
  destruct (xc_utf8 t) as (out & HO); [eapply C70_writing_keeps_xml_characters; [eapply C70_texts_are_xml_characters, HB|exact HT]|].
  exists out. split; [exact HO|]. apply C68_passthrough_writes_utf8. exists s, b, t. auto.
Qed.

(** The same of archives: what was read can be written if every document can. *)
Definition all_read (z : zbundle) : Prop := Forall (fun p => exists s, parse_string s = Ok (snd p)) (z_bundles z).
Lemma dict_set_all {A} (P : A -> Prop) d k v : Forall (fun p => P (snd p)) d -> P v -> Forall (fun p => P (snd p)) (dict_set d k v).
Proof.
  intros H HV. induction H as [|[k' v'] d H1 H2 IH]; [repeat constructor; exact HV|]. cbn [dict_set].
  destruct (ostr_eqb k k'); constructor; auto.
Qed.
Lemma zip_all_read a idx total names : forall z h h' z', all_read z -> zip_loop None a idx total names z h = (h', Ok z') -> all_read z'.
Proof.
  revert idx. induction names as [|n names IH]; intros idx z h h' z' HZ H; cbn [zip_loop] in H.
  - unfold ret in H. injection H as _ <-. exact HZ.
  - unfold mbind, lift in H. destruct (zip_member a n z) as [z1|] eqn:E; [|discriminate].
    cbn in H. eapply IH; [|exact H]. unfold zip_member in E. destruct (read_member a n); [|discriminate]. cbn [bind] in E.
    destruct (str_mem _ _) in E; [|injection E as <-; exact HZ].
    destruct (utf8_decode _) as [s|]; [|discriminate]. destruct (parse_string s) as [b|] eqn:EP; [|discriminate].
    cbn [bind] in E. injection E as <-. unfold all_read in *. cbn [z_bundles].
    apply (dict_set_all (fun b => exists s, parse_string s = Ok b)); [exact HZ|eauto].
Qed.
Theorem C70_archive_can_be_written :
  forall a z, snd (zip_parse None (Some a) []) = Ok z ->
    (forall k b, In (k, b) (z_bundles z) -> exists t, unparse_string b = Ok t) ->
    exists a', snd (zip_unparse None z []) = Ok a'.
Proof.
  intros a z H HW. assert (HR : all_read z).
  { unfold zip_parse, wrap_exn in H. destruct (zip_loop _ _ _ _ _ _ _) as [h' [z'|]] eqn:E; [|discriminate].
    cbn in H. injection H as ->. eapply zip_all_read; [|exact E]. constructor. }
  pose proof (proj2 (zip_unparse_traced z)) as HU. unfold pure in HU. rewrite HU.
  assert (HM : exists x, mapM entry (z_bundles z) = Ok x).
  { clear HU H. unfold all_read in HR. induction HR as [|[k b] l (s & HS) HL IH]; [exists []; reflexivity|].
    destruct IH as (x & HX); [intros k' b' HI; apply (HW k' b'); right; exact HI|]. cbn [mapM].
    destruct (HW k b (or_introl eq_refl)) as (t & HT). unfold entry at 1, encoded. cbn [fst snd]. rewrite HT. cbn [bind].
    cbn [snd] in HS. destruct (xc_utf8 t) as (raw & HO);
      [eapply C70_writing_keeps_xml_characters; [eapply C70_texts_are_xml_characters, HS|exact HT]|].
    apply encode_spec in HO. rewrite HO. cbn [bind]. rewrite HX. cbn [bind]. eauto. }
  destruct HM as (x & ->). cbn [bind]. eauto.
Qed.

(** The page of the dump command.  Python prints the list of an enumeration value
    with repr, which shows the printable characters of its texts and escapes the
    others: of XML characters it makes XML characters. *)
Definition prints_xml_characters (repr : list (option str) -> str) : Prop :=
  forall l, Forall (opt_text_is (Forall char)) l -> Forall char (repr l).
Lemma table_xc repr o : prints_xml_characters repr -> spec_object_texts xc o -> xc (show_table (table_of repr o)).
Proof.
  intros HR ((O1 & _ & _ & _) & O2 & O3). unfold show_table, table_of. cbn [tb_type tb_identifier tb_values].
  repeat (apply xc_app; [first [xlit|apply xc_fmt; assumption|assumption|idtac]|]); [|xlit].
  apply xc_flat_map, Forall_map. eapply Forall_impl; [|exact O3]. intros a (A1 & A2). cbn [fst snd].
  repeat (apply xc_app; [first [xlit|apply xc_fmt; assumption|idtac]|]); [|xlit].
  destruct (sa_value a); [exact A2|apply HR, A2].
Qed.
Theorem C70_page_can_be_encoded :
  forall repr s b html, prints_xml_characters repr -> parse_string s = Ok b -> dump_html repr b = Ok html ->
    Forall char html /\ exists raw, utf8 html raw.
Proof.
  intros repr s b html HR HB HD. enough (X : xc html) by (split; [exact X|apply xc_utf8, X]).
  destruct (proj1 (C48_page_shows_the_document repr s b html HB) HD) as ([ph pc] & (E1 & E2) & ->).
  cbn [pg_header pg_content] in *. destruct (C70_texts_are_xml_characters s b HB) as (_ & B2 & B3). subst ph.
  unfold show_page. cbn [pg_header pg_content].
  apply xc_app; [xlit|]. apply xc_app.
  { destruct (b_header b) as [h|]; [|constructor]. cbn [option_map]. destruct B2 as (_ & _ & H3 & _ & _ & _ & _ & H8).
    repeat (apply xc_app; [first [xlit|apply xc_fmt; assumption]|]). xlit. }
  apply xc_app; [xlit|]. apply xc_app; [|xlit].
  destruct (b_core_content b) as [[c|]|] eqn:EC; [|subst pc; xlit|subst pc; xlit].
  destruct E2 as (ds & ss & sps & l & D1 & D2 & D3 & F & ->). destruct B3 as (C1 & C2 & C3 & _ & C5 & _).
  rewrite D1 in C1. rewrite D2 in C2. rewrite D3 in C5. cbn [all_of] in *.
  repeat (apply xc_app; [first [xlit|idtac]|]); try xlit.
  - apply xc_flat_map, Forall_map. eapply Forall_impl; [|exact C1]. intros d ((X & _) & _).
    apply xc_app; [xlit|]. apply xc_app; [exact X|xlit].
  - apply xc_flat_map, Forall_map. eapply Forall_impl; [|exact C2]. intros t X.
    apply xc_app; [xlit|]. apply xc_app; [destruct t; exact (proj1 (proj1 X))|xlit].
  - apply xc_flat_map. clear D3 HD. revert C5. induction F as [|sp x sps l (nodes & os & _ & FO & ->) _ IH]; [constructor|].
    intros C5. inversion C5 as [|? ? S1 S2]; subst. constructor; [|apply IH, S2].
    destruct S1 as ((_ & _ & _ & S1) & _). unfold show_specification. cbn [fst snd].
    repeat (apply xc_app; [first [xlit|apply xc_fmt; assumption|idtac]|]); [|xlit].
    apply xc_flat_map, Forall_map. clear -FO C3 EC HR. induction FO as [|h o nodes os T _ IH]; [constructor|].
    constructor; [|exact IH]. apply table_xc; [exact HR|]. unfold target, is_last_with, spec_objects_of, b_list, bundle_content in T. rewrite ?EC in T.
    destruct T as (pre & post & T & _). destruct (rc_spec_objects c) as [so|]; [|destruct pre; discriminate].
    cbn [olist all_of] in *. eapply Forall_forall; [exact C3|]. rewrite T. apply in_or_app. right. left. reflexivity.
Qed.
(** So no command that fails has changed a file, dump included. *)
Theorem C70_failing_commands_change_nothing :
  forall t s cwd r, prints_xml_characters (t_repr_list t) ->
    ended (perform t s cwd r) <> Exit 0 -> changes (perform t s cwd r) = [].
Proof.
  intros t s cwd r HR HE. apply C41_nothing_changes_on_failure; [exact HE|]. destruct r as [|? ?|i ?| | |]; try exact I.
  intros b html HB HD HN. destruct (fs_file s i) as [raw|]; [|discriminate]. unfold parse_file in HB.
  destruct (utf8_decode raw) as [x|]; [|discriminate]. 
  destruct (C70_page_can_be_encoded _ (universal_newlines x) b html HR HB HD) as (_ & out & HO).
  apply encode_spec in HO. congruence.
Qed.

(** A bundle built by a program may hold half of a surrogate pair.  It is written as
    a text, but that text cannot be stored in a file. *)
Definition half_pair : bundle :=
  Bundle (NamespaceInfo (Some "<REQ-IF>") false "UTF-8" None None None None None None None)
    (Some (Header (Some "h") (Some [104; 55357; 105]%N) None RepoNone None None None None)) None false lookup_empty [].
Theorem C70_built_bundle_refuted :
  exists b t, unparse_string b = Ok t /\ ~ (exists raw, utf8 t raw)
    /\ ~ bundle_texts (Forall char) b
    /\ snd (zip_unparse None (ZBundle [(Some "a.reqif", b)] []) []) = Raise EUnicodeError.
Proof.
  exists half_pair, (match unparse_string half_pair with Ok t => t | Raise _ => [] end).
  assert (HN : ~ exists raw, utf8 (match unparse_string half_pair with Ok t => t | Raise _ => [] end) raw).
  { intros (raw & H). apply encode_spec in H. vm_compute in H. discriminate H. }
  split; [vm_compute; reflexivity|]. split; [exact HN|]. split; [|vm_compute; reflexivity].
  intros H. apply HN. apply xc_utf8. eapply C70_writing_keeps_xml_characters; [exact H|vm_compute; reflexivity].
Qed.
(** A value with an accented letter, the euro sign as a reference and a clef *)
Definition ex_value : str := ([233] ++ "&#8364;" ++ [119070])%N.
Example C70_example :
  exists b t html, parse_string (one_object ex_value) = Ok b /\ unparse_string b = Ok t
    /\ dump_html (fun l => flat_map fmt l) b = Ok html
    /\ prints_xml_characters (fun l => flat_map fmt l)
    /\ contains ([233; 8364; 119070]%N) t = true /\ contains ([233; 8364; 119070]%N) html = true
    /\ exists raw, utf8 (one_object ex_value) raw.
Proof.
  eexists. eexists. eexists. split; [vm_compute; reflexivity|]. split; [vm_compute; reflexivity|]. split; [vm_compute; reflexivity|].
  split; [|split; [vm_compute; reflexivity|split; [vm_compute; reflexivity|]]].
  - intros l HL. apply xc_flat_map. eapply Forall_impl; [|exact HL]. intros o HO. apply xc_fmt, HO.
  - eexists. apply encode_spec. vm_compute. reflexivity.
Qed.

Print Assumptions C70_texts_are_xml_characters.
Print Assumptions C70_writing_keeps_xml_characters.
Print Assumptions C70_passthrough_can_encode.
Print Assumptions C70_archive_can_be_written.
Print Assumptions C70_page_can_be_encoded.
Print Assumptions C70_failing_commands_change_nothing.
Print Assumptions C70_built_bundle_refuted.
