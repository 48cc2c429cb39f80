(** Prop_AnonymizeBundle.v -- C64: an anonymised file is parsed to the bundle with
    its values hidden *)
From Verif Require Import Base Xml Utf8 Lxml Py LxmlStr Models Progress Parser Serialise Unparser Validate Zip Anonymize Dump
  Commands SpecCommands SpecXml SpecFormat SpecPrint SpecDocument SpecAnonymize SpecLayout SpecHidden XmlProofs Utf8Proofs DictProofs
  ParserProofs FormatProofs HideProofs HideDoc LayoutProofs HideOut
  Prop_Lines Prop_Commands Prop_Anonymize Prop_Reformat Prop_AnonymizeFile.

(** ** C64

    The document is in one namespace and in the ReqIF structure (SpecHidden.v,
    SpecLayout.v).  Then the text that anonymize makes of it is parsed with the
    same progress reports, to the bundle that the document itself is parsed to,
    with hidden values ([hidden_bundle], SpecHidden.v): identifiers, references,
    types, hierarchies and all other attributes are kept. *)
Theorem C64_anonymized_text_is_parsed :
  forall t cb raw text decl root uri out h h1 b,
    utf8_decode raw = Some text -> lxml_parse text = Some (decl, root) -> portable false root ->
    ns_get (node_nsmap root) None = Some uri -> one_namespace uri root -> orderly_root true root ->
    prefix_in_use root \/ no_xhtml_default root ->
    anonymize_output t raw = Ok out -> parse_from_string cb text h = (h1, Ok b) ->
    exists b', parse_from_string cb out h = (h1, Ok b') /\ hidden_bundle (t_sha t) (declared b) b'.
Proof.
  intros t cb raw text decl root uri out h h1 b HD HP HO NS ON OR HU HX RUN.
  assert (HA : exists r, anonymize_tree (t_sha t) root = Ok r).
  { destruct (anonymize_tree (t_sha t) root) as [r|e] eqn:E; [eauto|]. rewrite (C63_failure t raw text decl root e HD HP E) in HX. discriminate HX. }
  destruct HA as [r HA].
  destruct (C63_output_is_the_anonymized_document t raw text decl root r HD HP HO HA) as (out' & d & root' & E1 & _ & E3 & E4 & _).
  assert (out' = out) by congruence. subst out'. clear E1 HX.
  assert (RR : parse_reqif cb decl root h = (h1, Ok b)).
  { unfold parse_from_string in RUN. destruct text as [|c s]; [discriminate HP|]. rewrite HP in RUN. exact RUN. }
  destruct (anonymized_parse (t_sha t) cb decl root r uri NS ON HU HA h h1 b RR) as (b1 & R1 & HB).
  pose proof (anonymized_orderly _ _ _ _ _ _ _ _ _ NS ON OR HA RR) as OR'.
  pose proof (reqif_rel false cb (Some "xml version=""1.0"" encoding=""UTF-8""") r root' (respaced_relaid_root false _ _ OR' E4) h) as [G1 G2].
  rewrite (declared_parse cb decl r h), R1 in G1, G2. cbn [fst snd on_value] in G1, G2.
  destruct (parse_reqif cb (Some "xml version=""1.0"" encoding=""UTF-8""") root' h) as [h2 [b2|e]] eqn:E2; [|contradiction G2]. cbn [fst snd same_result] in G1, G2.
  exists b2. split.
  - unfold parse_from_string. destruct out as [|c s]; [discriminate E3|]. rewrite E3, E2, G1. reflexivity.
  - apply (erased_bundle _ b b1 b2 HB). apply (bundle_rel_same false), G2.
Qed.
(** The command, and the file that it writes *)
Theorem C64_anonymize_command :
  forall t s cwd i o cb raw text decl root uri h h1 b,
    fs_file s i = Some raw -> utf8_decode raw = Some text -> lxml_parse text = Some (decl, root) -> portable false root ->
    ns_get (node_nsmap root) None = Some uri -> one_namespace uri root -> orderly_root true root ->
    prefix_in_use root \/ no_xhtml_default root ->
    parse_file cb (fs_file s i) h = (h1, Ok b) ->
    let run := perform t s cwd (RAnonymize i o) in
    ended run = Exit 0 ->
    exists b', parse_file cb (fs_file (final s run) o) h = (h1, Ok b') /\ hidden_bundle (t_sha t) (declared b) b'.
Proof.
  intros t s cwd i o cb raw text decl root uri h h1 b HF HD HP HO NS ON OR HU RUN rn EN.
  destruct (C41_output_file t s cwd (RAnonymize i o) o eq_refl EN) as (d & N & F & _). fold rn in F. cbn [new_content] in N. rewrite HF in N.
  destruct (anonymize_output t raw) as [out|e] eqn:EO; [|discriminate N].
  rewrite HF, (C51_file_is_its_text cb raw text h HD) in RUN.
  rewrite F, (C51_file_is_its_text cb d out h); [|apply decode_encode; congruence].
  apply (C64_anonymized_text_is_parsed t cb raw text decl root uri out h h1 b); assumption.
Qed.
Print Assumptions C64_anonymized_text_is_parsed.
Print Assumptions C64_anonymize_command.

(** ** An example *)
Definition plainb (uri : str) (ns : option nsref) (l : str) : bool :=
  match ns with Some (_, u) => str_eqb u uri | None => false end && negb (contains "http://www.w3.org/1999/xhtml" (clark ns l)).
Lemma plainb_sound uri ns l : plainb uri ns l = true -> plain_element uri ns l.
Proof.
  unfold plainb, plain_element. intros H. apply andb_true_iff in H. destruct H as [H1 H2]. apply negb_true_iff in H2. split; [|exact H2].
  destruct ns as [[p u]|]; [|discriminate]. apply str_eqb_eq in H1. subst u. exists p. reflexivity.
Qed.
Definition impl (a b : bool) : bool := negb a || b.
Definition placedb (parent l : str) : bool :=
  impl (str_eqb l "SPECIFICATION") (str_eqb parent "SPECIFICATIONS") && impl (str_eqb l "REQ-IF-HEADER") (str_eqb parent "THE-HEADER")
  && impl (str_eqb l "ATTRIBUTE-VALUE-STRING" || str_eqb l "ATTRIBUTE-VALUE-XHTML") (str_eqb parent "VALUES" || str_eqb parent "DEFAULT-VALUE").
Lemma impl_sound a b : impl a b = true -> a = true -> b = true.
Proof. intros H ->. exact H. Qed.
Lemma placedb_sound parent l : placedb parent l = true -> placed parent l.
Proof.
  unfold placedb. intros H. apply andb_true_iff in H. destruct H as [H H3]. apply andb_true_iff in H. destruct H as [H1 H2].
  pose proof (impl_sound _ _ H1) as G1. pose proof (impl_sound _ _ H2) as G2. pose proof (impl_sound _ _ H3) as G3.
  rewrite !orb_true_iff in G3. rewrite !str_eqb_eq in *. repeat split; auto.
Qed.
Fixpoint foreignb (uri : str) (n : node) : bool :=
  match n with El ns _ _ _ _ kids => negb (match ns with Some (_, u) => str_eqb u uri | None => false end) && forallb (foreignb uri) kids | _ => true end.
Lemma foreignb_sound uri n : foreignb uri n = true -> foreign uri n.
Proof.
  induction n as [c|s|s|ns l d i a kids IH] using node_ind'; cbn [foreignb]; intros H; constructor.
  - apply andb_true_iff in H. destruct H as [H _]. intros p ->. rewrite (proj2 (str_eqb_eq uri uri) eq_refl) in H. discriminate H.
  - apply andb_true_iff in H. destruct H as [_ H]. rewrite forallb_forall in H. rewrite Forall_forall in IH. auto.
Qed.
Fixpoint in_namespaceb (uri parent : str) (n : node) : bool :=
  match n with
  | El ns l _ _ _ kids =>
      plainb uri ns l
      && (str_eqb parent "ATTRIBUTE-VALUE-XHTML" && str_eqb l "THE-VALUE" && forallb (foreignb uri) kids
          || placedb parent l && forallb (in_namespaceb uri l) kids)
  | Pin _ => false
  | _ => true
  end.
Lemma in_namespaceb_sound uri n : forall parent, in_namespaceb uri parent n = true -> in_namespace uri parent n.
Proof.
  induction n as [c|s|s|ns l d i a kids IH] using node_ind'; intros parent H; cbn [in_namespaceb] in H; [constructor|constructor|discriminate|].
  apply andb_true_iff in H. destruct H as [HP H]. apply plainb_sound in HP. apply orb_true_iff in H. destruct H as [H|H].
  - apply andb_true_iff in H. destruct H as [H H3]. apply andb_true_iff in H. rewrite !str_eqb_eq in H. destruct H as [-> ->]. apply in_value; [exact HP|].
    apply Forall_forall. intros k HK. apply foreignb_sound. rewrite forallb_forall in H3. auto.
  - apply andb_true_iff in H. destruct H as [H1 H2]. apply in_el; [exact HP|apply placedb_sound, H1|]. rewrite forallb_forall in H2. rewrite Forall_forall in *. auto.
Qed.
Definition one_namespaceb (uri : str) (n : node) : bool :=
  match n with
  | El ns l _ _ _ kids =>
      plainb uri ns l && forallb (fun k => in_namespaceb uri l k || match k with El _ l' _ _ _ _ => str_eqb l' "TOOL-EXTENSIONS" | _ => false end) kids
  | _ => false
  end.
Lemma one_namespaceb_sound uri n : one_namespaceb uri n = true -> one_namespace uri n.
Proof.
  destruct n as [c|ns l d i a kids|s|s]; try discriminate. cbn [one_namespaceb]. intros H. apply andb_true_iff in H. destruct H as [H1 H2].
  exists ns, l, d, i, a, kids. split; [reflexivity|]. split; [apply plainb_sound, H1|]. apply Forall_forall. intros k HK. rewrite forallb_forall in H2.
  specialize (H2 k HK). apply orb_true_iff in H2. destruct H2 as [H2|H2]; [left; apply in_namespaceb_sound, H2|].
  destruct k as [c|ns' l' d' i' a' kids'|s|s]; try discriminate H2. apply str_eqb_eq in H2. subst l'. right. repeat eexists.
Qed.
Fixpoint no_defaultb (n : node) : bool :=
  match n with
  | El _ l _ _ _ kids =>
      impl (str_eqb l "DEFAULT-VALUE") (forallb (fun k => match k with El _ l' _ _ _ _ => negb (str_eqb l' "ATTRIBUTE-VALUE-XHTML") | _ => true end) kids)
      && forallb no_defaultb kids
  | _ => true
  end.
Lemma no_defaultb_sound n : no_defaultb n = true -> no_xhtml_default n.
Proof.
  induction n as [c|s|s|ns l d i a kids IH] using node_ind'; intros H; constructor; cbn [no_defaultb] in H; apply andb_true_iff in H; destruct H as [H1 H2].
  - intros -> ns' d' i' a' kids' HI. pose proof (impl_sound _ _ H1 eq_refl) as G. rewrite forallb_forall in G. specialize (G _ HI). discriminate G.
  - rewrite forallb_forall in H2. rewrite Forall_forall in *. auto.
Qed.
Lemma tidy_orderly x n : forall p, tidy x p n -> orderly x p n.
Proof.
  induction n as [c|s|s|ns l d i a kids IH] using node_ind'; intros p T; inversion T as [|? ? ? ? ? ? ? TX|? ? ? ? ? ? ? FR|? p' ? ? ? ? ? ? TI TK]; subst.
  - constructor.
  - apply orderly_text, TX.
  - apply orderly_free, FR.
  - apply (orderly_element x p p'); [exact TI|]. rewrite Forall_forall in *. intros k HK. apply IH; [|apply TK, HK]. unfold items in HK. apply filter_In in HK. apply HK.
Qed.
Lemma tidy_orderly_root x n : tidy_root x n -> orderly_root x n.
Proof.
  intros (ns & l & d & i & a & kids & -> & T). exists ns, l, d, i, a, kids. split; [reflexivity|]. rewrite Forall_forall in *. intros k HK. apply tidy_orderly, T, HK.
Qed.
(** [root]: further attributes of the root element; [default]: the default value
    of an attribute; [name]: the name of the second specification's element *)
Definition hidden_doc (root default name : str) : str :=
  "<REQ-IF xmlns='http://www.omg.org/spec/ReqIF/20110401/reqif.xsd' xmlns:h='http://www.w3.org/1999/xhtml'" ++ root ++ "><THE-HEADER>"
  ++ "<REQ-IF-HEADER IDENTIFIER='i'><COMMENT>mine</COMMENT><TITLE>caf" ++ [0xE9%N] ++ "</TITLE></REQ-IF-HEADER></THE-HEADER><CORE-CONTENT><REQ-IF-CONTENT>"
  ++ "<SPEC-TYPES><SPEC-OBJECT-TYPE IDENTIFIER='t'><SPEC-ATTRIBUTES><ATTRIBUTE-DEFINITION-XHTML IDENTIFIER='d' LONG-NAME='D'>"
  ++ "<TYPE><DATATYPE-DEFINITION-XHTML-REF>x</DATATYPE-DEFINITION-XHTML-REF></TYPE>" ++ default ++ "</ATTRIBUTE-DEFINITION-XHTML></SPEC-ATTRIBUTES></SPEC-OBJECT-TYPE></SPEC-TYPES>"
  ++ "<SPEC-OBJECTS><SPEC-OBJECT IDENTIFIER='o'><VALUES><ATTRIBUTE-VALUE-STRING THE-VALUE='secret'>"
  ++ "<DEFINITION><ATTRIBUTE-DEFINITION-STRING-REF>s</ATTRIBUTE-DEFINITION-STRING-REF></DEFINITION></ATTRIBUTE-VALUE-STRING>"
  ++ "<ATTRIBUTE-VALUE-XHTML><DEFINITION><ATTRIBUTE-DEFINITION-XHTML-REF>d</ATTRIBUTE-DEFINITION-XHTML-REF></DEFINITION><THE-VALUE>"
  ++ "<h:div>secret<h:br/></h:div></THE-VALUE></ATTRIBUTE-VALUE-XHTML></VALUES><TYPE><SPEC-OBJECT-TYPE-REF>t</SPEC-OBJECT-TYPE-REF></TYPE></SPEC-OBJECT></SPEC-OBJECTS>"
  ++ "<SPECIFICATIONS><SPECIFICATION IDENTIFIER='sp' LONG-NAME='secret'><CHILDREN><SPEC-HIERARCHY IDENTIFIER='h'><OBJECT><SPEC-OBJECT-REF>o</SPEC-OBJECT-REF></OBJECT>"
  ++ "</SPEC-HIERARCHY></CHILDREN></SPECIFICATION><" ++ name ++ " IDENTIFIER='old' LONG-NAME='secret'/></SPECIFICATIONS>"
  ++ "</REQ-IF-CONTENT></CORE-CONTENT><TOOL-EXTENSIONS><x:y xmlns:x='z'/></TOOL-EXTENSIONS></REQ-IF>".
(** the hypotheses *)
Definition anonymizable (s : str) : Prop :=
  exists decl root uri,
    lxml_parse s = Some (decl, root) /\ portable false root /\ ns_get (node_nsmap root) None = Some uri
    /\ one_namespace uri root /\ orderly_root true root
    /\ (prefix_in_use root \/ no_xhtml_default root).
Definition rehidden (s : str) : option (bundle * bundle) :=
  match parse_string s, anonymize_doc s with
  | Ok b, Ok out => match parse_string out with Ok b' => Some (b, b') | Raise _ => None end
  | _, _ => None
  end.
Definition specification_names (b : bundle) : list (str * option str) :=
  match b_core_content b with
  | Some (Some c) => match rc_specifications c with Some l => map (fun s => (sp_identifier s, sp_long_name s)) l | None => [] end
  | _ => []
  end.
Definition hidden_default_value : str :=
  "<DEFAULT-VALUE><ATTRIBUTE-VALUE-XHTML><DEFINITION><ATTRIBUTE-DEFINITION-XHTML-REF>d</ATTRIBUTE-DEFINITION-XHTML-REF></DEFINITION>"
  ++ "<THE-VALUE><h:div>secret</h:div></THE-VALUE></ATTRIBUTE-VALUE-XHTML></DEFAULT-VALUE>".
Definition location : str :=
  " xmlns:xsi='http://www.w3.org/2001/XMLSchema-instance' xsi:schemaLocation='a b'".
Definition default_values (b : bundle) : list default_value :=
  match b_core_content b with
  | Some (Some c) =>
      match rc_spec_types c with
      | Some l => flat_map (fun t => match t with STObject x => match sot_attribute_definitions x with Some ds => map ad_default_value ds | None => [] end | _ => [] end) l
      | None => []
      end
  | _ => []
  end.
Lemma anonymizable_check decl root uri s :
  lxml_parse s = Some (decl, root) -> ns_get (node_nsmap root) None = Some uri ->
  plain_namesb root && one_namespaceb uri root && tidy_rootb true root
  && (no_defaultb root
      || match root with
         | El _ _ d _ a _ => existsb (fun x => match a_ns x with Some (p, _) => ostr_mem p (map fst d) | None => false end) a
         | _ => false
         end) = true ->
  anonymizable s.
Proof.
  intros H1 H2 H. apply andb_true_iff in H. destruct H as [H HU]. apply andb_true_iff in H. destruct H as [H H5]. apply andb_true_iff in H. destruct H as [H3 H4].
  exists decl, root, uri. split; [exact H1|]. split; [apply plain_namesb_sound, H3|]. split; [exact H2|]. split; [apply one_namespaceb_sound, H4|].
  split; [apply tidy_orderly_root, tidy_rootb_sound, H5|]. apply orb_true_iff in HU. destruct HU as [HU|HU]; [right; apply no_defaultb_sound, HU|left].
  destruct root as [c|ns l d i a kids|c|c]; try discriminate HU. apply existsb_exists in HU. destruct HU as (x & HX & HU). destruct (a_ns x) as [[p u]|] eqn:EN; [|discriminate HU].
  exists ns, l, d, i, a, kids, x, p, u. split; [reflexivity|]. split; [exact HX|]. split; [exact EN|apply ostr_mem_In, HU].
Qed.
Example C64_example :
  anonymizable (hidden_doc [] [] "SPECIFICATION") /\ anonymizable (hidden_doc location hidden_default_value "SPECIFICATION")
  /\ (exists b b', rehidden (hidden_doc [] [] "SPECIFICATION") = Some (b, b')
       /\ values_of b = [VStr "secret"; VStr "<h:div>secret<h:br/></h:div>"]
       /\ values_of b' = [VStr "...Anonymized-7..."; VStr "...Anonymized-7..."]
       /\ specification_names b = [("sp" : str, Some ("secret" : str)); ("old" : str, Some ("secret" : str))]
       /\ specification_names b' = [("sp" : str, Some ("...Anonymized-7..." : str)); ("old" : str, Some ("...Anonymized-7..." : str))])
  /\ (exists b b', rehidden (hidden_doc location hidden_default_value "SPECIFICATION") = Some (b, b')
       /\ default_values b = [DVStr "<h:div>secret</h:div>"] /\ default_values b' = [DVStr "...Anonymized-7..."]).
Proof.
  split; [eapply anonymizable_check; [vm_compute; reflexivity|vm_compute; reflexivity|]; vm_compute; reflexivity|].
  split; [eapply anonymizable_check; [vm_compute; reflexivity|vm_compute; reflexivity|]; vm_compute; reflexivity|]. split.
  - eexists _, _. split; [vm_compute; reflexivity|]. split; [vm_compute; reflexivity|]. split; [vm_compute; reflexivity|]. split; vm_compute; reflexivity.
  - eexists _, _. split; [vm_compute; reflexivity|]. split; vm_compute; reflexivity.
Qed.

(** ** What does not hold

    Not every file that can be parsed can be parsed when anonymised: the prefix of
    the XHTML namespace is not used any more, the parser drops it, and then expects
    one for the default value. *)
Theorem C64_anonymized_files_can_be_parsed_refuted :
  exists s b out,
    parse_string s = Ok b /\ anonymize_doc s = Ok out /\ parse_string out = Raise EAssertionError.
Proof.
  exists (hidden_doc [] hidden_default_value "SPECIFICATION"). eexists _, _. split; [vm_compute; reflexivity|]. split; [vm_compute; reflexivity|]. vm_compute. reflexivity.
Qed.
(** The parser takes every element in SPECIFICATIONS whose name contains
    SPECIFICATION for a specification; its long name is not hidden. *)
Theorem C64_all_specifications_are_hidden_refuted :
  exists b b', rehidden (hidden_doc [] [] "SPECIFICATION-OLD") = Some (b, b')
    /\ In ("old" : str, Some ("secret" : str)) (specification_names b') /\ In ("old" : str, Some ("secret" : str)) (specification_names b).
Proof. eexists _, _. split; [vm_compute; reflexivity|]. split; vm_compute; intuition. Qed.
Print Assumptions C64_anonymized_files_can_be_parsed_refuted.
Print Assumptions C64_all_specifications_are_hidden_refuted.
