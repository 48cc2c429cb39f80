(** Prop_AnonymizeFile.v -- C63: the output file of the anonymize command *)
From Verif Require Import Base Xml Utf8 Lxml Py LxmlStr Models Progress Parser Serialise Unparser Validate Zip Anonymize Dump
  Commands SpecCommands SpecXml SpecLines SpecFormat SpecAnonymize XmlProofs Utf8Proofs XmlChars GrammarProofs DictProofs ParserProofs LineProofs
  SerialiseProofs SerialiseDoc FormatProofs SpaceProofs AnonymizeProofs Prop_Commands Prop_Anonymize.

Lemma portable_mark_up n : mark_up n -> portable false n.
Proof.
  destruct n as [c|ns l d i a ks|s|s]; try contradiction; intros _; [constructor|].
  destruct (pi_parts s) as (sp & E & W & E1 & E2). rewrite E. constructor; [discriminate| | |exact W].
  - unfold pi_target. clear. induction s as [|c s IH]; cbn [take_while]; [constructor|]. destruct (is_ws c) eqn:EW; cbn [negb]; [constructor|].
    constructor; [|exact IH]. intros H. apply white_ok in H. congruence.
  - intros ->. destruct (existsb is_ws s) eqn:EX; [contradiction (E1 eq_refl); reflexivity|]. apply E2. reflexivity.
Qed.
Lemma aside_portable l : Forall aside l -> Forall (portable false) l.
Proof. apply Forall_impl. intros n [_ H]. apply portable_mark_up. destruct n; auto. Qed.
Lemma resolve_el env x n : resolve env x = Some n -> is_element x = true -> is_el_ n.
Proof.
  destruct x as [c|nm at_ ks|s|s]; try discriminate. intros H _. rewrite resolve_head in H.
  destruct (resolve env (XElem nm at_ [])) as [[| | |]|]; try discriminate. destruct (map_opt _ ks); [|discriminate]. injection H as <-. exact I.
Qed.
Lemma parsed_element s decl root : lxml_parse s = Some (decl, root) -> is_el_ root.
Proof.
  intros H. unfold lxml_parse in H. destruct (etree_parse s) as [d|] eqn:E; [|discriminate]. destruct (resolve [] (d_root d)) as [r|] eqn:ER; [|discriminate].
  injection H as <- <-. apply etree_parse_text in E. apply (read_element (document_text s) (d_decl d)). unfold read_document. rewrite E, ER. reflexivity.
Qed.

(** ** What is written is a document

    [portable false]: namespace names hold no tabs, line ends, "&" and "<"
    (SpecFormat.v).  The text returned is a document whose tree is the anonymized
    tree, but for white space next to markup. *)
Theorem C63_output_is_the_anonymized_document :
  forall t raw text decl root r,
    utf8_decode raw = Some text -> lxml_parse text = Some (decl, root) -> portable false root ->
    anonymize_tree (t_sha t) root = Ok r ->
    exists out d root',
      anonymize_output t raw = Ok out /\ utf8_encode out = Some d
      /\ lxml_parse out = Some (Some "xml version=""1.0"" encoding=""UTF-8""", root')
      /\ respaced false r root'
      /\ let around := surroundings (document_text (universal_newlines text)) in
         Forall2 (respaced false) (fst around) (fst (surroundings out))
         /\ Forall2 (respaced false) (snd around) (snd (surroundings out)).
Proof.
  intros t raw text decl root r HD HP HO HA.
  assert (HU : lxml_parse (universal_newlines text) = Some (decl, root)).
  { unfold lxml_parse in HP |- *. rewrite etree_parse_un. exact HP. }
  destruct (parsed_sound _ _ _ HU) as (S1 & S2 & S3 & S4). pose proof (parsed_element _ _ _ HP) as HE.
  destruct (anonymized_good (t_sha t) root r []) as [[G1 G2] G3]; [split; [split; [apply portable_writable; assumption|exact S2]|exact HE]|exact HA|].
  destruct (aside_writable false _ S3 (aside_portable _ S3)) as [B1 B2]. destruct (aside_writable false _ S4 (aside_portable _ S4)) as [A1 A2].
  destruct (written_read false (no_encoding decl) _ _ r B1 B2 A1 A2 G1 G3 G2) as (R1 & R2 & R3 & R4).
  set (out := write_document false (no_encoding decl) (fst (surroundings (document_text (universal_newlines text))))
                (snd (surroundings (document_text (universal_newlines text)))) r) in *.
  assert (HX : exists d, utf8_encode out = Some d).
  { unfold lxml_parse in R1. destruct (etree_parse out) as [dd|] eqn:ED; [|discriminate]. apply (etree_parse_xml _ _ ED). }
  destruct HX as [d ED]. exists out, d, (pretty true 0 (refined false r)).
  split.
  { unfold anonymize_output. rewrite HD. cbv zeta. unfold anonymize_text. rewrite HU, HA. cbn [bind].
    assert (ET : tostring (universal_newlines text) decl r = out) by (unfold tostring, out; destruct (surroundings _); reflexivity).
    rewrite ET, ED, (decode_encode _ _ ED). reflexivity. }
  split; [exact ED|]. split; [exact R1|]. split.
  { assert (NC : is_chr r = false) by (destruct r; try contradiction; reflexivity).
    exact (respaced_pretty false false r NC false true 0). }
  cbv zeta. rewrite R4. cbn [fst snd].
  assert (AM : forall l, Forall mark_up l -> Forall2 (respaced false) l (map (refined false) l)).
  { induction 1 as [|n l HN _ IH]; constructor; [|exact IH]. pose proof (respaced_pretty false false n) as G.
    cbn [maybe] in G. specialize (G ltac:(destruct n; try contradiction HN; reflexivity) false false 0).
    rewrite pretty_mark in G by exact HN. exact G. }
  split; apply AM; assumption.
Qed.
(** If the changes cannot be made, the command fails with the same exception. *)
Theorem C63_failure :
  forall t raw text decl root e,
    utf8_decode raw = Some text -> lxml_parse text = Some (decl, root) -> anonymize_tree (t_sha t) root = Raise e ->
    anonymize_output t raw = Raise e.
Proof.
  intros t raw text decl root e HD HP HA. unfold anonymize_output. rewrite HD. cbv zeta. unfold anonymize_text, lxml_parse in *.
  rewrite etree_parse_un. destruct (etree_parse text) as [d|]; [|discriminate]. destruct (resolve [] (d_root d)) as [x|]; [|discriminate].
  injection HP as <- <-. rewrite HA. reflexivity.
Qed.

(** ** Nodes at the same place in two trees that differ in white space *)
Lemma children_near P kids kids' : near P kids kids' ->
  kids = kids' /\ Forall is_text kids \/ Forall2 P (filter (fun k => negb (is_chr k)) kids) (filter (fun k => negb (is_chr k)) kids').
Proof.
  assert (EI : forall l, filter (fun k => negb (is_chr k)) l = SpecLayout.items l) by (intros l; apply filter_ext; intros [| | |]; reflexivity).
  intros [[H ->]|(t & t' & m & m' & A & -> & -> & D & E & F & G)].
  - left. split; [reflexivity|]. destruct (all_chars _ H) as (t & ->). clear. induction t; constructor; [eexists; reflexivity|assumption].
  - right. rewrite !EI, !items_un by assumption. clear -G. induction G as [|x y m m' [H _] _ IH]; constructor; assumption.
Qed.
Lemma text_only_children kids : Forall is_text kids -> filter (fun k => negb (is_chr k)) kids = [].
Proof. induction 1 as [|k kids [c ->] _ IH]; [reflexivity|exact IH]. Qed.
Lemma respaced_path p : forall n n' par par', respaced false n n' ->
  match at_path par n p, at_path par' n' p with
  | Some pn, Some pn' => respaced false (snd pn) (snd pn')
  | None, None => True
  | _, _ => False
  end.
Proof.
  induction p as [|k p IH]; intros n n' par par' H; cbn [at_path]; [exact H|].
  assert (C : Forall2 (respaced false) (children n) (children n')).
  { unfold children. inversion H; subst; cbn [kids_of filter]; try constructor.
    - rewrite text_only_children; [constructor|]. eapply Forall_impl; [|eassumption]. intros x [c ->]. eexists. reflexivity.
    - apply respaced_near in H. destruct H as (kids0 & E & NR). injection E as <-.
      destruct (children_near _ _ _ NR) as [[<- HT]|F]; [rewrite text_only_children by exact HT; constructor|exact F]. }
  clear H. revert k. induction C as [|x y l l' Hxy C IHC]; intros [|k]; cbn [nth_error]; [exact I|exact I|apply IH, Hxy|apply IHC].
Qed.

(** ** The values in the output file *)
Lemma digest_nonblank sha s t : digest sha s t -> ~ SpecFormat.blank t /\ t <> [].
Proof.
  intros (b & _ & ->). split; [|discriminate]. intros H. inversion H as [|c l HC _]; subst. cbn in HC. intuition discriminate.
Qed.
Lemma respaced_lead ns l d i a ks n' : respaced false (El ns l d i a ks) n' -> exists ks', n' = El ns l d i a ks' /\ same_text (lead ks) (lead ks').
Proof.
  intros H. inversion H as [| |? ? ? ? ? ? HT|? ? ? ? ? ? ks' t t' m m' H1 H2 H3 H4 H5]; subst.
  - exists ks. split; [reflexivity|]. left. reflexivity.
  - exists ks'. split; [reflexivity|]. rewrite !pieces_lead, H2, H3. exact H4.
Qed.
Lemma respaced_only ns l d i a t n' : respaced false (El ns l d i a (map Chr t)) n' -> n' = El ns l d i a (map Chr t).
Proof.
  intros H. inversion H as [| |? ? ? ? ? ? HT|? ? ? ? ? ? ks' u u' m m' H1 H2 H3 H4 H5]; subst; [reflexivity|]. exfalso. apply H1.
  replace m with (snd (pieces (map Chr t))) by (rewrite H2; reflexivity). apply pieces_all. clear. induction t; [reflexivity|assumption].
Qed.
Lemma text_lead n : text n = match n with El _ _ _ _ _ ks => opt_text (lead ks) | _ => text n end.
Proof. destruct n; reflexivity. Qed.
(** The node of the output document at a path that leads to [n] in the input
    document, not into an XHTML value: *)
Definition in_output (sha : bytes -> N) (uri : str) (pn : option node * node) (n' : node) : Prop :=
  same_element (snd pn) n'
  /\ (is_target uri THeaderText pn -> exists s t, text (snd pn) = Some s /\ text n' = Some t /\ digest sha s t)
  /\ (is_target uri TLongName pn -> forall s, attr_opt "LONG-NAME" (snd pn) = Some s -> exists t, attr_opt "LONG-NAME" n' = Some t /\ digest sha s t)
  /\ (is_target uri TString pn -> forall s, attr_opt "THE-VALUE" (snd pn) = Some s -> exists t, attr_opt "THE-VALUE" n' = Some t /\ digest sha s t)
  /\ (is_target uri TXhtml pn -> exists s t, kids_of n' = map Chr t /\ digest sha s t
        /\ ((forall k, In k (kids_of (snd pn)) -> foreign uri k) -> stringify_namespaced_children (snd pn) None = Ok s))
  /\ ((forall k, ~ is_target uri k pn) ->
        attrs_of n' = attrs_of (snd pn) /\ (Forall is_text (kids_of (snd pn)) -> kids_of n' = kids_of (snd pn))).
Theorem C63_values_in_the_output :
  forall sha root r root' uri p pn,
    anonymize_tree sha root = Ok r -> respaced false r root' -> ns_get (node_nsmap root) None = Some uri ->
    outside_xhtml uri root p -> at_path None root p = Some pn -> match snd pn with Pin _ => False | _ => True end ->
    exists n', node_at_path root' p = Some n' /\ in_output sha uri pn n'.
Proof.
  intros sha root r root' uri p pn HA HS EU HO HP HN.
  destruct (C40_same_nodes sha root r uri p HA EU HO) as [SN1 SN2].
  destruct (node_at_path r p) as [m|] eqn:EM.
  2: { exfalso. assert (X : node_at_path root p = None) by (apply SN1; reflexivity). unfold node_at_path in X. rewrite HP in X. discriminate X. }
  assert (SE : same_element (snd pn) m) by (apply SN2; [unfold node_at_path; rewrite HP; reflexivity|reflexivity]).
  pose proof (respaced_path p r root' None None HS) as RP. unfold node_at_path in EM |- *.
  destruct (at_path None r p) as [pm|] eqn:EP; [|discriminate EM]. injection EM as EM.
  destruct (at_path None root' p) as [pm'|]; [|contradiction RP]. cbn [option_map]. exists (snd pm'). split; [reflexivity|].
  rewrite EM in RP. set (n' := snd pm') in *. clearbody n'. clear pm'.
  assert (NM : node_at_path r p = Some m) by (unfold node_at_path; rewrite EP; cbn; congruence).
  destruct m as [c|ns l d i a ks|s|s].
  - inversion RP.
  - destruct (respaced_lead _ _ _ _ _ _ _ RP) as (ks' & EN & TL). subst n'.
    destruct (snd pn) as [|ns0 l0 d0 i0 a0 ks0| |] eqn:ES; try (cbn in SE; discriminate SE). split; [rewrite ES; exact SE|].
    split; [|split; [|split; [|split]]].
    + intros HT. destruct (C39_header_texts_replaced _ _ _ _ _ _ HA EU HO HP HT) as (n1 & s & t & E1 & E2 & E3 & E4).
      rewrite NM in E1. injection E1 as <-. exists s, t. split; [exact E2|]. split; [|exact E4]. cbn [text] in E3 |- *.
      destruct TL as [<-|[TB _]]; [exact E3|]. exfalso. unfold opt_text in E3. destruct (lead ks) as [|c0 k0]; [discriminate|]. injection E3 as <-. exact (proj1 (digest_nonblank _ _ _ E4) TB).
    + intros HT s EA. destruct (C39_specification_names_replaced _ _ _ _ _ _ _ HA EU HO HP HT EA) as (n1 & t & E1 & E2 & E3).
      rewrite NM in E1. injection E1 as <-. exists t. split; [exact E2|exact E3].
    + intros HT s EA. destruct (C39_string_values_replaced _ _ _ _ _ _ _ HA EU HO HP HT EA) as (n1 & t & E1 & E2 & E3).
      rewrite NM in E1. injection E1 as <-. exists t. split; [exact E2|exact E3].
    + intros HT. destruct (C39_xhtml_values_replaced _ _ _ _ _ _ HA EU HO HP HT) as (n1 & s & t & E1 & E2 & E3 & E4 & E5).
      rewrite NM in E1. injection E1 as <-. exists s, t. cbn [kids_of] in E2. subst ks. apply respaced_only in RP. injection RP as ->.
      split; [reflexivity|]. split; [exact E4|exact E5].
    + intros HT. destruct (C40_other_nodes_unchanged _ _ _ _ _ _ HA EU HO HP HT) as (n1 & E1 & E2). rewrite NM in E1. injection E1 as <-.
      rewrite ES in E2. cbn [own] in E2. injection E2 as _ _ _ _ EA EK. rewrite ES. cbn [attrs_of kids_of]. split; [exact EA|]. intros HX.
      assert (KK : ks = ks0).
      { clear -EK HX. revert ks0 EK HX. induction ks as [|k ks IH]; intros [|k0 ks0] EK HX; try discriminate; [reflexivity|].
        cbn [map] in EK. injection EK as E1 E2. inversion HX as [|? ? [c ->] HX']; subst. rewrite (IH _ E2 HX'). f_equal. destruct k; try discriminate E1. exact E1. }
      subst ks. destruct (all_chars ks0) as (t & ->); [|apply respaced_only in RP; injection RP as ->; reflexivity].
      clear -HX. induction HX as [|k ks [c ->] _ IH]; [reflexivity|exact IH].
  - assert (E : snd pn = Cmt s) by (destruct (snd pn); cbn in SE; congruence). inversion RP as [? s' ES| | |]; subst. 
    assert (EQ : s' = s).
    { clear -ES. induction ES as [|c s s' _ _ IH|c d s s' F _ _ _ _]; [reflexivity|congruence|discriminate F]. }
    subst s'. split; [rewrite E; reflexivity|].
    split; [intros [_ [(? & ? & ? & ? & ? & X)|(? & ? & ? & ? & ? & X)]]; rewrite E in X; discriminate X|].
    split; [intros (? & ? & ? & ? & ? & X); rewrite E in X; discriminate X|].
    split; [intros (? & ? & ? & ? & ? & X); rewrite E in X; discriminate X|].
    split; [intros [_ (? & ? & ? & ? & ? & X)]; rewrite E in X; discriminate X|]. intros _. rewrite E. split; reflexivity.
  - exfalso. destruct (snd pn); cbn in SE; try discriminate SE. exact HN.
Qed.

(** ** The command *)
Theorem C63_anonymize_command :
  forall t s cwd i o raw text decl root r,
    fs_file s i = Some raw -> utf8_decode raw = Some text -> lxml_parse text = Some (decl, root) -> portable false root ->
    anonymize_tree (t_sha t) root = Ok r -> output_dir_missing s o = false -> fs_can_write s o = true ->
    let run := perform t s cwd (RAnonymize i o) in
    ended run = Exit 0
    /\ exists d out root', fs_file (final s run) o = Some d /\ utf8_decode d = Some out
         /\ lxml_parse out = Some (Some "xml version=""1.0"" encoding=""UTF-8""", root') /\ respaced false r root'.
Proof.
  intros t s cwd i o raw text decl root r HF HD HP HO HA HM HC rn.
  destruct (C63_output_is_the_anonymized_document t raw text decl root r HD HP HO HA) as (out & d & root' & E1 & E2 & E3 & E4 & _).
  assert (EN : ended rn = Exit 0).
  { unfold rn. cbn [perform]. unfold anonymize. rewrite HF, E1, HM. unfold write_text. rewrite HC, E2. reflexivity. }
  split; [exact EN|]. destruct (C41_output_file t s cwd (RAnonymize i o) o eq_refl EN) as (d' & N & F & _). fold rn in F.
  cbn [new_content] in N. rewrite HF, E1, E2 in N. injection N as <-. exists d, out, root'. split; [exact F|].
  split; [apply decode_encode, E2|auto].
Qed.
(** Inputs that are refused, before anything is written: bytes that are not UTF-8,
    texts that are no XML document, and documents in which the changes fail. *)
Theorem C63_refused :
  forall t s cwd i o raw, fs_file s i = Some raw ->
    (utf8_decode raw = None -> perform t s cwd (RAnonymize i o) = Run [] [] (Uncaught EUnicodeError))
    /\ (forall text, utf8_decode raw = Some text -> lxml_parse text = None ->
          perform t s cwd (RAnonymize i o) = Run [] [] (Uncaught EReqIFXMLParsingError))
    /\ (forall text decl root e, utf8_decode raw = Some text -> lxml_parse text = Some (decl, root) ->
          anonymize_tree (t_sha t) root = Raise e -> perform t s cwd (RAnonymize i o) = Run [] [] (Uncaught e)).
Proof.
  intros t s cwd i o raw HF. cbn [perform]. unfold anonymize. rewrite HF. repeat split.
  - intros HD. unfold anonymize_output. rewrite HD. reflexivity.
  - intros text HD HP. unfold anonymize_output. rewrite HD. cbv zeta. unfold anonymize_text, lxml_parse in *. rewrite etree_parse_un.
    destruct (etree_parse text) as [d|]; [|reflexivity]. destruct (resolve [] (d_root d)); [discriminate|reflexivity].
  - intros text decl root e HD HP HA. rewrite (C63_failure t raw text decl root e HD HP HA). reflexivity.
Qed.
Print Assumptions C63_output_is_the_anonymized_document.
Print Assumptions C63_failure.
Print Assumptions C63_refused.
Print Assumptions C63_values_in_the_output.
Print Assumptions C63_anonymize_command.

(** ** An example *)
Fixpoint plain_namesb (n : node) : bool :=
  match n with
  | El _ _ defs _ _ kids =>
      forallb (fun d => forallb (fun c => negb (existsb (N.eqb c) [0x9; 0xA; 0xD; 0x26; 0x3C]%N)) (snd d)) defs && forallb plain_namesb kids
  | _ => true
  end.
Lemma plain_namesb_sound n : plain_namesb n = true -> portable false n.
Proof.
  induction n as [c|s|s|ns l defs inh attrs kids IH] using node_ind'; cbn [plain_namesb]; intros H; try (apply portable_mark_up; exact I); [constructor|].
  apply andb_prop in H. destruct H as [H1 H2]. rewrite forallb_forall in H1, H2. constructor; try discriminate.
  - apply Forall_forall. intros d HD. split; [discriminate|]. specialize (H1 d HD). rewrite forallb_forall in H1. apply Forall_forall. intros c HC HI.
    specialize (H1 c HC). apply negb_true_iff in H1. rewrite <- Bool.not_true_iff_false in H1. apply H1, existsb_exists. exists c. split; [exact HI|apply N.eqb_refl].
  - rewrite Forall_forall in IH |- *. intros k HK. apply (IH k HK), (H2 k HK).
Qed.
Definition anonymize_doc (s : str) : result str :=
  match utf8_encode s with Some raw => anonymize_output no_tools raw | None => Raise EUnicodeError end.
Definition secret_doc : str :=
  "<REQ-IF xmlns='u' xmlns:x='h'><THE-HEADER><REQ-IF-HEADER><TITLE>caf" ++ [0xE9%N] ++ "</TITLE></REQ-IF-HEADER></THE-HEADER>"
  ++ "<SPECIFICATION LONG-NAME='top' ID='" ++ [0xE9%N] ++ "'/><ATTRIBUTE-VALUE-STRING THE-VALUE='v'/>"
  ++ "<ATTRIBUTE-VALUE-XHTML><THE-VALUE> <x:div>v</x:div> </THE-VALUE></ATTRIBUTE-VALUE-XHTML></REQ-IF><!--end-->".
Definition secret_output : str :=
  "<?xml version=""1.0"" encoding=""UTF-8""?>" ++ nl ++ "<REQ-IF xmlns=""u"" xmlns:x=""h"">" ++ nl
  ++ "  <THE-HEADER>" ++ nl ++ "    <REQ-IF-HEADER>" ++ nl ++ "      <TITLE>...Anonymized-7...</TITLE>" ++ nl ++ "    </REQ-IF-HEADER>" ++ nl
  ++ "  </THE-HEADER>" ++ nl ++ "  <SPECIFICATION LONG-NAME=""...Anonymized-7..."" ID=""&#xE9;""/>" ++ nl
  ++ "  <ATTRIBUTE-VALUE-STRING THE-VALUE=""...Anonymized-7...""/>" ++ nl
  ++ "  <ATTRIBUTE-VALUE-XHTML>" ++ nl ++ "    <THE-VALUE>...Anonymized-7...</THE-VALUE>" ++ nl ++ "  </ATTRIBUTE-VALUE-XHTML>" ++ nl
  ++ "</REQ-IF>" ++ nl ++ "<!--end-->" ++ nl.
Example C63_example :
  exists raw decl root r,
    utf8_encode secret_doc = Some raw /\ utf8_decode raw = Some secret_doc /\ lxml_parse secret_doc = Some (decl, root) /\ portable false root
    /\ anonymize_tree (t_sha no_tools) root = Ok r /\ anonymize_doc secret_doc = Ok secret_output.
Proof.
  eexists _, _, _, _. split; [vm_compute; reflexivity|]. split; [vm_compute; reflexivity|]. split; [vm_compute; reflexivity|].
  split; [apply plain_namesb_sound; vm_compute; reflexivity|]. split; [vm_compute; reflexivity|]. vm_compute. reflexivity.
Qed.
(** A namespace name with an ampersand makes the output unreadable. *)
Theorem C63_all_documents_refuted :
  exists s out, lxml_parse s <> None /\ anonymize_doc s = Ok out /\ lxml_parse out = None.
Proof.
  exists "<REQ-IF xmlns='x?a&amp;b'/>". eexists. split; [vm_compute; discriminate|]. split; [vm_compute; reflexivity|]. vm_compute. reflexivity.
Qed.
Print Assumptions C63_all_documents_refuted.

Example C63_refused_example :
  utf8_decode [255]%N = None /\ (utf8_decode "<a></b>" = Some "<a></b>" /\ lxml_parse "<a></b>" = None).
Proof. vm_compute. auto. Qed.
