(** Prop_Format.v -- C60, C61: the format command *)
From Verif Require Import Base Xml Utf8 Lxml Py Models Progress Parser Serialise Unparser Validate Zip Anonymize Dump
  Commands SpecCommands SpecXml SpecFormat XmlProofs Utf8Proofs GrammarProofs DictProofs ParserProofs SerialiseProofs SerialiseDoc FormatProofs Prop_Commands.
From Verif Require GrammarDoc NamespaceProofs.

(** ** C60: formatting keeps the document

    [portable true]: names are in ASCII and namespace names are plain
    (SpecFormat.v); the formatted text is a document in ASCII, which differs from
    the original one in white space next to markup only. *)
Theorem C60_formatting_keeps_the_document :
  forall s decl root,
    read_document s = Some (decl, root) ->
    portable true root -> Forall (portable true) (fst (surroundings s)) -> Forall (portable true) (snd (surroundings s)) ->
    exists t root',
      format_text s = Ok t /\ ascii t
      /\ read_document t = Some (Some "xml version=""1.0"" encoding=""UTF-8""", root')
      /\ lxml_parse t = Some (Some "xml version=""1.0"" encoding=""UTF-8""", root')
      /\ respaced true root root'
      /\ Forall2 (respaced true) (fst (surroundings s)) (fst (surroundings t))
      /\ Forall2 (respaced true) (snd (surroundings s)) (snd (surroundings t)).
Proof.
  intros s decl root H HP H1 H2. rewrite (format_written _ _ _ H).
  pose proof (document_writable true s decl root H HP H1 H2) as HW. pose proof HW as HW0.
  apply (writable_document_unblank _ _ _ _ false) in HW. destruct HW as (W1 & W2 & W3 & W4 & W5 & W6 & W7).
  destruct (written_read true (no_encoding decl) _ _ _ W1 W2 W3 W4 W5 W6 W7) as (R1 & R2 & _ & R3).
  eexists _, _. split; [reflexivity|]. split; [apply charset_low|]. split; [exact R2|]. split; [exact R1|].
  split; [apply (respaced_pretty true true root); destruct root; try contradiction; reflexivity|].
  rewrite R3. cbn [fst snd].
  assert (A : forall l, Forall mark_up l -> Forall2 (respaced true) l (map (refined true) l)).
  { induction 1 as [|n l HN _ IH]; constructor; [|exact IH]. pose proof (respaced_pretty true false n) as G.
    cbn [maybe] in G. specialize (G ltac:(destruct n; try contradiction HN; reflexivity) false false 0).
    rewrite pretty_mark in G by exact HN. exact G. }
  split; apply A; assumption.
Qed.
(** In a file in UTF-8, lxml reads the same document for the format command as
    for the parser. *)
Definition in_utf8 (decl : option str) : Prop :=
  forall e, declared_encoding decl e -> upper e = "UTF-8".
Lemma encoding_read s d e : read_text s = Some d -> (decl_encoding (d_decl d) = Some e <-> declared_encoding (d_decl d) e).
Proof.
  destruct d as [d root]. intros H. apply GrammarDoc.read_text_grammar in H. destruct H as (t & t' & _ & _ & NC & D). exact (NamespaceProofs.encoding_declared t' d root e D NC).
Qed.
Lemma in_utf8_read s d : read_text s = Some d -> in_utf8 (d_decl d) ->
  decl_encoding (d_decl d) = None \/ exists e, decl_encoding (d_decl d) = Some e /\ upper e = "UTF-8".
Proof.
  intros H HE. destruct (decl_encoding (d_decl d)) as [e|] eqn:E; [|left; reflexivity]. right. exists e. split; [reflexivity|]. apply HE, (encoding_read s d e H), E.
Qed.
Lemma declared_doc s decl root e : read_document s = Some (decl, root) -> decl_encoding decl = Some e -> declared_encoding decl e.
Proof.
  unfold read_document. intros H HE. destruct (read_text s) as [d|] eqn:ER; [|discriminate H]. destruct (resolve [] (d_root d)); [|discriminate H].
  assert (d_decl d = decl) by congruence. subst decl. apply (encoding_read _ _ _ ER), HE.
Qed.
Lemma utf8_doc s decl root : read_document s = Some (decl, root) ->
  match decl_encoding decl with None => true | Some e => str_eqb (upper e) "UTF-8" end = true -> in_utf8 decl.
Proof.
  unfold read_document. intros H HE e D. destruct (read_text s) as [d|] eqn:ER; [|discriminate H]. destruct (resolve [] (d_root d)); [|discriminate H].
  assert (d_decl d = decl) by congruence. subst decl. apply (encoding_read _ _ _ ER) in D. rewrite D in HE. apply str_eqb_eq, HE.
Qed.
Theorem C60_same_document :
  forall raw text decl root,
    utf8_decode raw = Some text -> read_document text = Some (decl, root) -> in_utf8 decl ->
    file_text raw = Some text /\ lxml_parse text = Some (decl, root).
Proof.
  intros raw text decl root HD HR HE. unfold read_document in HR. unfold lxml_parse, file_text, etree_parse. rewrite HD.
  destruct (read_text text) as [d|] eqn:EX; [|discriminate HR]. destruct (resolve [] (d_root d)) as [r|] eqn:ER; [|discriminate HR].
  injection HR as <- <-. destruct (in_utf8_read _ _ EX HE) as [->|(e & -> & ->)]; [rewrite ER; auto|].
  change (str_eqb "UTF-8" "UTF-8") with true. cbv iota. rewrite ER. auto.
Qed.
Lemma ascii_bytes s : ascii s -> utf8_decode s = Some s.
Proof.
  induction 1 as [|c s HC _ IH]; [reflexivity|]. cbn [utf8_decode]. apply N.ltb_lt in HC. rewrite HC, IH. reflexivity.
Qed.
(** The format command: the output file is what the theorem above says of the
    text of the input file. *)
Theorem C60_format_command :
  forall t s cwd i o raw text decl root,
    fs_file s i = Some raw -> utf8_decode raw = Some text -> read_document text = Some (decl, root) -> in_utf8 decl ->
    portable true root -> Forall (portable true) (fst (surroundings text)) -> Forall (portable true) (snd (surroundings text)) ->
    fs_can_write s o = true ->
    let r := perform t s cwd (RFormat i o) in
    ended r = Exit 0
    /\ exists d root', fs_file (final s r) o = Some d /\ utf8_decode d = Some d
         /\ lxml_parse d = Some (Some "xml version=""1.0"" encoding=""UTF-8""", root') /\ respaced true root root'.
Proof.
  intros t s cwd i o raw text decl root HF HD HR HE P1 P2 P3 HC r.
  destruct (C60_same_document raw text decl root HD HR HE) as [HT _].
  destruct (C60_formatting_keeps_the_document text decl root HR P1 P2 P3) as (out & root' & E1 & E2 & _ & E4 & E5 & _).
  assert (EN : ended r = Exit 0).
  { unfold r. cbn [perform]. unfold format. rewrite HF. unfold format_bytes. rewrite HT, E1. unfold write_bytes. rewrite HC. reflexivity. }
  split; [exact EN|]. destruct (C41_output_file t s cwd (RFormat i o) o eq_refl EN) as (d & N & F & _). fold r in F.
  cbn [new_content] in N. rewrite HF in N. unfold format_bytes in N. rewrite HT, E1 in N. injection N as <-.
  exists out, root'. split; [exact F|]. split; [apply ascii_bytes, E2|auto].
Qed.

(** A file that is no XML document is refused with XMLSyntaxError before anything
    is written; the same for an input that cannot be decoded in any way. *)
Theorem C60_unreadable_input_is_refused :
  forall t s cwd i o raw,
    fs_file s i = Some raw ->
    (forall text, utf8_decode raw = Some text -> read_document text = None) -> read_document raw = None ->
    perform t s cwd (RFormat i o) = Run [] [] (Uncaught EXMLSyntaxError).
Proof.
  intros t s cwd i o raw HF HU HR. cbn [perform]. unfold format. rewrite HF. unfold format_bytes, file_text.
  assert (F : forall x, read_document x = None -> format_text x = Raise EXMLSyntaxError)
    by (intros x E; unfold format_text; rewrite E; reflexivity).
  destruct (utf8_decode raw) as [text|].
  - specialize (HU text eq_refl). destruct (read_text text) as [d|]; [|reflexivity].
    destruct (decl_encoding (d_decl d)) as [e|]; [|rewrite (F _ HU); reflexivity].
    destruct (str_eqb (upper e) "UTF-8"); [rewrite (F _ HU); reflexivity|].
    destruct (str_eqb (upper e) "US-ASCII" || str_eqb (upper e) "ASCII").
    + destruct (forallb _ raw); [rewrite (F _ HU)|]; reflexivity.
    + destruct (str_eqb (upper e) "ISO-8859-1"); [rewrite (F _ HR)|]; reflexivity.
  - destruct (read_text raw) as [d|]; [|reflexivity]. destruct (decl_encoding (d_decl d)) as [e|]; [|reflexivity].
    destruct (str_eqb (upper e) "ISO-8859-1"); [rewrite (F _ HR)|]; reflexivity.
Qed.

(** The file is read in the encoding it declares: UTF-8 (also if it declares none),
    ASCII, or ISO-8859-1, where every byte is one character. *)
Definition reads_as (raw : bytes) (text : str) : Prop :=
  exists decl root, read_document text = Some (decl, root)
  /\ ((utf8_decode raw = Some text /\ in_utf8 decl)
      \/ (exists e, declared_encoding decl e /\ text = raw
            /\ (In (upper e) ["US-ASCII"; "ASCII"] /\ ascii raw
                \/ upper e = "ISO-8859-1"
                   (* the declaration looks the same to a reader that takes the bytes for UTF-8 *)
                   /\ (forall text', utf8_decode raw = Some text' -> exists d, read_text text' = Some d /\ declared_encoding (d_decl d) e)))).
Theorem C60_encodings :
  forall t s cwd i o raw text,
    fs_file s i = Some raw -> reads_as raw text ->
    exists out, format_text text = Ok out /\ perform t s cwd (RFormat i o) = write_bytes s o out.
Proof.
  intros t s cwd i o raw text HF (decl & root & HR & H).
  assert (G : file_text raw = Some text -> exists out, format_text text = Ok out /\ perform t s cwd (RFormat i o) = write_bytes s o out).
  { intros HT. cbn [perform]. unfold format, format_bytes. rewrite HF, HT. unfold format_text. rewrite HR.
    destruct (surroundings text). eauto. }
  apply G. clear G. destruct H as [(HD & HE)|(e & HE & -> & H)].
  { destruct (C60_same_document raw text decl root HD HR HE) as [HT _]. exact HT. }
  unfold read_document in HR. destruct (read_text raw) as [d|] eqn:ER; [|discriminate]. destruct (resolve [] (d_root d)); [|discriminate].
  injection HR as <- _. apply (encoding_read _ _ _ ER) in HE. unfold file_text. destruct H as [[HI HA]|[HI HX]].
  - rewrite (ascii_bytes raw HA), ER, HE.
    assert (forallb (fun c => N.ltb c 128) raw = true) as -> by (apply forallb_forall; intros c I; apply N.ltb_lt; revert c I; apply Forall_forall; exact HA).
    destruct HI as [<-|[<-|[]]]; reflexivity.
  - destruct (utf8_decode raw) as [text'|].
    + destruct (HX text' eq_refl) as (d' & ER' & HE'). apply (encoding_read _ _ _ ER') in HE'. rewrite ER', HE', HI. reflexivity.
    + rewrite ER, HE, HI. reflexivity.
Qed.
(** Bytes that the declared encoding does not allow: not UTF-8, though nothing else is
    declared; beyond ASCII, though ASCII is declared. *)
Theorem C60_undecodable_input_is_refused :
  forall t s cwd i o raw,
    fs_file s i = Some raw ->
    (utf8_decode raw = None /\ (forall d, read_text raw = Some d -> in_utf8 (d_decl d)))
    \/ (~ ascii raw /\ exists text d e, utf8_decode raw = Some text /\ read_text text = Some d /\ declared_encoding (d_decl d) e
                                       /\ In (upper e) ["US-ASCII"; "ASCII"]) ->
    perform t s cwd (RFormat i o) = Run [] [] (Uncaught EXMLSyntaxError).
Proof.
  intros t s cwd i o raw HF H. cbn [perform]. unfold format. rewrite HF. unfold format_bytes, file_text.
  destruct H as [(-> & H)|(NA & text & d & e & -> & ER & HE & HI)].
  - destruct (read_text raw) as [d|] eqn:ER; [|reflexivity]. destruct (in_utf8_read _ _ ER (H d eq_refl)) as [->|(e & -> & ->)]; reflexivity.
  - apply (encoding_read _ _ _ ER) in HE. rewrite ER, HE. destruct (forallb (fun c => N.ltb c 128) raw) eqn:F.
    + exfalso. apply NA, Forall_forall. intros c I. apply N.ltb_lt. exact (proj1 (forallb_forall _ _) F c I).
    + destruct HI as [<-|[<-|[]]]; reflexivity.
Qed.
Example C60_encodings_example :
  let doc e x := "<?xml version=""1.0"" encoding=""" ++ e ++ """?><a>" ++ x ++ "</a>" in
  reads_as (doc "iso-8859-1" [233]%N) (doc "iso-8859-1" [233]%N)
  /\ reads_as (doc "ISO-8859-1" [195; 169]%N) (doc "ISO-8859-1" [195; 169]%N)
  /\ reads_as (doc "utf-8" [195; 169]%N) (doc "utf-8" [233]%N)
  /\ reads_as (doc "us-ascii" "x") (doc "us-ascii" "x") /\ reads_as (doc "Ascii" "x") (doc "Ascii" "x").
Proof.
  cbv zeta. repeat split; (eexists; eexists; split; [vm_compute; reflexivity|]).
  - right. exists "iso-8859-1". split; [apply (declared_doc "<?xml version=""1.0"" encoding=""iso-8859-1""?><a/>" _ (El None "a" [] [] [] [])); vm_compute; reflexivity|]. split; [reflexivity|]. right. split; [vm_compute; reflexivity|]. intros x H. vm_compute in H. discriminate H.
  - right. exists "ISO-8859-1". split; [apply (declared_doc "<?xml version=""1.0"" encoding=""ISO-8859-1""?><a/>" _ (El None "a" [] [] [] [])); vm_compute; reflexivity|]. split; [reflexivity|]. right. split; [vm_compute; reflexivity|]. intros x H. vm_compute in H. injection H as <-.
    eexists. split; [vm_compute; reflexivity|]. apply (declared_doc "<?xml version=""1.0"" encoding=""ISO-8859-1""?><a/>" _ (El None "a" [] [] [] [])); vm_compute; reflexivity.
  - left. split; [vm_compute; reflexivity|]. apply (utf8_doc "<?xml version=""1.0"" encoding=""utf-8""?><a/>" _ (El None "a" [] [] [] [])); vm_compute; reflexivity.
  - right. exists "us-ascii". split; [apply (declared_doc "<?xml version=""1.0"" encoding=""us-ascii""?><a/>" _ (El None "a" [] [] [] [])); vm_compute; reflexivity|]. split; [reflexivity|]. left. split; [left; vm_compute; reflexivity|]. apply Forall_forall. intros c I. vm_compute in I.
    repeat destruct I as [<-|I]; try reflexivity. contradiction.
  - right. exists "Ascii". split; [apply (declared_doc "<?xml version=""1.0"" encoding=""Ascii""?><a/>" _ (El None "a" [] [] [] [])); vm_compute; reflexivity|]. split; [reflexivity|]. left. split; [right; left; vm_compute; reflexivity|]. apply Forall_forall. intros c I. vm_compute in I.
    repeat destruct I as [<-|I]; try reflexivity. contradiction.
Qed.

(** ** C61: formatting settles, and formatted documents are indented *)
Theorem C61_formatting_settles :
  forall s decl root t t',
    read_document s = Some (decl, root) -> unspaced root ->
    portable true root -> Forall (portable true) (fst (surroundings s)) -> Forall (portable true) (snd (surroundings s)) ->
    format_text s = Ok t -> format_text t = Ok t' ->
    format_text t' = Ok t' /\ ((exists e, declared_encoding decl e) -> t' = t).
Proof.
  intros s decl root t t' H HU HP H1 H2 HF HF'. rewrite (format_written _ _ _ H) in HF.
  match type of HF with Ok ?x = _ => assert (E : t = x) by congruence end. subst t. clear HF.
  pose proof (document_writable true s decl root H HP H1 H2) as HW.
  rewrite (format_again _ _ _ _ HW HU) in HF'.
  match type of HF' with Ok ?x = _ => assert (E : t' = x) by congruence end. subst t'. clear HF'. split; [apply (format_again _ _ _ _ HW HU)|].
  intros (e & HE). unfold read_document in H. destruct (read_text s) as [d|] eqn:ER; [|discriminate H]. destruct (resolve [] (d_root d)); [|discriminate H].
  assert (d_decl d = decl) by congruence. subst decl. apply (encoding_read _ _ _ ER) in HE. unfold no_encoding. rewrite HE. reflexivity.
Qed.
Theorem C61_formatted_documents_are_indented :
  forall s decl root t,
    read_document s = Some (decl, root) -> unspaced root ->
    portable true root -> Forall (portable true) (fst (surroundings s)) -> Forall (portable true) (snd (surroundings s)) ->
    format_text s = Ok t ->
    exists decl' root', read_document t = Some (decl', root') /\ laid_out 0 root'.
Proof.
  intros s decl root t H HU HP H1 H2 HF. rewrite (format_written _ _ _ H) in HF.
  match type of HF with Ok ?x = _ => assert (E : t = x) by congruence end. subst t. clear HF.
  pose proof (document_writable true s decl root H HP H1 H2) as HW.
  apply (writable_document_unblank _ _ _ _ false) in HW. destruct HW as (W1 & W2 & W3 & W4 & W5 & W6 & W7).
  destruct (written_read true (no_encoding decl) _ _ _ W1 W2 W3 W4 W5 W6 W7) as (_ & R2 & _).
  eexists _, _. split; [exact R2|]. apply (laid_out_normal true root HU).
  pose proof (read_element _ _ _ H) as HE. destruct root; try contradiction; reflexivity.
Qed.
Example C60_unreadable_example :
  let raw := "<a><b></a>" in
  (forall text, utf8_decode raw = Some text -> read_document text = None) /\ read_document raw = None.
Proof. cbn zeta. split; [|vm_compute; reflexivity]. intros text H. vm_compute in H. injection H as <-. vm_compute. reflexivity. Qed.
Print Assumptions C60_formatting_keeps_the_document.
Print Assumptions C60_same_document.
Print Assumptions C60_format_command.
Print Assumptions C60_unreadable_input_is_refused.
Print Assumptions C60_encodings.
Print Assumptions C60_undecodable_input_is_refused.
Print Assumptions C61_formatting_settles.
Print Assumptions C61_formatted_documents_are_indented.

(** ** An example *)
Definition unformatted : str :=
  "<?xml version=""1.0"" encoding=""utf-8""?><!--a--><REQ-IF xmlns='u' xmlns:x='v'><THE-HEADER><REQ-IF-HEADER IDENTIFIER='&quot;'>"
  ++ "<COMMENT> x  y </COMMENT> <TITLE>caf" ++ [0xE9%N] ++ "</TITLE></REQ-IF-HEADER></THE-HEADER>" ++ nl ++ nl ++ "  <x:p>some <x:b> text </x:b>  </x:p><!-- " ++ [0xE9%N]
  ++ " --></REQ-IF><?p  q ?>".
Definition formatted : str :=
  "<?xml version=""1.0"" encoding=""UTF-8""?>" ++ nl ++ "<!--a-->" ++ nl ++ "<REQ-IF xmlns=""u"" xmlns:x=""v"">" ++ nl
  ++ "  <THE-HEADER>" ++ nl ++ "    <REQ-IF-HEADER IDENTIFIER=""&quot;"">" ++ nl ++ "      <COMMENT> x  y </COMMENT>" ++ nl
  ++ "      <TITLE>caf&#233;</TITLE>" ++ nl ++ "    </REQ-IF-HEADER>" ++ nl ++ "  </THE-HEADER>" ++ nl
  ++ "  <x:p>some <x:b> text </x:b>  </x:p>" ++ nl ++ "  <!-- &#233; -->" ++ nl ++ "</REQ-IF>" ++ nl ++ "<?p q ?>" ++ nl.
(** decision procedures, for the examples *)
Definition asciib (s : str) : bool := forallb (fun c => N.ltb c 0x80) s.
Definition ns_asciib (ns : option nsref) : bool := match ns with Some (Some p, _) => asciib p | _ => true end.
Definition plainb (u : str) : bool := forallb (fun c => negb (existsb (N.eqb c) [0x9; 0xA; 0xD; 0x26; 0x3C]%N)) u.
Fixpoint portableb (n : node) : bool :=
  match n with
  | Chr _ | Cmt _ => true
  | Pin s => asciib (take_while (fun c => negb (is_ws c)) s)
  | El ns l defs _ attrs kids =>
      (ns_asciib ns && asciib l)
      && forallb (fun d => match fst d with Some p => asciib p | None => true end && plainb (snd d)) defs
      && forallb (fun x => ns_asciib (a_ns x) && asciib (a_local x)) attrs
      && forallb portableb kids
  end.
Fixpoint unspacedb (n : node) : bool :=
  match n with
  | El _ _ _ _ attrs kids =>
      forallb (fun x => match a_ns x with Some (Some p, _) => negb (str_eqb p "xml" && str_eqb (a_local x) "space") | _ => true end) attrs
      && forallb unspacedb kids
  | _ => true
  end.
Lemma asciib_sound s : asciib s = true -> ascii s.
Proof. intros H. apply Forall_forall. intros c HC. apply N.ltb_lt. exact (proj1 (forallb_forall _ _) H c HC). Qed.
Lemma ns_asciib_sound ns : ns_asciib ns = true -> ns_ascii ns.
Proof. destruct ns as [[[p|] u]|]; cbn; try (intros; exact I). apply asciib_sound. Qed.
Lemma plainb_sound u : plainb u = true -> plain_name u.
Proof.
  intros H. apply Forall_forall. intros c HC HI. pose proof (proj1 (forallb_forall _ _) H c HC) as G. cbv beta in G.
  apply Bool.negb_true_iff in G. assert (E : existsb (N.eqb c) [0x9; 0xA; 0xD; 0x26; 0x3C]%N = true); [|congruence].
  apply existsb_exists. exists c. split; [exact HI|apply N.eqb_refl].
Qed.
Lemma forallb_Forall {A} (f : A -> bool) (P : A -> Prop) l :
  Forall (fun x => f x = true -> P x) l -> forallb f l = true -> Forall P l.
Proof. induction 1; cbn [forallb]; intros E; constructor; apply andb_prop in E; tauto. Qed.
Lemma forallb_all {A} (f : A -> bool) (P : A -> Prop) l :
  (forall x, f x = true -> P x) -> forallb f l = true -> Forall P l.
Proof. intros H. apply forallb_Forall, Forall_forall. auto. Qed.
Lemma portableb_sound n : portableb n = true -> portable true n.
Proof.
  induction n as [c|s|s|ns l defs inh attrs kids IH] using node_ind'; cbn [portableb]; intros H.
  - apply portable_chr.
  - apply portable_cmt.
  - rewrite (take_drop (fun c => negb (is_ws c)) s). set (r := drop_while _ s) in *.
    rewrite (take_drop is_ws r). apply portable_pin.
    + intros _. apply asciib_sound, H.
    + apply Forall_forall. intros c HC HW. apply white_ok in HW.
      assert (G : forall l, In c (take_while (fun c => negb (is_ws c)) l) -> is_ws c = false).
      { clear. induction l as [|x l IH]; cbn [take_while]; [contradiction|]. destruct (is_ws x) eqn:E; cbn [negb]; [contradiction|].
        intros [->|HI]; auto. }
      rewrite (G _ HC) in HW. discriminate.
    + intros E. destruct (drop_while_hd (fun c => negb (is_ws c)) s) as [E'|(c & q & E' & HN)]; fold r in E'.
      * rewrite E'. reflexivity.
      * exfalso. rewrite E' in E. cbn [take_while] in E. apply Bool.negb_false_iff in HN. rewrite HN in E. discriminate.
    + apply Forall_forall. intros c HC. apply white_ok. revert HC. generalize r. clear.
      induction r as [|x l IH]; cbn [take_while]; [contradiction|]. destruct (is_ws x) eqn:E; [|contradiction]. intros [->|HI]; auto.
  - repeat match goal with H : _ && _ = true |- _ => apply andb_prop in H; destruct H end.
    apply portable_el.
    + intros _. split; [apply ns_asciib_sound|apply asciib_sound]; assumption.
    + apply forallb_all with (2 := H2). intros [p u] E. cbn [fst snd] in *. apply andb_prop in E. destruct E as [E1 E2].
      split; [intros _; destruct p; [apply asciib_sound, E1|exact I]|apply plainb_sound, E2].
    + intros _. apply forallb_all with (2 := H1). intros x E. apply andb_prop in E. destruct E as [E1 E2].
      split; [apply ns_asciib_sound|apply asciib_sound]; assumption.
    + exact (forallb_Forall _ _ _ IH H0).
Qed.
Lemma unspacedb_sound n : unspacedb n = true -> unspaced n.
Proof.
  induction n as [c|s|s|ns l defs inh attrs kids IH] using node_ind'; cbn [unspacedb]; intros H; try constructor.
  - apply andb_prop in H. apply forallb_all with (2 := proj1 H). intros x E p HP [G1 G2]. rewrite HP in E. destruct p as [q u].
    cbn [fst] in G1. subst q. rewrite G2 in E. discriminate E.
  - apply andb_prop in H. exact (forallb_Forall _ _ _ IH (proj2 H)).
Qed.
Example C60_example :
  exists decl root,
    read_document unformatted = Some (decl, root) /\ unspaced root /\ portable true root
    /\ Forall (portable true) (fst (surroundings unformatted)) /\ Forall (portable true) (snd (surroundings unformatted))
    /\ declared_encoding decl "utf-8" /\ format_text unformatted = Ok formatted.
Proof.
  exists (Some "xml version=""1.0"" encoding=""utf-8"""),
    (match read_document unformatted with Some (_, root) => root | None => Cmt [] end).
  split; [vm_compute; reflexivity|]. split; [apply unspacedb_sound; vm_compute; reflexivity|].
  split; [apply portableb_sound; vm_compute; reflexivity|].
  split; [apply (forallb_all portableb); [exact portableb_sound|vm_compute; reflexivity]|].
  split; [apply (forallb_all portableb); [exact portableb_sound|vm_compute; reflexivity]|].
  split; [|vm_compute; reflexivity]. apply (declared_doc "<?xml version=""1.0"" encoding=""utf-8""?><a/>" _ (El None "a" [] [] [] [])); vm_compute; reflexivity.
Qed.

(** ** What goes wrong *)
(** The file is written in ASCII: a name with other characters, or a namespace
    name with an ampersand, makes the output unreadable. *)
Theorem C60_all_documents_refuted :
  exists s1 s2 t1 t2,
    lxml_parse s1 <> None /\ format_text s1 = Ok t1 /\ lxml_parse t1 = None
    /\ lxml_parse s2 <> None /\ format_text s2 = Ok t2 /\ lxml_parse t2 = None.
Proof.
  exists ("<" ++ [0xE9%N] ++ "/>"), "<a xmlns='x&amp;y'/>". eexists _, _.
  split; [vm_compute; discriminate|]. split; [vm_compute; reflexivity|]. split; [vm_compute; reflexivity|].
  split; [vm_compute; discriminate|]. split; [vm_compute; reflexivity|]. vm_compute. reflexivity.
Qed.
(** Without a declared encoding, attribute values that are not in ASCII are
    written in another way at the second time; with the attribute xml:space,
    indentation added at the first time is taken back. *)
Theorem C61_once_is_enough_refuted :
  exists s1 s2 t1 t2,
    format_text s1 = Ok t1 /\ format_text t1 <> Ok t1 /\ format_text s2 = Ok t2 /\ format_text t2 <> Ok t2.
Proof.
  exists ("<a b='" ++ [0xE9%N] ++ "'/>"),
    "<?xml version='1.0' encoding='UTF-8'?><a xml:space='preserve'><b xml:space='default'><c/></b></a>". eexists _, _.
  split; [vm_compute; reflexivity|]. split; [vm_compute; discriminate|]. split; [vm_compute; reflexivity|vm_compute; discriminate].
Qed.
Print Assumptions C60_all_documents_refuted.
Print Assumptions C61_once_is_enough_refuted.
