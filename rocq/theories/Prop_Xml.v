(** Prop_Xml.v -- C55: what is read is XML *)
From Verif Require SpecUri UriProofs.
From Verif Require Import Base Xml Lxml Py Utf8 Progress Parser SpecLines SpecXml SpecNamespaces GrammarProofs GrammarDoc SerialiseProofs DictProofs NamespaceProofs.

(** The reader accepts exactly the documents of the grammar, and finds in them
    the declaration and the tree the grammar says they have. *)
Theorem C55_reads_the_grammar :
  forall s d root,
    read_text s = Some (XDoc d root)
    <-> exists t t', without_mark s t /\ same_lines t t' /\ ~ In 0xD%N t' /\ document t' d root.
Proof. exact read_text_grammar. Qed.
(** The grammar is unambiguous. *)
Theorem C55_one_tree_per_text :
  forall t d d' root root', ~ In 0xD%N t -> document t d root -> document t d' root' -> d = d' /\ root = root'.
Proof.
  intros t d d' r r' N H H'. apply document_finish in H, H'; auto.
  assert (E : Some (XDoc d r) = Some (XDoc d' r')) by congruence. split; congruence.
Qed.

(** Names are resolved as the recommendation on namespaces says; a document whose
    names have no meaning is rejected. *)
Theorem C55_names_are_resolved :
  forall s d n, lxml_parse s = Some (d, n) <-> exists x, etree_parse s = Some (XDoc d x) /\ denotes [] x n.
Proof.
  intros s d n. unfold lxml_parse. destruct (etree_parse s) as [[d' x]|] eqn:E; cbn [d_root d_decl].
  - pose proof (read_root_sound _ _ (etree_parse_text _ _ E)) as HS. cbn [d_root] in HS. split.
    + destruct (resolve [] x) as [r|] eqn:ER; [|discriminate]. intros H. injection H as <- <-. exists x. split; [reflexivity|]. apply (resolved _ _ HS), ER.
    + intros (x' & H & HD). injection H as -> ->. apply (resolved _ _ HS) in HD. rewrite HD. reflexivity.
  - split; [discriminate|]. intros (x & H & _). discriminate H.
Qed.
(** Both together, for a document that names no encoding or UTF-8: what is read
    is what the text of the document says. *)
Theorem C55_what_is_read :
  forall s t t' d x,
    without_mark s t -> same_lines t t' -> ~ In 0xD%N t' -> document t' d x ->
    (forall e, declared_encoding d e -> upper e = "UTF-8") ->
    forall d' n, lxml_parse s = Some (d', n) <-> d' = d /\ denotes [] x n.
Proof.
  intros s t t' d x H1 H2 H3 H4 HE d' n. rewrite C55_names_are_resolved.
  assert (ER : read_text s = Some (XDoc d x)) by (apply C55_reads_the_grammar; exists t, t'; auto).
  assert (EP : etree_parse s = Some (XDoc d x)).
  { unfold etree_parse. rewrite ER. cbn [d_decl]. destruct (decl_encoding d) as [e|] eqn:E; [|reflexivity].
    apply (encoding_declared _ _ _ _ H4 H3), HE in E. rewrite E, str_eqb_refl. reflexivity. }
  rewrite EP. split.
  - intros (x' & E & HD). injection E as <- <-. split; [reflexivity|exact HD].
  - intros [-> HD]. exists x. split; [reflexivity|exact HD].
Qed.
(** Every other text is reported as unreadable. *)
Theorem C55_the_rest_is_rejected :
  forall cb s h, (forall d x n, etree_parse s = Some (XDoc d x) -> ~ denotes [] x n) ->
    parse_from_string cb s h = (h, Raise EReqIFXMLParsingError).
Proof.
  intros cb s h H. unfold parse_from_string. destruct s as [|c s]; [reflexivity|]. destruct (lxml_parse (c :: s)) as [[d n]|] eqn:E; [|reflexivity].
  exfalso. apply C55_names_are_resolved in E. destruct E as (x & E & HD). apply (H _ _ _ E HD).
Qed.

(** ** Examples: a text with all kinds of markup, and texts outside the grammar *)
Definition with_everything : str :=
  "<?xml version='1.0' encoding=""UTF-8"" standalone='no'?>" ++ nl ++ "<!-- head --><?style none?>" ++ nl
  ++ "<a b='1&lt;&#65;&#x42; c' >text &amp; ]>]]&gt;]&#93;> <c/><![CDATA[<&>]]]]><!-- - --><?p ??></a ><!---->".
Example C55_example :
  read_text with_everything
  = Some (XDoc (Some "xml version='1.0' encoding=""UTF-8"" standalone='no'")
      (XElem "a" [("b", "1<AB c")]
         (map XChar "text & ]>]]>]]> " ++ [XElem "c" [] []] ++ map XChar "<&>]]" ++ [XComment " - "; XPI "p ?"])))
  /\ Forall (fun s => read_text s = None)
       [""; "a"; "<a>"; "<a></b>"; "<a/><b/>"; "<a/>x"; "<a b/>"; "<a b=c/>"; "<a b='<'/>"; "<a b='1'c='2'/>"; "<1/>"; "<a&/>";
        "<a>&nbsp;</a>"; "<a>&#0;</a>"; "<a>&lt</a>"; "<a>]]></a>"; "<a>x]]]>y</a>"; "<a><![CDATA[]]>]]></a>"; "<a><!-- -- --></a>"; "<a><?xml p?></a>"; "<a><?XML p?></a>"; "<a><??></a>";
        " <?xml version='1.0'?><a/>"; "<?xml version='2.0'?><a/>"; "<?xml encoding='UTF-8'?><a/>"; "<?xml version='1.0' standalone='maybe'?><a/>";
        "<a><![CDATA[</a>"; "<![CDATA[]]><a/>"; "<!DOCTYPE a><a/>"; "< a/>"; "<a / >"; "<a>< /a>"].
Proof. split; [vm_compute; reflexivity|]. repeat (constructor; [vm_compute; reflexivity|]). constructor. Qed.
Definition with_namespaces : str :=
  "<a xmlns='urn:x' xmlns:p='http://h:80/y?q#f' p:b='1' b='2' xml:lang='en'><p:c xmlns=''><d xmlns:p='z'><p:e/></d></p:c></a>".
Example C55_namespace_example :
  lxml_parse with_namespaces
  = Some (None,
      let top := [(None, "urn:x" : str); (Some ("p" : str), "http://h:80/y?q#f" : str)] in
      let pc := [(None, "" : str); (Some ("p" : str), "http://h:80/y?q#f" : str)] in
      let pd := [(Some ("p" : str), "z" : str); (None, "" : str)] in
      El (Some (None, "urn:x" : str)) "a" top []
         [Attr (Some (Some ("p" : str), "http://h:80/y?q#f" : str)) "b" "1"; Attr None "b" "2"; Attr (Some (Some ("xml" : str), xml_uri)) "lang" "en"]
         [El (Some (Some ("p" : str), "http://h:80/y?q#f" : str)) "c" [(None, "" : str)] top []
            [El None "d" [(Some ("p" : str), "z" : str)] pc [] [El (Some (Some ("p" : str), "z" : str)) "e" [] pd [] []]]])
  /\ (exists x n, read_text with_namespaces = Some (XDoc None x) /\ denotes [] x n)
  /\ Forall (fun s => read_text s <> None /\ lxml_parse s = None)
       ["<p:a/>"; "<a p:b='1'/>"; "<a:b:c xmlns:a='u'/>"; "<a xmlns:p='u' p:1='2'/>"; "<:a/>"; "<a b='1' b='2'/>"; "<a xmlns:p='u' xmlns:q='u' p:b='1' q:b='2'/>";
        "<a xmlns:p=''/>"; "<a xmlns:xmlns='u'/>"; "<a xmlns:p='http://www.w3.org/2000/xmlns/'/>"; "<a xmlns='http://www.w3.org/XML/1998/namespace'/>";
        "<a xmlns:xml='u'/>"; "<a xmlns='u u'/>"; "<a xmlns:p:q='u'/>"; "<a xmlns:='u'/>"; "<a><b xmlns:p='u'/><p:c/></a>"; "<xmlns:a/>"].
Proof.
  assert (E : exists n, lxml_parse with_namespaces = Some (None, n)) by (eexists; vm_compute; reflexivity).
  split; [vm_compute; reflexivity|]. split.
  - destruct E as (n & E). apply C55_names_are_resolved in E. destruct E as (x & E & HD). exists x, n. split; [|exact HD].
    revert E. unfold etree_parse. destruct (read_text with_namespaces) as [[d y]|] eqn:ER; [|discriminate]. assert (d = None) by (vm_compute in ER; injection ER as <- _; reflexivity). subst d.
    cbn [d_decl decl_encoding]. intros E. injection E as ->. reflexivity.
  - repeat (constructor; [split; [vm_compute; discriminate|vm_compute; reflexivity]|]). constructor.
Qed.
(** Names of namespaces that are URI references, and names that are not *)
Example C55_uri_example :
  Forall SpecUri.uri_ref ["urn:x"; "http://h:80/y?q#f"; "//u:p@[::1]:8//p/"; "a/b:c"; "?"; "x%4Ay"; "a:"; "a+1.-:/b//c"; "/"; "#[]"; "~'()*"; ""]
  /\ Forall (fun s => ~ SpecUri.uri_ref s)
       ["u u"; ":x"; "1:x"; "%4"; "%4g"; "http://h:/"; "http://h:8a/"; "http://[x"; "http://h@i@j/"; "a]"; "a?[b"; "#a#b"; "{x}"; "http://a|b"; [233]%N].
Proof.
  split.
  - repeat (constructor; [apply UriProofs.uri_reference_spec; vm_compute; reflexivity|]). constructor.
  - repeat (constructor; [intros H; apply UriProofs.uri_reference_spec in H; vm_compute in H; discriminate H|]). constructor.
Qed.
Print Assumptions C55_names_are_resolved.
Print Assumptions C55_what_is_read.
Print Assumptions C55_the_rest_is_rejected.
Print Assumptions C55_reads_the_grammar.
Print Assumptions C55_one_tree_per_text.
