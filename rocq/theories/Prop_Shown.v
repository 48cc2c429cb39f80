(** Prop_Shown.v -- C69: what the parser sees of a document *)
From Verif Require Import Base Xml Utf8 Lxml Py Models Header Progress Parser DictProofs SpecXml SpecNamespaces SpecAccept SpecShown
  SerialiseProofs NamespaceProofs ShownProofs Prop_Xml Prop_AnonymizeFile.

(** ** C69 *)
Lemma root_form s d n : lxml_parse s = Some (d, n) -> colonless n /\ match n with El _ _ _ i _ _ => i = [] | _ => False end.
Proof.
  intros H. pose proof (parsed_element _ _ _ H) as R. apply C55_names_are_resolved in H. destruct H as (x & HE & HD).
  split; [apply (proj1 denotes_colonless _ _ _ HD)|].
  inversion HD; subst; try contradiction. reflexivity.
Qed.
Lemma called t n : (forall c, In c t -> c <> 123%N) -> (is_named t n <-> exists d i a k, n = El None t d i a k).
Proof.
  intros HB. split.
  - intros (ns & l & d & i & a & k & -> & E). destruct ns as [[p u]|]; cbn [seen_name] in E.
    + subst t. destruct (HB 123%N); [left; reflexivity|reflexivity].
    + subst t. eauto.
  - intros (d & i & a & k & ->). exists None, t, d, i, a, k. auto.
Qed.
(** The root element the parser works on is that of the document with namespaces
    taken off.  It has to be called REQ-IF and be in no namespace then. *)
Theorem C69_what_is_looked_at :
  forall s r,
    document_root s = Some r
    <-> exists d x root, etree_parse s = Some (XDoc d x) /\ denotes [] x root /\ shown_document root r
          /\ exists defs scope attrs kids, r = El None "REQ-IF" defs scope attrs kids.
Proof.
  intros s r. unfold document_root. split.
  - destruct (lxml_parse s) as [[d root]|] eqn:E; [|discriminate]. destruct (root_form _ _ _ E) as [HC HI].
    destruct (strip_if_namespaced root) as [r'|] eqn:ES; [|discriminate]. destruct (tag_is "REQ-IF" r') eqn:T; [|discriminate].
    intros H. injection H as ->. apply C55_names_are_resolved in E. destruct E as (x & E1 & E2). exists d, x, root.
    split; [exact E1|]. split; [exact E2|]. split; [apply (shown_document_spec _ _ HC HI), ES|].
    apply called; [|apply tag_is_spec, T]. intros c Hc ->. vm_compute in Hc. intuition discriminate.
  - intros (d & x & root & E1 & E2 & E3 & E4).
    assert (E : lxml_parse s = Some (d, root)) by (apply C55_names_are_resolved; eauto). rewrite E.
    destruct (root_form _ _ _ E) as [HC HI]. apply (shown_document_spec _ _ HC HI) in E3. rewrite E3.
    destruct E4 as (defs & scope & attrs & kids & ->). reflexivity.
Qed.
(** What else is in the document does not matter: if two documents look alike, they
    are parsed to the same header, content, tables and errors, with the same
    progress reports, or to the same exception.  Only what is recorded of the root
    tag and of its declarations may differ. *)
Definition same_but_for_the_root_tag (a b : result bundle) : Prop :=
  match a, b with
  | Ok x, Ok y =>
      b_header x = b_header y /\ b_core_content x = b_core_content y /\ b_tool_extensions x = b_tool_extensions y
      /\ b_lookup x = b_lookup y /\ b_exceptions x = b_exceptions y
  | Raise e, Raise f => e = f
  | _, _ => False
  end.
Theorem C69_the_rest_does_not_matter :
  forall s s' r, document_root s = Some r -> document_root s' = Some r ->
    forall cb h, fst (parse_from_string cb s h) = fst (parse_from_string cb s' h)
      /\ same_but_for_the_root_tag (snd (parse_from_string cb s h)) (snd (parse_from_string cb s' h)).
Proof.
  intros s s' r H H' cb h.
  assert (G : exists (hdr : result (option header)) (core : M (option (option Models.content) * lookup * list exn)) (tool : bool),
    forall s, document_root s = Some r -> exists ni, parse_from_string cb s h =
      match children r with
      | [] => (h, Ok (Bundle ni None None false lookup_empty []))
      | _ => (do! hdr := lift hdr in do! (core, lk, exns) := core in ret (Bundle ni hdr core tool lk exns)) h
      end).
  { clear s s' H H'. do 3 eexists. intros s H. unfold document_root in H. destruct s as [|c0 s0]; [discriminate|]. set (s := c0 :: s0) in *.
    destruct (lxml_parse s) as [[d root]|] eqn:E; [|discriminate]. destruct (strip_if_namespaced root) as [r'|] eqn:ES; [|discriminate].
    destruct (tag_is "REQ-IF" r') eqn:T; [|discriminate]. injection H as ->.
    change (parse_from_string cb s h) with (match lxml_parse s with None => lift (Raise EReqIFXMLParsingError) | Some (decl, root) => parse_reqif cb decl root end h).
    rewrite E. unfold parse_reqif. unfold mbind at 1. unfold lift at 1. rewrite ES, T. cbn [negb].
    exists (match children r with [] => namespace_info_empty (ni_namespace (namespace_info_of d root r)) (ni_configuration (namespace_info_of d root r)) | _ => namespace_info_of d root r end).
    destruct (children r) as [|x l]; [|reflexivity]. reflexivity. }
  destruct G as (hdr & core & tool & G). destruct (G s H) as [ni ->]. destruct (G s' H') as [ni' ->]. clear.
  destruct (children r) as [|x l]; [cbn; auto 6|]. unfold mbind, lift.
  destruct hdr as [hdr|e]; [|cbn; auto]. destruct (core h) as [h2 [[[c lk] ex]|e]]; cbn; auto 6.
Qed.

(** What is seen of an element: its name, its attributes, its children (without
    text), the first child of some name, and the text in front of the first
    child. *)
Theorem C69_what_is_seen_of_an_element :
  forall n kids attrs, content_of n kids -> attributes_of n attrs ->
    (forall t, tag n = Some t <-> is_named t n)
    /\ (forall k v, attr_opt k n = Some v <->
          exists x before after, attrs = before ++ x :: after /\ seen_name (a_ns x) (a_local x) = k /\ a_val x = v
            /\ Forall (fun y => seen_name (a_ns y) (a_local y) <> k) before)
    /\ without_text kids (children n)
    /\ (forall t c, find_child t n = Some c <-> first_named t kids c)
    /\ (forall t, find_child t n = None <-> Forall (fun c => ~ is_named t c) kids)
    /\ (forall s, text n = Some s <-> s <> [] /\ begins_with kids s)
    /\ (text n = None <-> begins_with kids []).
Proof.
  intros n kids attrs (ns & l & d & i & a & ->) (ns' & l' & d' & i' & k & E). injection E as <- <- <- <- -> <-.
  split; [|split; [|split; [|split; [|split; [|split]]]]].
  - intros t. cbn [tag]. split.
    + intros H. injection H as <-. exists ns, l, d, i, attrs, kids. split; reflexivity.
    + intros (ns' & l' & d' & i' & a' & k' & E & <-). injection E as <- <- <- <- <- <-. reflexivity.
  - intros k v. apply assoc_spec.
  - apply without_spec. reflexivity.
  - intros t c. apply find_named.
  - intros t. apply find_named_none.
  - intros s. cbn [text]. rewrite <- lead_spec. destruct (lead kids) as [|c x]; cbn [opt_text].
    + split; [discriminate|]. intros [H <-]. contradiction.
    + split; [intros H; injection H as <-; split; [discriminate|reflexivity]|]. intros [_ <-]. reflexivity.
  - cbn [text]. rewrite <- lead_spec. destruct (lead kids) as [|c x]; cbn [opt_text]; split; congruence.
Qed.
Print Assumptions C69_what_is_looked_at.
Print Assumptions C69_the_rest_does_not_matter.
Print Assumptions C69_what_is_seen_of_an_element.

(** Two documents that look alike: the elements of the first are in a namespace
    that is the default one; in the second they have a prefix, there is another
    default namespace, and declarations differ. *)
Definition plain_document : str :=
  "<REQ-IF xmlns=""urn:r""><CORE-CONTENT><REQ-IF-CONTENT><DATATYPES></DATATYPES></REQ-IF-CONTENT></CORE-CONTENT></REQ-IF>".
Definition prefixed_document : str :=
  "<r:REQ-IF xmlns:r=""urn:s"" xmlns=""urn:t"" xmlns:u=""urn:u""><r:CORE-CONTENT><REQ-IF-CONTENT><u:DATATYPES></u:DATATYPES></REQ-IF-CONTENT></r:CORE-CONTENT></r:REQ-IF>".
Example alike : exists r, document_root plain_document = Some r /\ document_root prefixed_document = Some r /\ children r <> [].
Proof. eexists. split; [vm_compute; reflexivity|]. split; [vm_compute; reflexivity|]. discriminate. Qed.
(** An XHTML element stays in its namespace, and so does its declaration. *)
Definition markup_document : str :=
  "<REQ-IF xmlns=""urn:r"" xmlns:x=""http://www.w3.org/1999/xhtml"" xmlns:y=""urn:y""><x:div class=""k"">a</x:div></REQ-IF>".
Example markup_seen :
  document_root markup_document
  = Some (El None "REQ-IF" [(Some "x", "http://www.w3.org/1999/xhtml")] [] []
           [El (Some (Some "x", "http://www.w3.org/1999/xhtml")) "div" [] [(Some "x", "http://www.w3.org/1999/xhtml")]
              [Attr None "class" "k"] [Chr 97%N]]).
Proof. vm_compute. reflexivity. Qed.
(** of an element: content with leading text, two children of one name, a comment *)
Example element_seen :
  let n := El None "a" [] [] [Attr None "k" "v"] [Chr 65%N; El None "b" [] [] [] []; Cmt "c"; El None "b" [] [] [] [Chr 66%N]] in
  text n = Some "A" /\ attr_opt "k" n = Some "v" /\ find_child "b" n = Some (El None "b" [] [] [] []) /\ length (children n) = 3.
Proof. repeat split. Qed.
