(** Prop_Convert.v -- C73: HTML made from XHTML, and XHTML from HTML *)
From Verif Require Import Base Xml Lxml Py LxmlStr Models Serialise Convert SpecEscape SpecXhtml SpecIndent SpecAnonymizable
  SpecConvert XmlProofs DictProofs EscapeProofs Frag RT RT_Xhtml ParserProofs ConvertProofs.
From Verif Require SpecXml GrammarProofs GrammarInv SerialiseProofs AnonymizeTotal.

Definition prefix (reqif_xhtml : bool) : str := if reqif_xhtml then "reqif-xhtml" else "xhtml".

(** HTML content becomes the same content with the chosen prefix: every element
    gets it, names, attributes, text, order and nesting are kept. *)
Theorem C73_html_to_xhtml :
  forall html s reqif_xhtml f,
    html s = Ok (map (tree None []) f) -> forest_ok f ->
    exists t g, convert_to_reqif_ns html s reqif_xhtml = Ok t /\ told f g
      /\ read_text ("<X>" ++ t ++ "</X>") = Some (XDoc None (XElem "X" [] (map (named (prefix reqif_xhtml)) g))).
Proof.
  intros html s b f H HF. destruct (fragment_told html s f H) as (g & HG & E).
  exists (show_forest is_object (prefix b ++ ":") g), g. split; [|split; [exact HG|]].
  - unfold convert_to_reqif_ns. rewrite E. cbn [bind]. apply forced_forest.
  - apply closed_read; [destruct b; reflexivity..|].
    destruct HG as (w & r & -> & _ & [[_ ->]|[_ ->]]); [|exact HF]. unfold forest_ok in *. apply Forall_app in HF. apply HF.
Qed.
Print Assumptions C73_html_to_xhtml.
Definition sample_html : list xh :=
  [XE "div" [("class", "x<")] [XT 97; XE "br" [] []; XE "b" [] [XT 38]]; XT 98; XE "object" [] []]%N.
Example C73_html_applies :
  let html := fun _ : str => Ok (map (tree None []) sample_html) in
  forest_ok sample_html
  /\ convert_to_reqif_ns html "<div class=""x&lt;"">a<br><b>&amp;</b></div>b<object></object>" true
     = Ok "<reqif-xhtml:div class=""x&lt;"">a<reqif-xhtml:br/><reqif-xhtml:b>&amp;</reqif-xhtml:b></reqif-xhtml:div>b<reqif-xhtml:object></reqif-xhtml:object>".
Proof.
  split; [|vm_compute; reflexivity]. unfold forest_ok, sample_html.
  repeat match goal with
  | |- Forall xh_ok (_ :: _) => constructor
  | |- Forall xh_ok [] => constructor
  | |- xh_ok _ => cbn [xh_ok map fst snd]
  | |- _ /\ _ => split
  | |- True => exact I
  | |- is_xml_char _ = true => reflexivity
  | |- (_ <> _)%N => discriminate
  | |- plain_name _ = true => reflexivity
  | |- attr_names _ = true => reflexivity
  | |- Forall (fun kv => xml_text_without _ _) [] => constructor
  | |- Forall (fun kv => xml_text_without _ _) (_ :: _) => constructor
  | |- xml_text_without _ _ => repeat constructor; cbn [In]; intuition discriminate
  end.
Qed.

(** It fails exactly on comments and processing instructions, whatever else the
    content is. *)
Lemma forced_outcome p n : match n with Chr _ => True | _ =>
  if AnonymizeTotal.bareb n then exists s, stringify_ns_node (Some p) true n = Ok s else stringify_ns_node (Some p) true n = Raise EValueError end.
Proof.
  induction n as [c|s|s|ns l d i a ks IH] using node_ind'; [exact I|reflexivity|reflexivity|].
  rewrite stringify_ns_el. cbv zeta. cbn [AnonymizeTotal.bareb].
  assert (G : if forallb AnonymizeTotal.bareb ks then exists s, stringify_ns_kids (Some p) true ks = Ok s
              else stringify_ns_kids (Some p) true ks = Raise EValueError).
  { clear ns l d i a. induction IH as [|k ks Hk _ IHk]; [exists []; reflexivity|]. cbn [forallb]. unfold stringify_ns_kids in *.
    destruct k as [c|ns l d i a kk|s|s].
    - change (AnonymizeTotal.bareb (Chr c)) with true. cbn [andb]. destruct (forallb AnonymizeTotal.bareb ks).
      + destruct IHk as (s & ->). eexists. reflexivity.
      + rewrite IHk. reflexivity.
    - destruct (AnonymizeTotal.bareb (El ns l d i a kk)); cbn [andb].
      + destruct Hk as (s1 & ->). cbn [bind]. destruct (forallb AnonymizeTotal.bareb ks).
        * destruct IHk as (s & ->). eexists. reflexivity.
        * rewrite IHk. reflexivity.
      + rewrite Hk. reflexivity.
    - change (AnonymizeTotal.bareb (Cmt s)) with false. cbn [andb]. rewrite Hk. reflexivity.
    - change (AnonymizeTotal.bareb (Pin s)) with false. cbn [andb]. rewrite Hk. reflexivity. }
  destruct (forallb AnonymizeTotal.bareb ks) eqn:E.
  - destruct G as (s & ->). cbn [bind]. destruct (needs_close (clark ns l) ks); eexists; reflexivity.
  - assert (NC : needs_close (clark ns l) ks = true) by (destruct ks; [discriminate E|reflexivity]). rewrite NC, G. reflexivity.
Qed.
Lemma kids_outcome p ks :
  if forallb AnonymizeTotal.bareb ks then exists s, stringify_ns_kids (Some p) true ks = Ok s
  else stringify_ns_kids (Some p) true ks = Raise EValueError.
Proof.
  pose proof (forced_outcome p (El (Some (Some p, p)) "p" [] [] [] (Chr 97 :: ks))) as H. cbn beta iota in H.
  induction ks as [|k ks IHk]; [exists []; reflexivity|]. clear H. assert (IH : if forallb AnonymizeTotal.bareb ks then exists s, stringify_ns_kids (Some p) true ks = Ok s
     else stringify_ns_kids (Some p) true ks = Raise EValueError) by (apply IHk; apply (forced_outcome p (El _ _ _ _ _ _))). clear IHk.
  cbn [forallb]. pose proof (forced_outcome p k) as Hk. unfold stringify_ns_kids in *. destruct k as [c|ns l d i a kk|s|s].
  - change (AnonymizeTotal.bareb (Chr c)) with true. cbn [andb]. destruct (forallb AnonymizeTotal.bareb ks).
    + destruct IH as (s & ->). eexists. reflexivity.
    + rewrite IH. reflexivity.
  - destruct (AnonymizeTotal.bareb (El ns l d i a kk)); cbn [andb].
    + destruct Hk as (s1 & ->). cbn [bind]. destruct (forallb AnonymizeTotal.bareb ks).
      * destruct IH as (s & ->). eexists. reflexivity.
      * rewrite IH. reflexivity.
    + rewrite Hk. reflexivity.
  - change (AnonymizeTotal.bareb (Cmt s)) with false. cbn [andb]. rewrite Hk. reflexivity.
  - change (AnonymizeTotal.bareb (Pin s)) with false. cbn [andb]. rewrite Hk. reflexivity.
Qed.
Lemma after_lead_bare l : forallb AnonymizeTotal.bareb (after_lead l) = forallb AnonymizeTotal.bareb l.
Proof. induction l as [|[c| | |] l IH]; try reflexivity. exact IH. Qed.
Theorem C73_html_accepted :
  forall html s reqif_xhtml kids, html s = Ok kids ->
    (Forall bare kids -> exists t, convert_to_reqif_ns html s reqif_xhtml = Ok t)
    /\ (~ Forall bare kids -> convert_to_reqif_ns html s reqif_xhtml = Raise EValueError).
Proof.
  intros html s b kids H. unfold convert_to_reqif_ns, fragment_fromstring. rewrite H. cbn [bind stringify_namespaced_children kids_of].
  set (ks := match strip (lead kids) with [] => after_lead kids | _ => kids end).
  assert (E : forallb AnonymizeTotal.bareb ks = forallb AnonymizeTotal.bareb kids) by (unfold ks; destruct (strip (lead kids)); [apply after_lead_bare|reflexivity]).
  pose proof (kids_outcome (if b then "reqif-xhtml" else "xhtml") ks) as K. rewrite E in K.
  assert (B : forallb AnonymizeTotal.bareb kids = true <-> Forall bare kids).
  { rewrite forallb_forall, Forall_forall. split; intros G x Hx; apply AnonymizeTotal.bareb_bare, G, Hx. }
  split; intros HB.
  - apply B in HB. rewrite HB in K. exact K.
  - destruct (forallb AnonymizeTotal.bareb kids); [exfalso; apply HB, B; reflexivity|exact K].
Qed.
Print Assumptions C73_html_accepted.

(** An XHTML element becomes HTML that is read as the same element without its
    prefix: if it holds any text itself, exactly; else white space may be put
    between elements.  The text after it is kept except for white space at its end. *)
Theorem C73_xhtml_to_html :
  forall hex q m n attrs kids tail,
    let x := XE n attrs kids in
    xh_ok x -> xml_text_without [] tail ->
    exists s y kept w, convert_from_reqif_ns hex (tree q m x) tail = Ok s
      /\ tail = kept ++ w /\ Forall python_blank w
      /\ read_text ("<X>" ++ s ++ "</X>") = Some (XDoc None (XElem "X" [] (unprefixed y :: map XChar kept)))
      /\ spread x y /\ (existsb is_text kids = true -> y = x).
Proof.
  intros hex q m n a k tail x HX HT. destruct (convert_from_x hex q m n a k tail) as (kept & w & E1 & E2 & E3).
  exists (put hex true 0 (xnodes None [] x) ++ flat_map put_char kept), (laid true 0 x), kept, w.
  rewrite tree_x. split; [exact E3|]. split; [exact E1|]. split; [exact E2|]. split; [|split; [apply laid_spread|intros HE; apply laid_text, HE]].
  assert (HK : Forall SpecXml.char kept).
  { rewrite E1 in HT. apply Forall_app in HT. destruct HT as [HT _]. eapply Forall_impl; [|exact HT]. intros c [HC _]. apply GrammarProofs.char_ok, HC. }
  pose proof (writable_x [] x HX) as HW. apply wrapped.
  - rewrite <- (laid_unresolve []). destruct (tail_content kept HK) as [C F].
    apply (GrammarInv.content_app _ [SerialiseProofs.unresolve (SerialiseProofs.pretty true 0 (xnodes None [] x))]);
      [|apply GrammarInv.joined_free, F|exact C].
    pose proof (SerialiseProofs.put_content false hex _ HW true 0) as G. rewrite refined_x in G. exact G.
  - apply SerialiseProofs.no_cr_app; [apply (SerialiseProofs.no_cr_put false), HW|apply tail_no_cr].
Qed.
Print Assumptions C73_xhtml_to_html.
Example C73_xhtml_applies :
  let m := [(Some ("xhtml" : str), "http://www.w3.org/1999/xhtml")] in
  let x := XE "div" [("class", "a>b")] [XT 97; XE "b" [] [XT 60]] in
  xh_ok x /\ convert_from_reqif_ns false (tree (Some (Some "xhtml", "http://www.w3.org/1999/xhtml")) m x) " & c  "
             = Ok "<div class=""a&gt;b"">a<b>&lt;</b></div> &amp; c".
Proof.
  split; [|vm_compute; reflexivity]. cbn [xh_ok map fst snd]. repeat split; try reflexivity; try discriminate; try constructor.
  - cbn [snd]. repeat constructor; cbn [In]; intuition discriminate.
  - constructor.
Qed.

(** There and back: an element with text in it, made HTML and then XHTML again, is
    the same element, if the HTML parser reads what it is given as an XML parser
    would. *)
Theorem C73_there_and_back :
  forall html hex q m n attrs kids s reqif_xhtml,
    let x := XE n attrs kids in
    xh_ok x -> existsb is_text kids = true ->
    convert_from_reqif_ns hex (tree q m x) [] = Ok s ->
    (forall f, read_text ("<X>" ++ s ++ "</X>") = Some (XDoc None (XElem "X" [] (map unprefixed f))) -> html s = Ok (map (tree None []) f)) ->
    exists t, convert_to_reqif_ns html s reqif_xhtml = Ok t
      /\ read_text ("<X>" ++ t ++ "</X>") = Some (XDoc None (XElem "X" [] [named (prefix reqif_xhtml) x])).
Proof.
  intros html hex q m n a k s b x HX HE HS HH.
  destruct (C73_xhtml_to_html hex q m n a k [] HX ltac:(constructor)) as (s' & y & kept & w & E1 & E2 & _ & E3 & _ & E4). fold x in E1, E4.
  rewrite HS in E1. injection E1 as <-. symmetry in E2. apply app_eq_nil in E2. destruct E2 as [-> ->]. rewrite (E4 HE) in E3.
  specialize (HH [x] E3). destruct (C73_html_to_xhtml html s b [x] HH ltac:(constructor; [exact HX|constructor])) as (t & g & T1 & T2 & T3).
  exists t. split; [exact T1|]. rewrite T3. do 4 f_equal.
  destruct T2 as (w & r & E & _ & [[_ ->]|[_ ->]]); [|reflexivity]. destruct w as [|c w]; [cbn [map app] in E; subst r; reflexivity|discriminate E].
Qed.
Print Assumptions C73_there_and_back.

(** ** What is not kept *)
(** white space before the first element *)
Theorem C73_leading_blank_refuted :
  exists f t, forest_ok f /\ convert_to_reqif_ns (fun _ => Ok (map (tree None []) f)) " <b/>" false = Ok t
    /\ f = [XT 32%N; XE "b" [] []] /\ t = "<xhtml:b/>".
Proof.
  exists [XT 32%N; XE "b" [] []], "<xhtml:b/>". split; [|split; [vm_compute; reflexivity|split; reflexivity]].
  constructor; [split; [reflexivity|discriminate]|]. constructor; [|constructor]. cbn [xh_ok map fst snd]. repeat split; constructor.
Qed.
(** the absence of white space between elements: "ab" becomes "a b" *)
Theorem C73_adjacent_elements_refuted :
  exists x s, xh_ok x /\ convert_from_reqif_ns false (tree None [] x) [] = Ok s
    /\ x = XE "p" [] [XE "b" [] [XT 97]; XE "i" [] [XT 98]]%N
    /\ s = "<p>" ++ nl ++ "  <b>a</b>" ++ nl ++ "  <i>b</i>" ++ nl ++ "</p>".
Proof.
  eexists (XE "p" [] [XE "b" [] [XT 97]; XE "i" [] [XT 98]]%N), _. split; [|split; [vm_compute; reflexivity|split; reflexivity]].
  cbn [xh_ok map fst snd]. repeat split; try reflexivity; try discriminate; constructor.
Qed.
(** comments: an exception *)
Theorem C73_comment_refuted :
  exists kids, convert_to_reqif_ns (fun _ => Ok kids) "<!--x-->" false = Raise EValueError /\ kids = [Cmt "x"].
Proof. exists [Cmt "x"]. split; reflexivity. Qed.
