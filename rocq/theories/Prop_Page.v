(** Prop_Page.v -- C57: the dump page is an HTML document *)
From Verif Require Import Base Xml Utf8 Lxml Py LxmlStr Models Progress Parser BundleModel SpecXml SpecDump Dump SpecPage
  GrammarProofs GrammarMachine GrammarDoc PageProofs Prop_Dump.

(** If the texts of the document that are shown are well formed as content of an
    element, with [tree v] for [v], then the page is a document type declaration
    followed by one element, and that element is, up to white space, the tree
    [html_of] of what is shown. *)
Theorem C57_page_is_html :
  forall repr_list s b html tree,
    parse_string s = Ok b -> dump_html repr_list b = Ok html ->
    exists p, shows repr_list b p
      /\ ((forall v, In v (shown p) -> content v (tree v)) ->
          exists e root, html = "<!DOCTYPE html>" ++ nl ++ e ++ nl /\ element e root /\ without_blanks root = html_of tree p).
Proof.
  intros repr_list s b html tree P D. apply (C48_page_shows_the_document repr_list s b html P) in D. destruct D as (p & S & ->).
  exists p. split; [exact S|]. intros H. destruct (page_reads tree p) as (root & E & W).
  { apply Forall_forall. exact H. }
  exists (page_element p), root. split; [apply page_text|]. auto.
Qed.
(** In particular if they contain only ordinary characters. *)
Theorem C57_plain_values :
  forall repr_list s b html,
    parse_string s = Ok b -> dump_html repr_list b = Ok html ->
    exists p, shows repr_list b p
      /\ ((forall v, In v (shown p) -> absent "]]>" v /\ forall c, In c v -> char c /\ ~ In c "<&") ->
          exists e root, html = "<!DOCTYPE html>" ++ nl ++ e ++ nl /\ element e root
                         /\ without_blanks root = html_of (map XChar) p).
Proof.
  intros repr_list s b html P D. destruct (C57_page_is_html repr_list s b html (map XChar) P D) as (p & S & H).
  exists p. split; [exact S|]. intros C. apply H. intros v I. specialize (C v). 
  destruct (C I) as [A G]. clear - A G.
  induction v as [|c v IH]; [constructor|]. destruct (G c (or_introl eq_refl)) as [G1 G2].
  apply content_char; [exact G1| | | |apply IH; [|intros x Hx; apply G; right; exact Hx]].
  - intros ->; apply G2; cbn; auto.
  - intros ->; apply G2; cbn; auto.
  - intros u. apply (A []).
  - intros x y E. apply (A (c :: x) y). rewrite E. reflexivity.
Qed.
(** Without the condition this fails: the title of the header is inserted as it is. *)
Definition titled (t : str) : str :=
  "<REQ-IF><THE-HEADER><REQ-IF-HEADER IDENTIFIER='h'><TITLE>" ++ t ++ "</TITLE></REQ-IF-HEADER></THE-HEADER></REQ-IF>".
Theorem C57_page_is_html_refuted :
  exists s b html, parse_string s = Ok b /\ dump_html (fun _ => []) b = Ok html
    /\ forall e root, html = "<!DOCTYPE html>" ++ nl ++ e ++ nl -> ~ element e root.
Proof.
  exists (titled "a &lt; b"). eexists. eexists. split; [vm_compute; reflexivity|]. split; [vm_compute; reflexivity|].
  intros e root E H. apply (proj1 grammar_run) with (b := false) (s := []) (d := []) (j := 0) in H.
  apply (f_equal (fun t => md (run1 init (skipn 16 t)))) in E.
  change (skipn 16 ("<!DOCTYPE html>" ++ nl ++ e ++ nl)) with (e ++ nl) in E. rewrite run1_app in E. unfold init in E. rewrite H in E.
  vm_compute in E. discriminate E.
Qed.
(** ** A page with every kind of part *)
Definition shown_doc : str :=
  "<REQ-IF><THE-HEADER><REQ-IF-HEADER IDENTIFIER='h'><CREATION-TIME>now</CREATION-TIME><TITLE>A title</TITLE></REQ-IF-HEADER></THE-HEADER>"
  ++ "<CORE-CONTENT><REQ-IF-CONTENT><DATATYPES><DATATYPE-DEFINITION-STRING IDENTIFIER='dt'/></DATATYPES>"
  ++ "<SPEC-TYPES><SPEC-OBJECT-TYPE IDENTIFIER='t'/></SPEC-TYPES><SPEC-OBJECTS><SPEC-OBJECT IDENTIFIER='o'>"
  ++ "<TYPE><SPEC-OBJECT-TYPE-REF>t</SPEC-OBJECT-TYPE-REF></TYPE><VALUES><ATTRIBUTE-VALUE-STRING THE-VALUE='x &lt;b>y&lt;/b>'>"
  ++ "<DEFINITION><ATTRIBUTE-DEFINITION-STRING-REF>a</ATTRIBUTE-DEFINITION-STRING-REF></DEFINITION></ATTRIBUTE-VALUE-STRING></VALUES></SPEC-OBJECT></SPEC-OBJECTS>"
  ++ "<SPECIFICATIONS><SPECIFICATION IDENTIFIER='s' LONG-NAME='S'><CHILDREN><SPEC-HIERARCHY IDENTIFIER='x'><OBJECT><SPEC-OBJECT-REF>o</SPEC-OBJECT-REF></OBJECT>"
  ++ "</SPEC-HIERARCHY></CHILDREN></SPECIFICATION></SPECIFICATIONS></REQ-IF-CONTENT></CORE-CONTENT></REQ-IF>".
Definition shown_page : page :=
  Page (Some ("A title", "now")) (Some (Some (["dt"], ["t"], [("S", [Table "t" "o" [("a", "x <b>y</b>")]])]))).
Definition shown_tree (v : str) : list xnode :=
  if str_eqb v "x <b>y</b>" then map XChar "x " ++ [XElem "b" [] [XChar 121]] else map XChar v.
Example C57_example :
  (exists b html, parse_string shown_doc = Ok b /\ dump_html (fun _ => []) b = Ok html /\ html = show_page shown_page)
  /\ (forall v, In v (shown shown_page) -> content v (shown_tree v)).
Proof.
  split; [eexists; eexists; split; [vm_compute; reflexivity|]; split; vm_compute; reflexivity|].
  assert (C : forall t, forallb text_char t && forallb (fun c => negb (N.eqb c 60) && negb (N.eqb c 62)) t = true -> content t (map XChar t)).
  { intros t H. apply andb_true_iff in H. destruct H as [H1 H2].
    replace t with (esc t) at 1; [apply content_esc, H1|]. clear H1. induction t as [|c t IH]; [reflexivity|].
    cbn [forallb] in H2. apply andb_true_iff in H2. destruct H2 as [H H2]. apply andb_true_iff in H. destruct H as [H H'].
    apply negb_true_iff in H, H'. unfold esc. cbn [flat_map]. rewrite H, H'. cbn [app]. f_equal. exact (IH H2). }
  intros v I. cbn in I. repeat (destruct I as [<-|I]; [|]); try (destruct I); try (apply C; vm_compute; reflexivity).
  apply (GrammarInv.content_app "x " (map XChar "x ")) with (t' := "<b>y</b>") (k' := [XElem "b" [] [XChar 121%N]]).
  - apply C. vm_compute. reflexivity.
  - apply GrammarInv.joined_first; discriminate.
  - apply (content_element "<b>y</b>" (XElem "b" [] [XChar 121%N]) [] []); [|constructor].
    apply (element_tagged "b" [] "y" [XChar 121%N]); [vm_compute; reflexivity|]. apply C. vm_compute. reflexivity.
Qed.

Print Assumptions C57_page_is_html.
Print Assumptions C57_plain_values.
Print Assumptions C57_page_is_html_refuted.
