(** Prop_Layout.v -- C54: the layout of a document does not matter *)
From Coq Require Import Permutation.
From Verif Require Import Base Xml Utf8 Lxml Py LxmlStr Models AttrDef DataType Header AttrValue SpecObj Hierarchy
  SpecTypes Progress Parser Unparser SpecPrint SpecDocument SpecLayout LayoutProofs.

(** Two documents that differ only in their layout: parsing makes the same
    progress reports for both; it fails on both, with the same exception, or
    yields bundles that differ only in the XML nodes stored in them; and these
    are written as the same text. *)
Theorem C54_layout_does_not_matter :
  forall cb s s' decl root root' h,
    lxml_parse s = Some (decl, root) -> lxml_parse s' = Some (decl, root') -> relaid_root false root root' ->
    fst (parse_from_string cb s h) = fst (parse_from_string cb s' h)
    /\ same_result (fun b b' => same_bundle b b' /\ forall cb' h', unparse cb' b h' = unparse cb' b' h')
         (snd (parse_from_string cb s h)) (snd (parse_from_string cb s' h)).
Proof.
  intros cb s s' decl root root' h E E' R. unfold parse_from_string.
  destruct s as [|c s]; [discriminate E|]. destruct s' as [|c' s']; [discriminate E'|].
  rewrite E, E'. destruct (reqif_rel false cb decl root root' R h) as [H1 H2]. split; [exact H1|].
  apply (same_mono (bundle_rel false)); [|exact H2]. intros b b' B. split; [apply (bundle_rel_same false), B|].
  intros cb' h'. apply bundle_rel_text, B.
Qed.
Print Assumptions C54_layout_does_not_matter.

(** In particular a document can be reformatted before it is converted. *)
Theorem C54_conversion_ignores_layout :
  forall s s' decl root root' b,
    lxml_parse s = Some (decl, root) -> lxml_parse s' = Some (decl, root') -> relaid_root false root root' ->
    parse_string s = Ok b -> exists b', parse_string s' = Ok b' /\ unparse_string b' = unparse_string b.
Proof.
  intros s s' decl root root' b E E' R H.
  destruct (C54_layout_does_not_matter None s s' decl root root' [] E E' R) as [_ G].
  unfold parse_string in *. rewrite H in G.
  destruct (snd (parse_from_string None s' [])) as [b'|e]; [|contradiction G].
  exists b'. split; [reflexivity|]. unfold unparse_string. destruct G as [_ G]. f_equal. symmetry. apply G.
Qed.
Print Assumptions C54_conversion_ignores_layout.

(** ** An example: one line, and indented with another order of sections and
    attributes and another comment *)
Definition one_line : str :=
  "<REQ-IF><THE-HEADER><REQ-IF-HEADER IDENTIFIER='h'><TITLE>a</TITLE><COMMENT>b</COMMENT></REQ-IF-HEADER></THE-HEADER>"
  ++ "<CORE-CONTENT><REQ-IF-CONTENT><SPEC-OBJECTS><!--x--><SPEC-OBJECT IDENTIFIER='o' DESC='d'><VALUES/><TYPE>"
  ++ "<SPEC-OBJECT-TYPE-REF>t</SPEC-OBJECT-TYPE-REF></TYPE></SPEC-OBJECT></SPEC-OBJECTS></REQ-IF-CONTENT></CORE-CONTENT></REQ-IF>".
Definition indented : str :=
  "<REQ-IF>" ++ nl ++ " <CORE-CONTENT>" ++ nl ++ "<REQ-IF-CONTENT><SPEC-OBJECTS>" ++ nl ++ "  <!--y-->" ++ nl
  ++ "  <SPEC-OBJECT DESC='d' IDENTIFIER='o'> <VALUES/> <TYPE> <SPEC-OBJECT-TYPE-REF>t</SPEC-OBJECT-TYPE-REF> </TYPE>" ++ nl
  ++ " </SPEC-OBJECT></SPEC-OBJECTS> </REQ-IF-CONTENT></CORE-CONTENT>" ++ nl
  ++ "<THE-HEADER> <REQ-IF-HEADER IDENTIFIER='h'> <COMMENT>b</COMMENT> <TITLE>a</TITLE> </REQ-IF-HEADER></THE-HEADER></REQ-IF>".
Definition root_of (s : str) : node := match lxml_parse s with Some (_, r) => r | None => Chr 0%N end.
Definition one_line_root := Eval vm_compute in root_of one_line.
Definition indented_root := Eval vm_compute in root_of indented.
Ltac distinct := repeat (constructor; [cbn [In]; intuition discriminate|]); constructor.
Ltac in_place p' := apply (relaid_element _ _ p'); [cbn [table In]; tauto|apply Permutation_refl|right; distinct|right; split; [discriminate|]].
Ltac in_sequence := eexists; split; [left; reflexivity|cbn [items filter]; constructor].
Example C54_example :
  lxml_parse one_line = Some (None, one_line_root) /\ lxml_parse indented = Some (None, indented_root)
  /\ relaid_root false one_line_root indented_root
  /\ exists b, parse_string one_line = Ok b /\ exists t, unparse_string b = Ok t.
Proof.
  split; [vm_compute; reflexivity|]. split; [vm_compute; reflexivity|]. split.
  - unfold one_line_root, indented_root. eexists _, _, _, _, _, _, _. split; [reflexivity|]. split; [reflexivity|].
    right. split; [discriminate|]. eexists. split.
    { right. split; [reflexivity|]. split; [cbn [items filter]; apply perm_swap|]. cbn [items filter names flat_map app]. distinct. }
    constructor; [|constructor; [|constructor]].
    + in_place InCore. in_sequence; [|constructor]. in_place InContent. in_sequence; [|constructor]. in_place InObjects.
      in_sequence; [apply relaid_comment; reflexivity|]. constructor; [|constructor].
      apply (relaid_element _ _ InObject); [cbn [table In]; tauto|apply perm_swap|right; distinct|]. right. split; [discriminate|].
      in_sequence; [apply relaid_same|]. constructor; [|constructor].
      in_place InLast. in_sequence; [apply relaid_same|constructor].
    + in_place InTheHeader. in_sequence; [|constructor]. in_place InHeader.
      eexists. split; [right; split; [reflexivity|]; split; [cbn [items filter]; apply perm_swap|]|].
      * cbn [items filter names flat_map app]. distinct.
      * cbn [items filter]. repeat constructor.
  - eexists. split; [vm_compute; reflexivity|]. eexists. vm_compute. reflexivity.
Qed.

(** ** Where layout does matter: white space around a reference becomes part of
    it; an element that only holds white space is not the same as a self-closed
    one; the order of the children of an object decides how it is written. *)
Definition layout_text (type self_closed order1 order2 : str) : str :=
  "<REQ-IF><CORE-CONTENT><REQ-IF-CONTENT><SPEC-TYPES><RELATION-GROUP-TYPE IDENTIFIER='g'>" ++ self_closed
  ++ "</RELATION-GROUP-TYPE></SPEC-TYPES><SPEC-OBJECTS><SPEC-OBJECT IDENTIFIER='o'>" ++ order1
  ++ "<TYPE><SPEC-OBJECT-TYPE-REF>" ++ type ++ "</SPEC-OBJECT-TYPE-REF></TYPE>" ++ order2
  ++ "</SPEC-OBJECT></SPEC-OBJECTS></REQ-IF-CONTENT></CORE-CONTENT></REQ-IF>".
Definition converted (s : str) : option str :=
  match parse_string s with
  | Ok b => match unparse_string b with Ok t => Some t | Raise _ => None end
  | Raise _ => None
  end.
Theorem C54_all_layout_ignored_refuted :
  exists s1 s2 s3 s4 t1 t2 t3 t4,
    s1 = layout_text "t" [] "<VALUES/>" [] /\ s2 = layout_text " t " [] "<VALUES/>" []
    /\ s3 = layout_text "t" " " "<VALUES/>" [] /\ s4 = layout_text "t" [] [] "<VALUES/>"
    /\ converted s1 = Some t1 /\ converted s2 = Some t2 /\ converted s3 = Some t3 /\ converted s4 = Some t4
    /\ t1 <> t2 /\ t1 <> t3 /\ t1 <> t4.
Proof.
  eexists _, _, _, _, _, _, _, _. do 4 (split; [reflexivity|]). do 4 (split; [vm_compute; reflexivity|]).
  repeat split; intros E; vm_compute in E; discriminate E.
Qed.
Print Assumptions C54_all_layout_ignored_refuted.
