(** Prop_Entry.v -- C59: the entry points for XHTML attributes do what the
    general ones do *)
From Verif Require Import Base Xml Utf8 Lxml Py LxmlStr Models AttrDef AttrValue SpecParse DictProofs FaithProofs.

Definition with_multi_valued (m : option bool) (a : attr_def) : attr_def :=
  AttrDef (ad_type a) (ad_identifier a) (ad_datatype_definition a) (ad_xml_node a) (ad_description a) (ad_last_change a)
          (ad_long_name a) (ad_editable a) (ad_default_value_definition_ref a) (ad_default_value a) m.
(** Reading an XHTML attribute definition on its own gives what reading it as
    part of a type gives, except that it is marked as not multi-valued; other
    elements are refused. *)
Theorem C59_definition :
  forall n,
    (tag n = Some "ATTRIBUTE-DEFINITION-XHTML" ->
       parse_xhtml_attribute_definition n =
       match parse_attribute_definition n with
       | Ok a => Ok (with_multi_valued (Some false) a)
       | Raise e => Raise e
       end)
    /\ (tag n <> Some "ATTRIBUTE-DEFINITION-XHTML" -> parse_xhtml_attribute_definition n = Raise EAssertionError).
Proof.
  intros n. unfold parse_xhtml_attribute_definition, parse_attribute_definition. split; intros T.
  - assert (A : attr_type_of_def_tag (tag n) = Some AT_XHTML) by (rewrite T; reflexivity).
    assert (B : tag_is "ATTRIBUTE-DEFINITION-XHTML" n = true) by (unfold tag_is; rewrite T; reflexivity).
    rewrite A, B. cbn [py_assert bind]. destruct (attr_req "IDENTIFIER" n) as [i|e]; [|reflexivity]. cbn [bind].
    destruct (parse_datatype_ref AT_XHTML n) as [d|e]; [|reflexivity]. cbn [bind].
    unfold parse_default_value. destruct (parse_default_xhtml n) as [[ref dv]|e]; reflexivity.
  - destruct (tag_is "ATTRIBUTE-DEFINITION-XHTML" n) eqn:E; [|reflexivity]. apply tag_is_eq in E. contradiction.
Qed.
(** The difference shows when the definition is written: every element comes out
    the same but for the MULTI-VALUED attribute. *)
Theorem C59_written_definition :
  forall a s, ad_multi_valued a = None -> unparse_attribute_definition a = Ok s ->
    exists before after, s = before ++ after
      /\ unparse_attribute_definition (with_multi_valued (Some false) a) = Ok (before ++ " MULTI-VALUED=""false""" ++ after).
Proof.
  intros a s M H. unfold unparse_attribute_definition in *.
  change (ad_xml_node (with_multi_valued (Some false) a)) with (ad_xml_node a).
  change (unparse_ad_child (with_multi_valued (Some false) a)) with (unparse_ad_child a).
  destruct (mapM (unparse_ad_child a) _) as [body|e]; [|discriminate H]. cbn [bind] in *.
  assert (X : forall x y : str, Ok x = Ok y -> x = y) by congruence. apply X in H. subst s.
  exists ("            <" ++ get_spec_type_tag (ad_type a) ++ opt_attr "DESC" lxml_escape_for_html (ad_description a)
    ++ " IDENTIFIER=""" ++ ad_identifier a ++ """" ++ opt_bool_attr "IS-EDITABLE" (ad_editable a)
    ++ truthy_attr "LAST-CHANGE" (ad_last_change a) ++ opt_attr "LONG-NAME" lxml_escape_for_html (ad_long_name a)).
  exists (">" ++ nl ++ concat body ++ "            </" ++ get_spec_type_tag (ad_type a) ++ ">" ++ nl).
  rewrite M. cbn [with_multi_valued ad_type ad_description ad_identifier ad_editable ad_last_change ad_long_name ad_multi_valued].
  split; [|f_equal]; rewrite <- !app_assoc; reflexivity.
Qed.
(** Reading an XHTML value on its own is reading it as part of an object. *)
Theorem C59_value :
  forall n, tag n = Some "ATTRIBUTE-VALUE-XHTML" ->
    parse_attribute_value n = match parse_xhtml_attribute_value n with Ok a => Ok (Some a) | Raise e => Raise e end.
Proof.
  intros n T. assert (C : is_comment n = false) by (destruct n; [reflexivity|reflexivity|discriminate T|reflexivity]).
  unfold parse_attribute_value, tag_is. rewrite C, T. destruct (parse_xhtml_attribute_value n); reflexivity.
Qed.
(** Writing an XHTML value on its own is writing it as part of an object; any
    other value with a text is written as if it were XHTML. *)
Theorem C59_written_value :
  forall a,
    (sa_type a = AT_XHTML -> unparse_xhtml_attribute_value a = unparse_attribute_value a)
    /\ unparse_xhtml_attribute_value a =
       unparse_attribute_value (SpecAttr AT_XHTML (sa_definition_ref a) (sa_value a) (sa_value_stripped_xhtml a) (sa_xml_node a)).
Proof.
  intros a. unfold unparse_xhtml_attribute_value, unparse_attribute_value. cbn [sa_type sa_value sa_definition_ref].
  split; [intros ->|]; destruct (sa_value a); reflexivity.
Qed.

(** ** A definition with a default value, read both ways *)
Example C59_example :
  let ref := El None "DATATYPE-DEFINITION-XHTML-REF" [] [] [] [Chr 120%N] in
  let n := El None "ATTRIBUTE-DEFINITION-XHTML" [] [] [Attr None "IDENTIFIER" "a"; Attr None "MULTI-VALUED" "true"]
              [El None "TYPE" [] [] [] [ref]; El None "DEFAULT-VALUE" [] [] [] []] in
  match parse_attribute_definition n, parse_xhtml_attribute_definition n with
  | Ok a, Ok a' => (ad_multi_valued a, ad_multi_valued a', ad_datatype_definition a', ad_default_value a')
                   = (None, Some false, Some "x", DVEmptyTag)
  | _, _ => False
  end.
Proof. vm_compute. reflexivity. Qed.

Print Assumptions C59_definition.
Print Assumptions C59_written_definition.
Print Assumptions C59_value.
Print Assumptions C59_written_value.
