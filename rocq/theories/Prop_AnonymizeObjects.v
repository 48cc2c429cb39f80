(** Prop_AnonymizeObjects.v -- C71: anonymizing objects in memory *)
From Verif Require Import Base Xml Lxml Py Models AttrDef AttrValue SpecObj Hierarchy Progress Parser Unparser
  AnonymizeObjects SpecObjectTexts SpecPrint DictProofs.

(** What is left of an attribute: free texts are replaced, everything else stays. *)
Theorem C71_attribute :
  forall a,
    (sa_type a = AT_STRING -> sa_value (anonymize_attribute a) = VStr "Anonymized")
    /\ (sa_type a = AT_XHTML -> sa_value (anonymize_attribute a) = VStr "<xhtml:div>Anonymized</xhtml:div>")
    /\ (~ free_text (sa_type a) -> anonymize_attribute a = a)
    /\ sa_type (anonymize_attribute a) = sa_type a
    /\ sa_definition_ref (anonymize_attribute a) = sa_definition_ref a
    /\ sa_value_stripped_xhtml (anonymize_attribute a) = sa_value_stripped_xhtml a
    /\ sa_xml_node (anonymize_attribute a) = sa_xml_node a.
Proof.
  intros a. unfold anonymize_attribute, free_text. destruct (sa_type a) eqn:E;
    repeat match goal with |- _ /\ _ => split end; try discriminate; try reflexivity; try assumption;
    intros H; exfalso; apply H; auto.
Qed.
(** Objects and specifications keep their number, their order and all their other
    fields; an empty or absent name stays empty or absent. *)
Theorem C71_objects :
  forall l, Forall2 (fun o o' =>
    so_attributes o' = map anonymize_attribute (so_attributes o)
    /\ so_identifier o' = so_identifier o /\ so_spec_object_type o' = so_spec_object_type o /\ so_description o' = so_description o
    /\ so_last_change o' = so_last_change o /\ so_long_name o' = so_long_name o /\ so_xml_node o' = so_xml_node o)
    l (anonymize_spec_objects l).
Proof. induction l as [|o l IH]; constructor; [repeat split|exact IH]. Qed.
Theorem C71_specifications :
  forall l, Forall2 (fun s s' =>
    (forall n, sp_long_name s = Some n -> n <> [] -> sp_long_name s' = Some "Anonymized")
    /\ (sp_long_name s = None \/ sp_long_name s = Some [] -> sp_long_name s' = sp_long_name s)
    /\ sp_values s' = option_map (map anonymize_attribute) (sp_values s)
    /\ sp_identifier s' = sp_identifier s /\ sp_description s' = sp_description s /\ sp_last_change s' = sp_last_change s
    /\ sp_specification_type s' = sp_specification_type s /\ sp_children s' = sp_children s /\ sp_xml_node s' = sp_xml_node s)
    l (anonymize_specifications l).
Proof.
  induction l as [|s l IH]; constructor; [|exact IH]. unfold anonymize_specification. cbn.
  repeat match goal with |- _ /\ _ => split end; try reflexivity.
  - intros n -> H. destruct n; [contradiction|reflexivity].
  - intros [-> | ->]; reflexivity.
Qed.
(** Doing it again changes nothing. *)
Lemma attribute_again a : anonymize_attribute (anonymize_attribute a) = anonymize_attribute a.
Proof. unfold anonymize_attribute. destruct a as [[] r v x n]; reflexivity. Qed.
Theorem C71_idempotent :
  forall l l', anonymize_spec_objects (anonymize_spec_objects l) = anonymize_spec_objects l
    /\ anonymize_specifications (anonymize_specifications l') = anonymize_specifications l'.
Proof.
  intros l l'. unfold anonymize_spec_objects, anonymize_specifications. rewrite !map_map. split; apply map_ext.
  - intros o. cbn. f_equal. rewrite map_map. apply map_ext, attribute_again.
  - intros s. unfold anonymize_specification. cbn. f_equal.
    + destruct (sp_long_name s) as [[|c n]|]; reflexivity.
    + destruct (sp_values s) as [vs|]; [|reflexivity]. f_equal. rewrite map_map. apply map_ext, attribute_again.
Qed.

(** The hidden texts cannot be seen in what is written: objects that differ only in
    them are written alike. *)
Lemma value_alike a a' : same_but_text a a' ->
  unparse_attribute_value (anonymize_attribute a) = unparse_attribute_value (anonymize_attribute a').
Proof.
  destruct a as [t r v x n], a' as [t' r' v' x' n']. intros (E1 & E2 & E3). cbn in *. subst t' r'.
  destruct E3 as [[-> | ->]|[-> ->]]; try reflexivity. destruct t; reflexivity.
Qed.
Lemma values_alike l l' : Forall2 same_but_text l l' ->
  unparse_attribute_values (Some (map anonymize_attribute l)) = unparse_attribute_values (Some (map anonymize_attribute l')).
Proof.
  intros H. assert (E : mapM unparse_attribute_value (map anonymize_attribute l) = mapM unparse_attribute_value (map anonymize_attribute l')).
  { induction H as [|a a' l l' HA _ IH]; [reflexivity|]. cbn [map mapM]. rewrite (value_alike _ _ HA), IH. reflexivity. }
  destruct H; [reflexivity|]. cbn [map] in *. unfold unparse_attribute_values. rewrite E. reflexivity.
Qed.
Lemma layout_tags n n' d : layout n = layout n' -> tags_or n d = tags_or n' d.
Proof. destruct n, n'; cbn; try discriminate; [|reflexivity]. intros H. injection H as H. exact H. Qed.
Theorem C71_written_objects_hide_texts :
  forall l l', Forall2 same_object_but_texts l l' ->
    map unparse_spec_object (anonymize_spec_objects l) = map unparse_spec_object (anonymize_spec_objects l').
Proof.
  induction 1 as [|o o' l l' HO _ IH]; [reflexivity|]. cbn [anonymize_spec_objects map]. f_equal; [|exact IH]. clear IH.
  destruct o as [i a t d c g n], o' as [i' a' t' d' c' g' n']. destruct HO as (E1 & E2 & E3 & E4 & E5 & E6 & E7).
  cbn [so_identifier so_attributes so_spec_object_type so_description so_last_change so_long_name so_xml_node] in *. subst i' d' c' g' t'.
  unfold unparse_spec_object. cbn [so_identifier so_attributes so_spec_object_type so_description so_last_change so_long_name so_xml_node].
  rewrite (layout_tags n n' _ E6).
  destruct (py_assert _); [|reflexivity]. cbn [bind]. destruct (py_assert _); [|reflexivity]. cbn [bind]. f_equal.
  induction (tags_or n' ["VALUES"; "TYPE"]) as [|x ts IH]; [reflexivity|]. cbn [mapM]. rewrite IH. f_equal.
  unfold unparse_so_child. cbn [so_attributes]. rewrite (values_alike _ _ E7). reflexivity.
Qed.
Theorem C71_written_specifications_hide_texts :
  forall l l', Forall2 same_specification_but_texts l l' ->
    map unparse_specification (anonymize_specifications l) = map unparse_specification (anonymize_specifications l').
Proof.
  induction 1 as [|o o' l l' HO _ IH]; [reflexivity|]. cbn [anonymize_specifications map]. f_equal; [|exact IH]. clear IH.
  destruct o as [i d c g v t k n], o' as [i' d' c' g' v' t' k' n']. destruct HO as (E1 & E2 & E3 & E4 & E5 & E6 & E7 & E8).
  cbn [sp_identifier sp_description sp_last_change sp_long_name sp_values sp_specification_type sp_children sp_xml_node] in *. subst i' d' c' t' k'.
  unfold unparse_specification, anonymize_specification.
  cbn [sp_identifier sp_description sp_last_change sp_long_name sp_values sp_specification_type sp_children sp_xml_node].
  rewrite (layout_tags n n' _ E7).
  assert (EG : match g with Some [] => Some [] | Some (_ :: _) => Some ANONYMIZED | None => None end
             = match g' with Some [] => Some [] | Some (_ :: _) => Some ANONYMIZED | None => None end).
  { destruct g as [[|x g]|], g' as [[|x' g']|]; cbn in E4; try contradiction; try reflexivity.
    - assert (H : x' :: g' = []) by (apply E4; reflexivity). discriminate H.
    - assert (H : x :: g = []) by (apply E4; reflexivity). discriminate H. }
  rewrite EG. f_equal. induction (tags_or n' ["TYPE"; "CHILDREN"; "VALUES"]) as [|x ts IH]; [reflexivity|]. cbn [mapM]. rewrite IH. f_equal.
  unfold unparse_sp_child. cbn [sp_specification_type sp_children sp_values].
  destruct v as [v|], v' as [v'|]; cbn in E8; try contradiction; [rewrite (values_alike _ _ E8)|]; reflexivity.
Qed.

(** In memory something remains: of an XHTML value the copy without prefixes. *)
Definition secret : spec_attr :=
  SpecAttr AT_XHTML (Some "d") (VStr "<xhtml:p>secret</xhtml:p>") (Some "<p>secret</p>") None.
Theorem C71_stripped_copy_survives_refuted :
  exists a, sa_type a = AT_XHTML /\ sa_value_stripped_xhtml (anonymize_attribute a) = Some "<p>secret</p>".
Proof. exists secret. split; reflexivity. Qed.
(** The prefix of the new XHTML value is fixed: a document that uses another one
    cannot be read after it was anonymized and written. *)
Definition other_prefix : str :=
  "<REQ-IF xmlns=""r"" xmlns:h=""http://www.w3.org/1999/xhtml""><CORE-CONTENT><REQ-IF-CONTENT>"
  ++ "<SPEC-OBJECTS><SPEC-OBJECT IDENTIFIER=""o""><VALUES><ATTRIBUTE-VALUE-XHTML><DEFINITION>"
  ++ "<ATTRIBUTE-DEFINITION-XHTML-REF>d</ATTRIBUTE-DEFINITION-XHTML-REF></DEFINITION>"
  ++ "<THE-VALUE><h:div>secret</h:div></THE-VALUE></ATTRIBUTE-VALUE-XHTML></VALUES>"
  ++ "<TYPE><SPEC-OBJECT-TYPE-REF>t</SPEC-OBJECT-TYPE-REF></TYPE></SPEC-OBJECT></SPEC-OBJECTS>"
  ++ "</REQ-IF-CONTENT></CORE-CONTENT></REQ-IF>".
Definition with_objects (f : list spec_object -> list spec_object) (b : bundle) : bundle :=
  match b_core_content b with
  | Some (Some c) =>
      Bundle (b_namespace_info b) (b_header b)
        (Some (Some (Content (rc_data_types c) (rc_spec_types c) (option_map f (rc_spec_objects c)) (rc_spec_relations c)
                       (rc_specifications c) (rc_spec_relation_groups c)))) (b_tool_extensions b) (b_lookup b) (b_exceptions b)
  | _ => b
  end.
Theorem C71_result_can_be_read_refuted :
  exists s b t u b', parse_string s = Ok b /\ unparse_string b = Ok u /\ parse_string u = Ok b'
    /\ unparse_string (with_objects anonymize_spec_objects b) = Ok t
    /\ parse_string t = Raise EReqIFXMLParsingError.
Proof.
  exists other_prefix. eexists. eexists. eexists. eexists.
  split; [vm_compute; reflexivity|]. split; [vm_compute; reflexivity|]. split; [vm_compute; reflexivity|].
  split; [vm_compute; reflexivity|]. vm_compute. reflexivity.
Qed.
(** Two objects with different texts *)
Definition object_with (v w : str) : spec_object :=
  SpecObject "o" [SpecAttr AT_STRING (Some "s") (VStr v) None None; SpecAttr AT_INTEGER (Some "i") (VStr "7") None None;
                  SpecAttr AT_XHTML (Some "x") (VStr w) (Some w) None] (Some "t") None None None None.
Example C71_example :
  Forall2 same_object_but_texts [object_with "a" "b"] [object_with "c" "d"]
  /\ unparse_spec_object (object_with "a" "b") <> unparse_spec_object (object_with "c" "d")
  /\ exists t, map unparse_spec_object (anonymize_spec_objects [object_with "a" "b"]) = [Ok t].
Proof.
  split; [|split; [vm_compute; discriminate|eexists; vm_compute; reflexivity]].
  constructor; [|constructor]. unfold same_object_but_texts, object_with. cbn.
  repeat match goal with |- _ /\ _ => split end; try reflexivity.
  repeat (apply Forall2_cons); [| | |apply Forall2_nil]; unfold same_but_text, free_text; cbn; auto.
Qed.
Print Assumptions C71_attribute.
Print Assumptions C71_objects.
Print Assumptions C71_specifications.
Print Assumptions C71_idempotent.
Print Assumptions C71_written_objects_hide_texts.
Print Assumptions C71_written_specifications_hide_texts.
Print Assumptions C71_stripped_copy_survives_refuted.
Print Assumptions C71_result_can_be_read_refuted.
