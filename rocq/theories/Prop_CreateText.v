(** Prop_CreateText.v -- C72: the text of a document built by a program *)
From Verif Require Import Base Xml Lxml Py Models AttrDef DataType AttrValue SpecObj SpecTypes LxmlStr Create Progress Parser Unparser SpecEscape SpecXhtml SpecPrint SpecCreate SpecCreateText
  ProgressProofs ParserProofs Prop_Create.
From Verif Require ConvertProofs Prop_Escape.

Ltac lines := unfold line, around, referring, nl; cbv zeta; cbn [repeat app]; repeat (first [rewrite <- app_assoc|rewrite app_nil_r]; cbn [app]); try reflexivity.
Lemma enum_value_text v : unparse_enum_value (create_enum_value (fst v) (snd v)) = enum_value_lines v.
Proof. unfold unparse_enum_value, create_enum_value, enum_value_lines. cbn [ev_description ev_identifier ev_last_change ev_long_name ev_key ev_other_content opt_attr]. lines. Qed.
Lemma data_type_text q : unparse_data_type (make_data_type q) = data_type_lines q.
Proof.
  destruct q as [i|i|i vs]; cbn [make_data_type data_type_lines]; unfold create_string, create_boolean, create_enumeration;
    cbn [unparse_data_type]; unfold dt_head, dt_close; cbn [dt_description dt_identifier dt_last_change dt_long_name dt_is_self_closed opt_attr truthy_attr]; [lines|lines|].
  destruct vs as [vs|]; cbn [option_map]; [|lines].
  assert (E : flat_map unparse_enum_value (map (fun v => create_enum_value (fst v) (snd v)) vs) = concat (map enum_value_lines vs)).
  { induction vs as [|v vs IH]; [reflexivity|]. cbn [map flat_map concat]. rewrite enum_value_text, IH. reflexivity. }
  rewrite E. lines.
Qed.
Lemma mapM_text {A B} (f : A -> result str) (g : B -> A) (h : B -> str) l : Forall (fun x => f (g x) = Ok (h x)) l -> mapM f (map g l) = Ok (map h l).
Proof. induction 1 as [|x l E _ IH]; [reflexivity|]. cbn [map mapM]. rewrite E. cbn [bind]. fold (@mapM A str). rewrite IH. reflexivity. Qed.
Lemma opt_attr_escaped name o : opt_attr name lxml_escape_for_html o = maybe_attribute name (option_map (substitute lxml_table) o).
Proof. destruct o as [v|]; [|reflexivity]. cbn [opt_attr option_map maybe_attribute]. rewrite Prop_Escape.C03_lxml_escape_is_one_substitution. reflexivity. Qed.
Lemma opt_attr_raw name o : opt_attr name raw o = maybe_attribute name o.
Proof. destruct o as [v|]; reflexivity. Qed.
Lemma definition_text q : unparse_attribute_definition (make_definition q) = Ok (definition_lines q).
Proof.
  unfold unparse_attribute_definition, make_definition, create_definition.
  cbn [ad_type ad_description ad_identifier ad_editable ad_last_change ad_long_name ad_multi_valued ad_xml_node tags_or map mapM].
  unfold unparse_ad_child at 1 2. change (ostr_eqb (Some "DEFAULT-VALUE") (Some "DEFAULT-VALUE")) with true. change (ostr_eqb (Some "TYPE") (Some "DEFAULT-VALUE")) with false. change (ostr_eqb (Some "TYPE") (Some "TYPE")) with true.
  cbv iota. unfold unparse_attribute_default_value. cbn [ad_default_value bind concat]. unfold unparse_attribute_type. cbn [ad_type ad_datatype_definition fmt].
  f_equal. rewrite (opt_attr_escaped "LONG-NAME"). unfold definition_lines, get_definition_tag.
  assert (B : opt_bool_attr "MULTI-VALUED" (ask_multi q) = maybe_attribute "MULTI-VALUED" (option_map (fun b : bool => if b then "true" : str else "false" : str) (ask_multi q)))
    by (destruct (ask_multi q) as [[|]|]; reflexivity).
  rewrite B. cbn [opt_attr opt_bool_attr truthy_attr]. destruct (ask_kind q); cbn [get_spec_type_tag at_name kind_name]; lines.
Qed.
Lemma type_text q : unparse_spec_type (make_type q) = Ok (type_lines q).
Proof.
  unfold make_type, create_object_type. cbn [unparse_spec_type]. unfold unparse_spec_object_type, spec_attributes_block.
  cbn [sot_attribute_definitions sot_description sot_identifier sot_last_change sot_long_name]. unfold type_lines.
  destruct (ask_definitions q) as [l|]; cbn [option_map].
  - unfold unparse_attribute_definitions. rewrite (mapM_text _ make_definition definition_lines) by (apply Forall_forall; intros; apply definition_text).
    cbn [bind]. f_equal. rewrite !opt_attr_escaped, opt_attr_raw. lines.
  - cbn [bind]. f_equal. rewrite !opt_attr_escaped, opt_attr_raw. lines.
Qed.
Lemma chosen_text l : l <> [] -> rstrip (flat_map enum_value_template (map Some l)) ++ nl = concat (map (fun x => line 16 (around "ENUM-VALUE-REF" x)) l).
Proof.
  intros HN. assert (E : flat_map enum_value_template (map Some l) = concat (map (fun x => line 16 (around "ENUM-VALUE-REF" x)) l)).
  { clear HN. induction l as [|x l IH]; [reflexivity|]. cbn [map flat_map concat]. rewrite IH. f_equal. unfold enum_value_template. cbn [fmt]. lines. }
  rewrite E. destruct (exists_last HN) as (l' & x & ->). rewrite map_app, concat_app. cbn [map concat]. rewrite app_nil_r.
  assert (F : concat (map (fun x => line 16 (around "ENUM-VALUE-REF" x)) l') ++ line 16 (around "ENUM-VALUE-REF" x)
              = ((concat (map (fun x => line 16 (around "ENUM-VALUE-REF" x)) l') ++ repeat 32%N 16 ++ "<ENUM-VALUE-REF>" ++ x ++ "</ENUM-VALUE-REF") ++ [62%N]) ++ nl).
  { unfold line, around. rewrite <- !app_assoc. reflexivity. }
  rewrite F, ConvertProofs.rstrip_keep by reflexivity. change (rstrip nl) with (@nil N). rewrite app_nil_r. reflexivity.
Qed.
Lemma value_text q : (forall k r v, q = AskPlain k r v -> In k [AT_INTEGER; AT_REAL; AT_BOOLEAN; AT_DATE]) -> unparse_attribute_value (make_value q) = Ok (value_lines q).
Proof.
  intros K. destruct q as [r v|k r v|r f|r l]; cbn [make_value]; unfold create_value, unparse_attribute_value; cbn [sa_type sa_value sa_xml_node sa_definition_ref].
  - rewrite Prop_Escape.C03_html_escape_is_one_substitution. f_equal. unfold value_template, get_attribute_value_tag. cbn [fmt value_lines at_name get_spec_type_tag]. unfold referring. cbn [kind_name]. lines.
  - specialize (K k r v eq_refl). cbn [In] in K. assert (E : value_template k v (Some r) = value_lines (AskPlain k r v)).
    { unfold value_template, get_attribute_value_tag. cbn [value_lines fmt]. unfold referring. destruct k; cbn [at_name get_spec_type_tag kind_name]; lines. }
    rewrite <- E. destruct K as [<-|[<-|[<-|[<-|[]]]]]; reflexivity.
  - f_equal. unfold xhtml_template. cbn [fmt value_lines]. unfold referring. cbn [kind_name]. lines.
  - change (values_first_order None) with (Ok true). cbn [bind]. f_equal. unfold enum_template, enum_values_part, enum_definition_part. cbn [value_lines fmt]. unfold referring. cbn [kind_name].
    destruct l as [|x l]; [lines|]. assert (C := chosen_text (x :: l) ltac:(discriminate)). revert C. generalize (rstrip (flat_map enum_value_template (map Some (x :: l)))). intros z C.
    rewrite <- C. lines.
Qed.
Lemma object_text q : plain_kinds q -> unparse_spec_object (make_object q) = Ok (object_lines q).
Proof.
  intros K. unfold unparse_spec_object, make_object, create_object. cbn [so_description so_identifier so_last_change so_long_name so_xml_node tags_or map mapM].
  change (ostr_mem (Some "VALUES") [Some "VALUES"; Some "TYPE"]) with true. change (ostr_mem (Some "TYPE") [Some "VALUES"; Some "TYPE"]) with true. cbn [py_assert bind].
  unfold unparse_so_child at 1 2. change (ostr_eqb (Some "VALUES") (Some "VALUES")) with true. change (ostr_eqb (Some "TYPE") (Some "VALUES")) with false. change (ostr_eqb (Some "TYPE") (Some "TYPE")) with true.
  cbv iota. cbn [so_attributes]. unfold unparse_spec_object_type_ref. cbn [so_spec_object_type fmt]. unfold object_lines.
  assert (V : unparse_attribute_values (Some (map make_value (ask_values q)))
    = Ok (match ask_values q with [] => line 10 "<VALUES/>" | l => line 10 "<VALUES>" ++ concat (map value_lines l) ++ line 10 "</VALUES>" end)).
  { assert (M : mapM unparse_attribute_value (map make_value (ask_values q)) = Ok (map value_lines (ask_values q))).
    { apply mapM_text, Forall_forall. intros x I. apply value_text. intros k r v ->. exact (K k r v I). }
    revert M. destruct (ask_values q) as [|x l]; intros M; [reflexivity|]. cbn [unparse_attribute_values map] in *. rewrite M. cbn [bind]. f_equal; lines. }
  rewrite V. cbn [bind concat]. f_equal. cbn [opt_attr truthy_attr]. lines.
Qed.

(** A document that a program builds is written, whatever texts it asks for, and what
    is written is exactly these lines. *)
Theorem C72_the_text :
  forall ds ts os, Forall plain_kinds os -> unparse_string (make_bundle ds ts os) = Ok (document_lines ds ts os).
Proof.
  intros ds ts os K. rewrite (proj2 (unparse_traced _)). unfold pure_unparse, make_bundle. cbn [b_namespace_info b_header b_core_content b_tool_extensions].
  change (unparse_namespace_info namespace_info_default) with (Ok (line 0 "<REQ-IF xmlns=""http://www.omg.org/spec/ReqIF/20110401/reqif.xsd"" xmlns:xhtml=""http://www.w3.org/1999/xhtml"">")).
  cbn [bind]. unfold pure_unparse_content. cbn [rc_data_types rc_spec_types rc_spec_objects rc_spec_relations rc_specifications rc_spec_relation_groups pure_unparse_section].
  rewrite (mapM_text _ make_data_type data_type_lines) by (apply Forall_forall; intros; rewrite data_type_text; reflexivity).
  rewrite (mapM_text _ make_type type_lines) by (apply Forall_forall; intros; apply type_text).
  rewrite (mapM_text _ make_object object_lines) by (eapply Forall_impl; [|exact K]; exact object_text).
  cbn [bind]. f_equal. unfold document_lines. generalize (concat (map data_type_lines ds)), (concat (map type_lines ts)), (concat (map object_lines os)). intros a b c. lines.
Qed.
Print Assumptions C72_the_text.
Example C72_text_example :
  Forall plain_kinds asked_objects
  /\ object_lines (AskObject "o" "t" [AskText "a" "x < y"; AskChoice "e" []])
     = "        <SPEC-OBJECT IDENTIFIER=""o"">" ++ nl ++ "          <VALUES>" ++ nl
       ++ "            <ATTRIBUTE-VALUE-STRING THE-VALUE=""x &lt; y"">" ++ nl ++ "              <DEFINITION>" ++ nl
       ++ "                <ATTRIBUTE-DEFINITION-STRING-REF>a</ATTRIBUTE-DEFINITION-STRING-REF>" ++ nl ++ "              </DEFINITION>" ++ nl
       ++ "            </ATTRIBUTE-VALUE-STRING>" ++ nl ++ "            <ATTRIBUTE-VALUE-ENUMERATION>" ++ nl ++ "              <VALUES>" ++ nl ++ nl
       ++ "              </VALUES>" ++ nl ++ "              <DEFINITION>" ++ nl
       ++ "                <ATTRIBUTE-DEFINITION-ENUMERATION-REF>e</ATTRIBUTE-DEFINITION-ENUMERATION-REF>" ++ nl ++ "              </DEFINITION>" ++ nl
       ++ "            </ATTRIBUTE-VALUE-ENUMERATION>" ++ nl ++ "          </VALUES>" ++ nl ++ "          <TYPE>" ++ nl
       ++ "            <SPEC-OBJECT-TYPE-REF>t</SPEC-OBJECT-TYPE-REF>" ++ nl ++ "          </TYPE>" ++ nl ++ "        </SPEC-OBJECT>" ++ nl.
Proof.
  split; [|vm_compute; reflexivity]. apply Forall_forall. intros q I k r v J. unfold asked_objects in I. cbn [In] in I. repeat (destruct I as [<-|I]; [cbn [ask_values In] in J; repeat (destruct J as [J|J]; [first [discriminate J|injection J as <- <- <-; cbn [In]; auto 6]|]); destruct J|]). destruct I.
Qed.
