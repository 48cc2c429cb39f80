(** Prop_Failure.v -- C56: which exception a rejected document raises *)
From Verif Require Import Base Xml Utf8 Lxml Py Models AttrDef DataType Header AttrValue SpecObj Hierarchy SpecTypes Progress Parser
  SpecParse SpecAccept SpecFailure ProgressProofs AcceptProofs FailureProofs Prop_Parser Prop_Accept.

(** Parsing a text raises exactly the exception of the first requirement, in
    reading order, that the document does not meet ... *)
Theorem C56_raises_exactly :
  forall s e, parse_string s = Raise e <-> text_failure s = Some e.
Proof. intros s e. rewrite <- string_failure. destruct (parse_string s); cbn [failure]; split; congruence. Qed.
(** ... and nothing if all are met. *)
Theorem C56_succeeds_exactly :
  forall s, (exists b, parse_string s = Ok b) <-> text_failure s = None.
Proof. intros s. rewrite <- string_failure. destruct (parse_string s); cbn [failure]; split; try congruence; eauto. intros [? H]; discriminate H. Qed.
(** The same for the element parsers used on their own. *)
Theorem C56_element_parsers :
  forall n e,
    (parse_data_type n = Raise e <-> first_unmet (data_type_needs n) = Some e)
    /\ (parse_attribute_definition n = Raise e <-> first_unmet (attr_def_needs n) = Some e)
    /\ (parse_spec_type n = Raise e <-> first_unmet (spec_type_needs n) = Some e)
    /\ (parse_attribute_value n = Raise e <-> first_unmet (attr_value_needs n) = Some e)
    /\ (parse_specification n = Raise e <-> first_unmet (specification_needs n) = Some e)
    /\ (parse_relation_group n = Raise e <-> first_unmet (relation_group_needs n) = Some e)
    /\ (forall level, parse_hier level n = Raise e <-> first_unmet (hierarchy_needs (height n) n) = Some e).
Proof.
  assert (G : forall {A} (r : result A) l e, failure r = first_unmet l -> (r = Raise e <-> first_unmet l = Some e)).
  { intros A r l e <-. destruct r; cbn [failure]; split; congruence. }
  intros n e. repeat match goal with |- _ /\ _ => split end; try intros level; apply G.
  - apply data_type_failure.
  - apply attr_def_failure.
  - apply spec_type_failure.
  - apply attr_value_failure.
  - apply specification_failure.
  - apply relation_group_failure.
  - apply hier_failure. exact (le_n _).
Qed.

(** ** Several defects of one document and the exceptions they cause *)
Example C56_example :
  let ok_default := "<DEFAULT-VALUE><ATTRIBUTE-VALUE-INTEGER THE-VALUE='5'/></DEFAULT-VALUE>" in
  let m := markup_text "x" in let v := value_text "STRING" "THE-VALUE='w'" [] in let h := hier_text "y" [] in
  map (fun s => (text_failure s, match parse_string s with Raise e => Some e | Ok _ => None end))
    [good_text;
     full_text "" "ACCURACY='3'" ok_default "LAST-CHANGE='now'" m v h;
     full_text "KEY='1'" "ACCURACY='x'" ok_default "LAST-CHANGE='now'" m v h;
     full_text "KEY='1'" "ACCURACY='3'" "<DEFAULT-VALUE/>" "LAST-CHANGE='now'" m v h;
     full_text "KEY='1'" "ACCURACY='3'" ok_default "" m v h;
     full_text "KEY='1'" "ACCURACY='3'" ok_default "LAST-CHANGE='now'" "" v h;
     full_text "KEY='1'" "ACCURACY='3'" ok_default "LAST-CHANGE='now'" m "<ATTRIBUTE-VALUE-STRING THE-VALUE='w'/>" h;
     full_text "KEY='1'" "ACCURACY='3'" ok_default "LAST-CHANGE='now'" m v "<X/>";
     (* two defects: the one in the section read first counts *)
     full_text "" "ACCURACY='3'" ok_default "LAST-CHANGE='now'" m v "<X/>";
     full_text "KEY='1'" "ACCURACY='3'" ok_default "LAST-CHANGE='now'" "<?p?>" v h;
     "<REQ-IF>"; "<X/>"]
  = map (fun e => (e, e))
    [None; Some EKeyError; Some EValueError; Some EAssertionError; Some ENotImplementedError; Some EAttributeError;
     Some EIndexError; Some EAssertionError; Some EKeyError; Some ETypeError; Some EReqIFXMLParsingError; Some EReqIFXMLParsingError].
Proof. vm_compute. reflexivity. Qed.

Print Assumptions C56_raises_exactly.
Print Assumptions C56_succeeds_exactly.
Print Assumptions C56_element_parsers.
