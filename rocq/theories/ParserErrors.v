(** ParserErrors.v -- which exceptions the readers can raise *)
From Verif Require Import Base Xml Utf8 Lxml Py LxmlStr Models AttrDef DataType Header AttrValue SpecObj
  Hierarchy SpecTypes Progress Parser SpecParse ProgressProofs ParserProofs FaithProofs.

(** the two exceptions the parser itself catches or documents *)
Definition special (e : exn) : bool :=
  match e with EReqIFXMLParsingError | EMissingTag _ _ => true | _ => false end.
(** neither of them *)
Definition nx {A} (r : result A) : Prop := forall e, r = Raise e -> special e = false.
Lemma nx_ok {A} (a : A) : nx (Ok a). Proof. discriminate. Qed.
Lemma nx_raise {A} e : special e = false -> nx (A := A) (Raise e).
Proof. intros H x E. injection E as <-. exact H. Qed.
Lemma nx_bind {A B} (r : result A) (k : A -> result B) : nx r -> (forall a, r = Ok a -> nx (k a)) -> nx (bind r k).
Proof. unfold nx. destruct r; cbn; [intros _ H; apply H; reflexivity|]. intros H _ e' E. apply H. congruence. Qed.
Lemma nx_mapM {A B} (f : A -> result B) l : (forall x, In x l -> nx (f x)) -> nx (mapM f l).
Proof.
  induction l as [|x l IH]; intros H; [apply nx_ok|]. cbn. apply nx_bind; [apply H; left; reflexivity|].
  intros y _. apply nx_bind; [apply IH; intros z Hz; apply H; right; exact Hz|]. intros; apply nx_ok.
Qed.
Lemma nx_foldM {A S} (body : A -> S -> result S) l s : (forall x s, nx (body x s)) -> nx (foldM body l s).
Proof.
  intros H. revert s. induction l as [|x l IH]; intros s; [apply nx_ok|]. cbn.
  apply nx_bind; [apply H|]. intros; apply IH.
Qed.
Lemma nx_not_impl {A} (r : result A) : nx (or_not_impl r).
Proof. destruct r; cbn; [apply nx_ok|apply nx_raise; reflexivity]. Qed.
Lemma nx_assert b : nx (py_assert b).
Proof. destruct b; [apply nx_ok|apply nx_raise; reflexivity]. Qed.
Lemma nx_attr k n : nx (attr_req k n).
Proof. unfold attr_req. destruct (attr_opt k n); [apply nx_ok|apply nx_raise; reflexivity]. Qed.
Lemma nx_find k n : nx (find_req k n).
Proof. unfold find_req. destruct (find_child k n); [apply nx_ok|apply nx_raise; reflexivity]. Qed.
Lemma nx_contains k n : nx (tag_contains k n).
Proof. unfold tag_contains. destruct (tag n); [apply nx_ok|apply nx_raise; reflexivity]. Qed.
Ltac nx :=
  repeat (cbv zeta; first
    [ assumption
    | match goal with
      | |- nx (Ok _) => apply nx_ok
      | |- nx (or_not_impl _) => apply nx_not_impl
      | |- nx (py_assert _) => apply nx_assert
      | |- nx (attr_req _ _) => apply nx_attr
      | |- nx (find_req _ _) => apply nx_find
      | |- nx (tag_contains _ _) => apply nx_contains
      | |- nx (Raise _) => apply nx_raise; reflexivity
      | |- nx (mapM _ _) => apply nx_mapM; intros
      | |- nx (bind _ _) => apply nx_bind; [|intros]
      | |- nx (match ?x with _ => _ end) => destruct x
      | |- nx (if ?x then _ else _) => destruct x
      end ]).

Lemma nx_ns_node k f n : nx (stringify_ns_node k f n).
Proof.
  induction n as [c|s|s|ns l d i a kids IH] using node_ind'; try (apply nx_raise; reflexivity).
  cbn. destruct (needs_close _ _); nx.
  clear -IH. induction IH as [|x ks Hx _ IHk]; [nx|]. cbn. destruct x; nx.
Qed.
Lemma nx_ns_kids k f l : nx (stringify_ns_kids k f l).
Proof.
  unfold stringify_ns_kids. induction l as [|x l IH]; [nx|]. cbn.
  destruct x; nx; apply nx_ns_node.
Qed.
Lemma nx_ns_children n t : nx (stringify_namespaced_children n t).
Proof.
  unfold stringify_namespaced_children. destruct t; [apply nx_ns_kids|].
  destruct (node_nsmap n) as [|[k u] m]; [apply nx_raise; reflexivity|apply nx_ns_kids].
Qed.
Lemma nx_node r n : nx (stringify_node r n).
Proof.
  revert r. induction n as [c|s|s|ns l d i a kids IH] using node_ind'; intros r; try (cbn; nx; fail).
  cbn. destruct (needs_close _ _); nx.
  clear -IH. induction IH as [|x ks Hx _ IHk]; [nx|]. cbn. destruct x; nx; apply Hx.
Qed.
Lemma nx_children n : nx (stringify_children n).
Proof. unfold stringify_children. nx. apply nx_node. Qed.
Lemma nx_convert n : nx (convert_children_from_reqif_ns n).
Proof. unfold convert_children_from_reqif_ns. destruct (strip_ns _ _); [apply nx_children|apply nx_raise; reflexivity]. Qed.

Lemma nx_attribute_definition n : nx (parse_attribute_definition n).
Proof.
  unfold parse_attribute_definition, parse_datatype_ref, parse_default_value, parse_default_string,
    parse_default_simple, parse_default_boolean, parse_default_xhtml, parse_default_enum.
  nx; apply nx_ns_children.
Qed.
Lemma nx_attribute_definitions n : nx (parse_attribute_definitions n).
Proof. unfold parse_attribute_definitions. nx. apply nx_attribute_definition. Qed.
Lemma nx_data_type n : nx (parse_data_type n).
Proof. unfold parse_data_type, parse_enum_value. nx. Qed.
Lemma nx_spec_type n : nx (parse_spec_type n).
Proof.
  unfold parse_spec_type, parse_spec_object_type, parse_spec_relation_type, parse_specification_type,
    parse_relation_group_type. nx; try apply nx_attribute_definitions.
  match goal with |- nx (fill_attribute_map ?l ?m) => generalize l, m; clear end.
  induction l as [|a l IH]; intros m; cbn; nx. apply IH.
Qed.
Lemma nx_ref k n : nx (definition_ref_text k n).
Proof. unfold definition_ref_text. nx. Qed.
Lemma nx_grand n : nx (first_grandchild_text n).
Proof. unfold first_grandchild_text, child_at. nx. Qed.
Lemma nx_xhtml n : nx (parse_xhtml_attribute_value n).
Proof.
  unfold parse_xhtml_attribute_value. nx; first [apply nx_children|apply nx_ns_children|apply nx_convert|apply nx_ref].
Qed.
Lemma nx_attribute_value n : nx (parse_attribute_value n).
Proof.
  unfold parse_attribute_value, parse_simple_value. nx; first [apply nx_grand|apply nx_ref|apply nx_xhtml].
Qed.
Lemma nx_attribute_values o : nx (parse_attribute_values o).
Proof. unfold parse_attribute_values. nx. apply nx_attribute_value. Qed.
Lemma nx_spec_object n : nx (parse_spec_object n).
Proof. unfold parse_spec_object. nx. apply nx_attribute_values. Qed.
Lemma spec_relation_special n e :
  parse_spec_relation n = Raise e -> special e = true ->
  tag_is "SPEC-RELATION" n = true /\ has_child "TYPE" n = true
  /\ exists t, lacks n = Some t /\ e = EMissingTag n t.
Proof.
  unfold parse_spec_relation, lacks. rewrite !has_child_tags. intros H S.
  destruct (tag_is "SPEC-RELATION" n); [|injection H as <-; discriminate]. split; [reflexivity|].
  cbn [py_assert bind] in H.
  destruct (has_child "TYPE" n); [|injection H as <-; discriminate]. split; [reflexivity|].
  cbn [py_assert bind] in H.
  destruct (has_child "SOURCE" n); cbn [negb] in *; [|injection H as <-; eauto].
  destruct (has_child "TARGET" n); cbn [negb] in *; [|injection H as <-; eauto].
  exfalso. match type of H with ?r = _ => assert (N : nx r) end.
  { unfold parse_relation_value. nx; first [apply nx_grand|apply nx_xhtml]. }
  rewrite (N _ H) in S. discriminate.
Qed.
Lemma nx_relation_group n : nx (parse_relation_group n).
Proof. unfold parse_relation_group. nx. Qed.
Lemma nx_hier n : forall level, nx (parse_hier level n).
Proof.
  induction n as [n IH] using node_strong_ind. intros level.
  destruct n as [c|ns l d i a kids|s|s]; try (apply nx_raise; reflexivity). rewrite parse_hier_eq.
  set (n := El ns l d i a kids) in *.
  apply nx_bind; [apply nx_assert|intros _ _]. apply nx_bind; [apply nx_not_impl|intros id _].
  apply nx_bind; [apply nx_find|intros ob _]. apply nx_bind; [apply nx_find|intros r _].
  apply nx_bind; [|intros; apply nx_ok].
  destruct (find_child "CHILDREN" n) as [c|] eqn:EC; [|apply nx_ok].
  apply nx_bind; [|intros; apply nx_ok]. apply nx_mapM. intros k Hk. apply IH.
  apply children_size in Hk. apply find_child_size in EC. lia.
Qed.
Lemma nx_specification n : nx (parse_specification n).
Proof. unfold parse_specification. nx; first [apply nx_attribute_values|apply nx_hier]. Qed.
Lemma nx_header n : nx (parse_header n).
Proof. unfold parse_header. nx. Qed.
Lemma nx_section {S} t n (body : node -> S -> result S) s0 :
  (forall x s, nx (body x s)) -> nx (pure_section t n body s0).
Proof.
  intros H. unfold pure_section. destruct (find_child t n); [|apply nx_ok].
  apply nx_bind; [apply nx_foldM, H|intros; apply nx_ok].
Qed.
Lemma nx_content n : nx (pure_content n).
Proof.
  unfold pure_content. apply nx_bind; [apply nx_assert|intros _ _].
  apply nx_bind; [apply nx_section; intros; unfold data_type_body; nx; apply nx_data_type|].
  intros [? [? ?]] _.
  apply nx_bind; [apply nx_section; intros; unfold spec_type_body; nx; apply nx_spec_type|].
  intros [? [? ?]] _.
  apply nx_bind; [apply nx_section; intros; unfold specification_body; nx; apply nx_specification|].
  intros [? ?] _.
  apply nx_bind.
  { apply nx_section. intros x [[? ?] ?]. unfold spec_relation_body.
    destruct (parse_spec_relation x) as [r|e] eqn:E; [apply nx_ok|].
    destruct e; try (apply nx_raise; reflexivity).
    - destruct (spec_relation_special _ _ E eq_refl) as (_ & _ & ? & _ & ?). discriminate.
    - apply nx_bind; [apply nx_node|intros; apply nx_ok]. }
  intros [? [[? ?] ?]] _.
  apply nx_bind; [apply nx_section; intros; unfold spec_object_body; nx; apply nx_spec_object|].
  intros [? [? ?]] _.
  apply nx_bind; [apply nx_section; intros; unfold relation_group_body; nx; apply nx_relation_group|].
  intros [? ?] _. apply nx_ok.
Qed.
