(** FaithProofs.v -- parsed objects correspond to their elements *)
From Verif Require Import Base Xml Utf8 Lxml Py LxmlStr Models AttrDef DataType Header AttrValue SpecObj
  Hierarchy SpecTypes Progress Parser SpecTraversal SpecProgress SpecLookup SpecParse
  SpecInteger DictProofs IntegerProofs ProgressProofs TraversalProofs ParserProofs.

Ltac inv_ok H :=
  repeat (match type of H with
          | bind ?r _ = Ok _ =>
              let x := fresh "x" in let E := fresh "E" in
              destruct r as [x|] eqn:E; [cbn [bind] in H|discriminate H]
          end).
Lemma tag_is_eq t n : tag_is t n = true <-> tag n = Some t.
Proof.
  unfold tag_is. destruct (tag n) as [x|]; [|split; discriminate].
  rewrite str_eqb_eq. split; congruence.
Qed.
Lemma assert_true b u : py_assert b = Ok u -> b = true.
Proof. destruct b; [reflexivity|discriminate]. Qed.
Lemma attr_req_ok k n v : attr_req k n = Ok v <-> attr_opt k n = Some v.
Proof. unfold attr_req. destruct (attr_opt k n); split; congruence. Qed.
Lemma not_impl_ok {A} (r : result A) a : or_not_impl r = Ok a -> r = Ok a.
Proof. destruct r; cbn; congruence. Qed.
Lemma find_req_ok t n k : find_req t n = Ok k <-> find_child t n = Some k.
Proof. unfold find_req. destruct (find_child t n); split; congruence. Qed.
Lemma tag_contains_ok sub n b : tag_contains sub n = Ok b -> b = tag_has sub n.
Proof. unfold tag_contains, tag_has. destruct (tag n); congruence. Qed.
Lemma editable_flag o : flag o (editable_of o).
Proof. destruct o as [s|]; cbn; [|exact I]. destruct (str_eqb_spec s "true"); assumption. Qed.
Lemma catSomes_Forall2 {A B} (R : A -> B -> Prop) (f : A -> result (option B)) (cmt : A -> bool) l l' :
  (forall x, f x = Ok None -> cmt x = true) ->
  (forall x y, f x = Ok (Some y) -> cmt x = false /\ R x y) ->
  mapM f l = Ok l' -> Forall2 R (filter (fun x => negb (cmt x)) l) (catSomes l').
Proof.
  intros HN HS H. apply mapM_Ok in H. induction H as [|x [y|] l l' Hxy _ IH]; cbn; [constructor| |].
  - destruct (HS x y Hxy) as [-> HR]. cbn. constructor; assumption.
  - rewrite (HN x Hxy). exact IH.
Qed.
Lemma mapM_Forall2 {A B} (R : A -> B -> Prop) (f : A -> result B) l l' :
  (forall x y, f x = Ok y -> R x y) -> mapM f l = Ok l' -> Forall2 R l l'.
Proof.
  intros HR H. apply mapM_Ok in H. induction H; constructor; auto.
Qed.

(** ** Data types *)
Lemma enum_value_faithful n v : parse_enum_value n = Ok v -> enum_value_of n v.
Proof.
  unfold parse_enum_value. intros H. inv_ok H. injection H as <-.
  apply attr_req_ok in E, E2. apply find_req_ok in E0, E1.
  split; [repeat split; auto|]. cbn [path_node]. rewrite E0, E1. eauto.
Qed.
Lemma data_type_faithful n d : parse_data_type n = Ok d -> data_type_of n d.
Proof.
  unfold parse_data_type. intros H. inv_ok H. apply attr_req_ok in E1.
  repeat match type of H with
  | (if tag_is ?t n then _ else _) = _ => let ET := fresh "ET" in
      destruct (tag_is t n) eqn:ET; [apply tag_is_eq in ET|clear ET]
  end; [destruct (find_child "SPECIFIED-VALUES" n) as [sv|] eqn:EF; [inv_ok H|]|..];
    try discriminate; inv_ok H; injection H as <-;
    (split; [repeat split; auto|]); try (repeat split; auto; fail).
  - split; [exact ET|]. unfold images, section_items. rewrite EF. cbn.
    eapply mapM_Forall2; [|eassumption]. apply enum_value_faithful.
  - split; [exact ET|]. unfold images, section_items. rewrite EF. exact I.
  - repeat split; auto. destruct (attr_opt "ACCURACY" n) as [a|]; [|congruence].
    destruct (py_int a) as [z|] eqn:EZ; [|discriminate]. exists z. split; [congruence|]. apply int_spec, EZ.
Qed.

(** ** Attribute definitions *)
Lemma datatype_ref_ok t n r :
  parse_datatype_ref t n = Ok r ->
  path_text ["TYPE"; "DATATYPE-DEFINITION-" ++ at_name t ++ "-REF"] n = r.
Proof.
  unfold parse_datatype_ref. intros H. apply not_impl_ok in H. inv_ok H. injection H as <-.
  apply find_req_ok in E, E0. unfold get_definition_tag in E0.
  unfold path_text. cbn [path_node]. rewrite E, E0. reflexivity.
Qed.
Lemma def_tag o t : attr_type_of_def_tag o = Some t -> o = Some ("ATTRIBUTE-DEFINITION-" ++ at_name t).
Proof.
  destruct o as [x|]; [|discriminate]. cbn [attr_type_of_def_tag]. intros H.
  repeat match type of H with
  | (if str_eqb x ?s then _ else _) = _ =>
      destruct (str_eqb_spec x s) as [->|_]; [injection H as <-; reflexivity|]
  end. discriminate.
Qed.
Lemma self_closed_empty d : is_self_closed_tag d = true -> empty_element d.
Proof.
  unfold is_self_closed_tag, empty_element. destruct (children d); [|discriminate].
  destruct (text d); [discriminate|auto].
Qed.
Lemma multi_flag n : flag (match attr_opt "MULTI-VALUED" n with Some [] => None | o => o end) (parse_multi_valued n).
Proof.
  unfold parse_multi_valued. destruct (attr_opt "MULTI-VALUED" n) as [[|c s]|]; try exact I.
  cbn [flag]. destruct (str_eqb_spec (c :: s) "true") as [E|N]; [exact E|exact N].
Qed.
Lemma default_faithful t n ref dv i dt x ds lc ln ed mv :
  parse_default_value t n = Ok (ref, dv) -> default_of n (AttrDef t i dt x ds lc ln ed ref dv mv).
Proof.
  intros H. unfold default_of. cbn [ad_type ad_default_value ad_default_value_definition_ref].
  unfold parse_default_value in H.
  assert (SIMPLE : forall t, In t [AT_INTEGER; AT_REAL; AT_DATE] -> parse_default_simple t n = Ok (ref, dv) ->
    match find_child "DEFAULT-VALUE" n with
    | None => dv = DVNone /\ ref = None
    | Some d => exists v, find_child ("ATTRIBUTE-VALUE-" ++ at_name t) d = Some v
        /\ (exists s, attr_opt "THE-VALUE" v = Some s /\ dv = DVStr s) /\ ref = None end).
  { clear. intros t HT H. unfold parse_default_simple in H.
    destruct (find_child "DEFAULT-VALUE" n) as [d|]; [|injection H as <- <-; auto].
    destruct (find_child (get_attribute_value_tag t) d) as [v|] eqn:EV; [|discriminate].
    inv_ok H. injection H as <- <-. apply attr_req_ok in E. exists v. split; [exact EV|]. eauto. }
  destruct t.
  - unfold parse_default_string in H. destruct (find_child "DEFAULT-VALUE" n) as [d|]; [|injection H as <- <-; auto].
    destruct (is_self_closed_tag d) eqn:SC.
    { injection H as <- <-. left. apply self_closed_empty in SC. split; [exact SC|]. cbn. intuition auto. }
    destruct (find_child "ATTRIBUTE-VALUE-STRING" d) as [v|] eqn:EV; [|discriminate].
    inv_ok H. injection H as <- <-. apply attr_req_ok in E. right. exists v. split; [exact EV|]. eauto.
  - unfold parse_default_enum in H. destruct (find_child "DEFAULT-VALUE" n) as [d|]; [|injection H as <- <-; auto].
    destruct (is_self_closed_tag d) eqn:SC.
    { injection H as <- <-. left. apply self_closed_empty in SC. split; [exact SC|]. cbn. intuition auto. }
    destruct (find_child "ATTRIBUTE-VALUE-ENUMERATION" d) as [v|] eqn:EV; [|discriminate].
    inv_ok H. injection H as <- <-. right. exists v. split; [exact EV|]. split.
    + unfold path_text. cbn [path_node]. destruct (find_child "VALUES" v); [|reflexivity].
      destruct (find_child "ENUM-VALUE-REF" _); reflexivity.
    + unfold path_text. cbn [path_node].
      destruct (find_child "DEFINITION" v) as [df|]; [|congruence]. inv_ok E. apply find_req_ok in E0.
      change ("ATTRIBUTE-DEFINITION-" ++ at_name AT_ENUMERATION ++ "-REF") with "ATTRIBUTE-DEFINITION-ENUMERATION-REF".
      rewrite E0. congruence.
  - specialize (SIMPLE AT_INTEGER (or_introl eq_refl) H). destruct (find_child "DEFAULT-VALUE" n); auto.
  - specialize (SIMPLE AT_REAL (or_intror (or_introl eq_refl)) H). destruct (find_child "DEFAULT-VALUE" n); auto.
  - unfold parse_default_boolean in H. destruct (find_child "DEFAULT-VALUE" n) as [d|]; [|injection H as <- <-; auto].
    destruct (find_child "ATTRIBUTE-VALUE-BOOLEAN" d) as [v|] eqn:EV; [|discriminate].
    inv_ok H. injection H as <- <-. apply attr_req_ok in E. right. exists v. split; [exact EV|]. split; [eauto|].
    unfold path_text. cbn [path_node]. destruct (find_child "DEFINITION" v) as [df|]; [|reflexivity].
    change ("ATTRIBUTE-DEFINITION-" ++ at_name AT_BOOLEAN ++ "-REF") with "ATTRIBUTE-DEFINITION-BOOLEAN-REF".
      destruct (find_child _ df); reflexivity.
  - specialize (SIMPLE AT_DATE (or_intror (or_intror (or_introl eq_refl))) H). destruct (find_child "DEFAULT-VALUE" n); auto.
  - unfold parse_default_xhtml in H. destruct (find_child "DEFAULT-VALUE" n) as [d|]; [|injection H as <- <-; auto].
    destruct (is_self_closed_tag d) eqn:SC.
    { injection H as <- <-. left. apply self_closed_empty in SC. split; [exact SC|]. cbn. intuition auto. }
    destruct (find_child "ATTRIBUTE-VALUE-XHTML" d) as [v|] eqn:EV; [|discriminate].
    inv_ok H. injection H as <- <-. right. exists v. split; [exact EV|]. split.
    { apply find_req_ok in E0. eexists _, _. split; [reflexivity|]. split; [exact E0|]. unfold stored_text. unfold stringify_namespaced_children in E1 |- *.
      match goal with |- context [node_nsmap ?y] => destruct (node_nsmap y) as [|[k ?] ?] end; [discriminate|]. split; [discriminate|exact E1]. }
    unfold path_text. cbn [path_node]. destruct (find_child "DEFINITION" v) as [df|]; [|congruence].
    change ("ATTRIBUTE-DEFINITION-" ++ at_name AT_XHTML ++ "-REF") with "ATTRIBUTE-DEFINITION-XHTML-REF".
      destruct (find_child _ df); [congruence|discriminate].
Qed.
Lemma attr_def_faithful n a : parse_attribute_definition n = Ok a -> attr_def_of n a.
Proof.
  unfold parse_attribute_definition. intros H. inv_ok H. apply attr_req_ok in E.
  destruct (attr_type_of_def_tag (tag n)) as [t|] eqn:ET; [|discriminate]. inv_ok H.
  destruct x1 as [ref dv]. injection H as <-.
  split; [apply def_tag, ET|]. split; [repeat split; auto|]. split; [apply editable_flag|].
  apply datatype_ref_ok in E0. split; [exact E0|]. split; [eapply default_faithful, E1|].
  unfold multi_of. cbn. destruct t; try reflexivity. apply multi_flag.
Qed.
Lemma attr_defs_faithful n o :
  parse_attribute_definitions n = Ok o -> images "SPEC-ATTRIBUTES" attr_def_of n o.
Proof.
  unfold parse_attribute_definitions, images, section_items. intros H.
  destruct (find_child "SPEC-ATTRIBUTES" n); cbn.
  - inv_ok H. injection H as <-. eapply mapM_Forall2; [|eassumption]. apply attr_def_faithful.
  - injection H as <-. exact I.
Qed.

(** ** Spec types *)
Lemma spec_object_type_faithful n t : parse_spec_object_type n = Ok t -> spec_type_of n (STObject t).
Proof.
  unfold parse_spec_object_type. intros H. inv_ok H. injection H as <-.
  apply assert_true, tag_is_eq in E. apply not_impl_ok, attr_req_ok in E0. apply attr_defs_faithful in E1.
  cbn. repeat split; auto.
Qed.
Lemma spec_relation_type_faithful n t : parse_spec_relation_type n = Ok t -> spec_type_of n (STRelation t).
Proof.
  unfold parse_spec_relation_type. intros H. inv_ok H. injection H as <-.
  apply assert_true, tag_is_eq in E. apply not_impl_ok, attr_req_ok in E0, E1. apply attr_defs_faithful in E2.
  cbn. repeat split; auto.
Qed.
Lemma specification_type_faithful n t : parse_specification_type n = Ok t -> spec_type_of n (STSpecification t).
Proof.
  unfold parse_specification_type. intros H. inv_ok H. injection H as <-.
  apply assert_true, tag_is_eq in E. apply not_impl_ok, attr_req_ok in E0, E1. apply attr_defs_faithful in E2.
  cbn. repeat split; auto.
Qed.
Lemma group_type_faithful n t : parse_relation_group_type n = Ok t -> spec_type_of n (STGroup t).
Proof.
  unfold parse_relation_group_type. intros H. inv_ok H. injection H as <-.
  apply assert_true, tag_is_eq in E. apply not_impl_ok, attr_req_ok in E0. apply attr_defs_faithful in E1.
  cbn. repeat split; auto.
Qed.
Lemma tag_comment t n : tag n = Some t -> is_comment n = false.
Proof. destruct n; cbn; congruence. Qed.
Lemma spec_type_none n : parse_spec_type n = Ok None -> is_comment n = true.
Proof.
  unfold parse_spec_type. intros H.
  repeat match type of H with
  | (if tag_is ?t n then _ else _) = _ => destruct (tag_is t n); [inv_ok H; discriminate|]
  end. destruct (is_comment n); [reflexivity|discriminate].
Qed.
Lemma spec_type_faithful n t : parse_spec_type n = Ok (Some t) -> is_comment n = false /\ spec_type_of n t.
Proof.
  unfold parse_spec_type. intros H.
  assert (X : spec_type_of n t -> is_comment n = false /\ spec_type_of n t).
  { intros S. split; [|exact S]. destruct t; cbn in S; eapply tag_comment; apply S. }
  apply X.
  destruct (tag_is "SPEC-OBJECT-TYPE" n).
  { inv_ok H. injection H as <-. apply spec_object_type_faithful, E. }
  destruct (tag_is "SPEC-RELATION-TYPE" n).
  { inv_ok H. injection H as <-. apply spec_relation_type_faithful, E. }
  destruct (tag_is "SPECIFICATION-TYPE" n).
  { inv_ok H. injection H as <-. apply specification_type_faithful, E. }
  destruct (tag_is "RELATION-GROUP-TYPE" n).
  { inv_ok H. injection H as <-. apply group_type_faithful, E. }
  destruct (is_comment n); discriminate.
Qed.

(** ** Attribute values *)
Lemma definition_ref_ok ref n r : definition_ref_text ref n = Ok r -> path_text ["DEFINITION"; ref] n = r.
Proof.
  unfold definition_ref_text. intros H. inv_ok H. injection H as <-. apply find_req_ok in E, E0.
  unfold path_text. cbn [path_node]. rewrite E, E0. reflexivity.
Qed.
Lemma grandchild_ok n r :
  first_grandchild_text n = Ok r ->
  exists d k more more', children n = d :: more /\ children d = k :: more' /\ text k = r.
Proof.
  unfold first_grandchild_text, child_at. intros H. inv_ok H.
  destruct (children n) as [|d more] eqn:ED; [discriminate|]. cbn in E. injection E as <-.
  destruct (children d) as [|k more'] eqn:EK; [discriminate|]. cbn in E0. injection E0 as <-.
  injection H as <-. exists d, k, more, more'. auto.
Qed.
Lemma simple_value_faithful t n a :
  parse_simple_value t n = Ok a ->
  match t with AT_STRING | AT_ENUMERATION | AT_XHTML => False | _ => True end ->
  tag n = Some ("ATTRIBUTE-VALUE-" ++ at_name t) -> attr_value_of n a.
Proof.
  unfold parse_simple_value. intros H HT TG. inv_ok H. injection H as <-.
  apply attr_req_ok in E. apply definition_ref_ok in E0.
  destruct t; try contradiction; (split; [exact TG|]); (split; [exact E0|]); cbn; eauto.
Qed.
Lemma xhtml_value_faithful n a :
  parse_xhtml_attribute_value n = Ok a -> tag n = Some "ATTRIBUTE-VALUE-XHTML" -> attr_value_of n a.
Proof.
  unfold parse_xhtml_attribute_value. intros H TG.
  destruct (tag_contains _ n) as [b|]; [|discriminate]. cbn [bind] in H.
  destruct (py_assert b); [|discriminate]. cbn [bind] in H.
  destruct (find_req "THE-VALUE" n) as [tv|] eqn:EF; [|discriminate]. apply find_req_ok in EF. cbn [bind] in H.
  destruct (match node_nsmap tv with [] => _ | _ :: _ => _ end) as [[v st]|] eqn:EN; [|discriminate].
  assert (ST : stored_text tv v).
  { unfold stored_text. destruct (node_nsmap tv) as [|k0 m0].
    - destruct (stringify_children tv); [|discriminate]. cbn [bind] in EN. congruence.
    - destruct (stringify_namespaced_children tv None); [|discriminate]. cbn [bind] in EN.
      destruct (convert_children_from_reqif_ns tv); [|discriminate]. cbn [bind] in EN. congruence. }
  clear EN. cbn [bind] in H.
  destruct (definition_ref_text _ n) as [r|] eqn:ER; [|discriminate]. cbn [bind] in H.
  injection H as <-. apply definition_ref_ok in ER.
  split; [exact TG|]. split; [exact ER|]. cbn [sa_type sa_value]. eauto.
Qed.
Lemma attr_value_none n : parse_attribute_value n = Ok None -> is_comment n = true.
Proof.
  unfold parse_attribute_value. intros H. destruct (is_comment n); [reflexivity|].
  destruct (tag_is "ATTRIBUTE-VALUE-STRING" n); [inv_ok H; discriminate|].
  destruct (tag_is "ATTRIBUTE-VALUE-ENUMERATION" n).
  { inv_ok H. destruct (find_child "VALUES" n); discriminate. }
  repeat match type of H with
  | (if tag_is ?t n then _ else _) = _ => destruct (tag_is t n); [inv_ok H; discriminate|]
  end. discriminate.
Qed.
Lemma attr_value_faithful n a :
  parse_attribute_value n = Ok (Some a) -> is_comment n = false /\ attr_value_of n a.
Proof.
  unfold parse_attribute_value. intros H. destruct (is_comment n); [discriminate|]. split; [reflexivity|].
  destruct (tag_is "ATTRIBUTE-VALUE-STRING" n) eqn:T1.
  { apply tag_is_eq in T1. inv_ok H. injection H as <-. apply attr_req_ok in E. apply grandchild_ok in E0.
    split; [exact T1|]. split; [exact E0|]. cbn. eauto. }
  destruct (tag_is "ATTRIBUTE-VALUE-ENUMERATION" n) eqn:T2.
  { apply tag_is_eq in T2. inv_ok H. destruct (find_child "VALUES" n) as [vs|] eqn:EV; [|discriminate].
    injection H as <-. apply definition_ref_ok in E. split; [exact T2|]. split; [exact E|]. cbn. eauto. }
  destruct (tag_is "ATTRIBUTE-VALUE-INTEGER" n) eqn:T3.
  { apply tag_is_eq in T3. inv_ok H. injection H as <-. eapply simple_value_faithful; [exact E|exact I|exact T3]. }
  destruct (tag_is "ATTRIBUTE-VALUE-REAL" n) eqn:T4.
  { apply tag_is_eq in T4. inv_ok H. injection H as <-. eapply simple_value_faithful; [exact E|exact I|exact T4]. }
  destruct (tag_is "ATTRIBUTE-VALUE-BOOLEAN" n) eqn:T5.
  { apply tag_is_eq in T5. inv_ok H. injection H as <-. eapply simple_value_faithful; [exact E|exact I|exact T5]. }
  destruct (tag_is "ATTRIBUTE-VALUE-DATE" n) eqn:T6.
  { apply tag_is_eq in T6. inv_ok H. injection H as <-. eapply simple_value_faithful; [exact E|exact I|exact T6]. }
  destruct (tag_is "ATTRIBUTE-VALUE-XHTML" n) eqn:T7.
  { apply tag_is_eq in T7. inv_ok H. injection H as <-. eapply xhtml_value_faithful; [exact E|exact T7]. }
  discriminate.
Qed.
Lemma attr_values_faithful n o :
  parse_attribute_values (find_child "VALUES" n) = Ok o -> values_of n o.
Proof.
  unfold parse_attribute_values, values_of, section_items. intros H.
  destruct (find_child "VALUES" n); cbn.
  - inv_ok H. injection H as <-. unfold no_comments.
    eapply catSomes_Forall2; [apply attr_value_none|apply attr_value_faithful|exact E].
  - injection H as <-. exact I.
Qed.

(** ** Spec objects, relations, groups *)
Lemma spec_object_faithful n o :
  parse_spec_object n = Ok o -> tag_has "SPEC-OBJECT" n = true /\ spec_object_of n o.
Proof.
  unfold parse_spec_object. intros H. inv_ok H. injection H as <-.
  apply tag_contains_ok in E. apply assert_true in E0. apply not_impl_ok, attr_req_ok in E1.
  apply find_req_ok in E2, E3. apply attr_values_faithful in E4.
  split; [congruence|]. split; [repeat split; auto|].
  split; [unfold path_text; cbn [path_node]; rewrite E2, E3; reflexivity|].
  unfold values_of in E4. destruct (section_items "VALUES" n), x4; try contradiction; [exact E4|reflexivity].
Qed.
Lemma object_item_none n : object_item n = Ok None -> is_comment n = true.
Proof. unfold object_item. destruct (is_comment n); [reflexivity|]. intros H. inv_ok H. discriminate. Qed.
Lemma object_item_faithful n o :
  object_item n = Ok (Some o) -> is_comment n = false /\ tag_has "SPEC-OBJECT" n = true /\ spec_object_of n o.
Proof.
  unfold object_item. destruct (is_comment n); [discriminate|]. intros H. inv_ok H. injection H as <-.
  split; [reflexivity|apply spec_object_faithful, E].
Qed.

Lemma has_child_tags t n : ostr_mem (Some t) (child_tags n) = has_child t n.
Proof.
  unfold has_child, child_tags, children, find_child, find_list, ostr_mem.
  induction (kids_of n) as [|k l IH]; [reflexivity|]. cbn.
  destruct k as [c|ns l0 d i a kk|s|s]; cbn; try exact IH.
  unfold tag_is. cbn.
  destruct (str_eqb_spec t (clark ns l0)) as [->|N].
  - rewrite str_eqb_refl. reflexivity.
  - destruct (str_eqb_spec (clark ns l0) t) as [E|_]; [congruence|]. exact IH.
Qed.
Lemma relation_value_faithful n a : parse_relation_value n = Ok a -> relation_value_of n a.
Proof.
  unfold parse_relation_value. intros H.
  destruct (tag_is "ATTRIBUTE-VALUE-STRING" n) eqn:T1.
  { apply tag_is_eq in T1. inv_ok H. injection H as <-. apply attr_req_ok in E. apply grandchild_ok in E0.
    split; [exact T1|]. cbn [sa_type sa_definition_ref sa_value]. eauto. }
  destruct (tag_is "ATTRIBUTE-VALUE-XHTML" n) eqn:T2.
  { apply tag_is_eq in T2. pose proof (xhtml_value_faithful _ _ H T2) as F.
    assert (T : sa_type a = AT_XHTML).
    { unfold parse_xhtml_attribute_value in H. inv_ok H. destruct x2. inv_ok H. injection H as <-. reflexivity. }
    unfold relation_value_of. rewrite T. split; [exact T2|exact F]. }
  destruct (tag_is "ATTRIBUTE-VALUE-INTEGER" n) eqn:T3; [|discriminate].
  apply tag_is_eq in T3. inv_ok H. injection H as <-. apply attr_req_ok in E. apply grandchild_ok in E0.
  split; [exact T3|]. cbn [sa_type sa_definition_ref sa_value]. eauto.
Qed.
Lemma relation_value_supported n a : relation_value_of n a ->
  tag_in ["ATTRIBUTE-VALUE-STRING"; "ATTRIBUTE-VALUE-INTEGER"; "ATTRIBUTE-VALUE-XHTML"] n = true.
Proof. intros [H1 H2]. unfold tag_in. rewrite H1. destruct (sa_type a); try contradiction; reflexivity. Qed.
Lemma spec_relation_faithful n r :
  parse_spec_relation n = Ok r -> lacks n = None /\ spec_relation_of n r.
Proof.
  unfold parse_spec_relation. intros H. rewrite !has_child_tags in H. inv_ok H.
  apply assert_true, tag_is_eq in E. unfold lacks.
  destruct (has_child "SOURCE" n); [|discriminate]. cbn [negb] in *.
  destruct (has_child "TARGET" n); [|discriminate]. cbn [negb] in *.
  split; [reflexivity|]. inv_ok H. injection H as <-.
  destruct (attr_opt "IDENTIFIER" n) as [i|] eqn:EI; [|discriminate]. injection E1 as ->.
  apply find_req_ok in E2, E3, E4, E5, E6, E7.
  split; [exact E|]. split; [repeat split; auto|].
  unfold path_text. cbn [path_node]. rewrite E2, E3, E4, E5, E6, E7.
  split; [reflexivity|]. split; [reflexivity|]. split; [reflexivity|].
  unfold relation_values_of, section_items. cbn [sr_values_attribute].
  destruct (find_child "VALUES" n) as [vs|]; cbn; [|injection E8 as <-; exact I].
  destruct (children vs) as [|v more]; [injection E8 as <-; exact I|].
  destruct (parse_relation_value v) as [a|] eqn:EA; [|discriminate]. cbn in E8. injection E8 as <-.
  apply relation_value_faithful, EA.
Qed.
Lemma opt_ref_path t ref n : opt_ref t ref n = path_text [t; ref] n.
Proof.
  unfold opt_ref, path_text. cbn [path_node]. destruct (find_child t n) as [x|]; [|reflexivity].
  destruct (find_child ref x); reflexivity.
Qed.
Lemma relation_group_faithful n g :
  parse_relation_group n = Ok g -> tag_has "RELATION-GROUP" n = true /\ relation_group_of n g.
Proof.
  unfold parse_relation_group. intros H. inv_ok H. injection H as <-.
  apply tag_contains_ok in E. apply assert_true in E0. apply not_impl_ok, attr_req_ok in E1.
  split; [congruence|]. split; [repeat split; auto|]. rewrite !opt_ref_path. repeat split.
  cbn. unfold section_items. destruct (find_child "SPEC-RELATIONS" n); reflexivity.
Qed.

(** ** Hierarchies *)
(** the fused loop is find("CHILDREN") followed by the loop over its children *)
Lemma hier_go_eq (f : node -> result hier) ks :
  (fix go (ks : list node) : result (option (list hier)) :=
     match ks with
     | [] => Ok None
     | k :: ks' =>
         match k with
         | El ns' l' _ _ _ kk =>
             if str_eqb (clark ns' l') "CHILDREN"
             then let! hs := mapM_children f kk in Ok (Some hs)
             else go ks'
         | _ => go ks'
         end
     end) ks =
  match find_list "CHILDREN" ks with
  | None => Ok None
  | Some c => let! hs := mapM f (children c) in Ok (Some hs)
  end.
Proof.
  induction ks as [|k ks IH]; [reflexivity|]. cbn [find_list find].
  destruct k as [c|ns l d i a kk|s|s]; try exact IH.
  unfold find_list in *. cbn [find]. unfold tag_is at 1. cbn [tag].
  destruct (str_eqb (clark ns l) "CHILDREN"); [|exact IH].
  rewrite mapM_children_mapM. reflexivity.
Qed.
Lemma parse_hier_eq level ns l d i a kids :
  let n := El ns l d i a kids in
  parse_hier level n =
  let! _ := py_assert (tag_is "SPEC-HIERARCHY" n) in
  let! identifier := or_not_impl (attr_req "IDENTIFIER" n) in
  let! ob := find_req "OBJECT" n in
  let! r := find_req "SPEC-OBJECT-REF" ob in
  let! ch := match find_child "CHILDREN" n with
             | None => Ok None
             | Some c => let! hs := mapM (parse_hier (S level)) (children c) in Ok (Some hs)
             end in
  Ok (Hier identifier (text r) level ch (attr_opt "LONG-NAME" n)
        (tags_eqb (child_tags n) [Some "OBJECT"; Some "CHILDREN"])
        (attr_opt "LAST-CHANGE" n) (editable_of (attr_opt "IS-EDITABLE" n))
        (editable_of (attr_opt "IS-TABLE-INTERNAL" n))
        (match find_child "CHILDREN" n with Some c => is_self_closed_tag c | None => false end) (Some n)).
Proof.
  intros n. unfold n. cbn [parse_hier]. rewrite hier_go_eq. reflexivity.
Qed.
Lemma find_child_size t n c : find_child t n = Some c -> nsize c < nsize n.
Proof.
  unfold find_child, find_list. destruct n as [x|ns l d i a kids|s|s]; try discriminate. cbn [kids_of].
  intros H. apply find_some in H. destruct H as [H _]. cbn [nsize].
  pose proof (nsize_in _ _ H). lia.
Qed.
Lemma children_size k n : In k (children n) -> nsize k < nsize n.
Proof.
  unfold children. intros H. apply filter_In in H. destruct H as [H _].
  destruct n as [x|ns l d i a kids|s|s]; try destruct H. cbn [kids_of] in *; cbn [nsize].
  all: pose proof (nsize_in _ _ H); cbn [nsize] in *; lia.
Qed.
Lemma hier_faithful n : forall level h, parse_hier level n = Ok h -> hier_of level n h.
Proof.
  induction n as [n IH] using node_strong_ind. intros level h H.
  destruct n as [c|ns l d i a kids|s|s]; try discriminate H.
  rewrite parse_hier_eq in H. set (n := El ns l d i a kids) in *. inv_ok H. injection H as <-.
  apply assert_true, tag_is_eq in E. apply not_impl_ok, attr_req_ok in E0. apply find_req_ok in E1, E2.
  constructor; cbn [h_identifier h_last_change h_long_name h_editable h_table h_spec_object h_level h_children]; auto.
  - apply editable_flag.
  - apply editable_flag.
  - unfold path_text. cbn [path_node]. rewrite E1, E2. reflexivity.
  - unfold section_items. destruct (find_child "CHILDREN" n); cbn; [|split; congruence].
    inv_ok E3. injection E3 as <-. split; discriminate.
  - intros ks hs H1 ->. unfold section_items in H1.
    destruct (find_child "CHILDREN" n) as [c|] eqn:EC; [|discriminate]. cbn in H1. injection H1 as <-.
    inv_ok E3. injection E3 as ->. apply mapM_Ok in E4.
    assert (B : forall k, In k (children c) -> nsize k < nsize n).
    { intros k Hk. apply children_size in Hk. apply find_child_size in EC. lia. }
    clear -IH E4 B. induction E4 as [|k h ks hs Hk _ IHk]; constructor.
    + apply IH; [apply B; left; reflexivity|exact Hk].
    + apply IHk. intros k' Hk'. apply B. right. exact Hk'.
Qed.
Lemma specification_faithful n s :
  parse_specification n = Ok s -> tag_has "SPECIFICATION" n = true /\ specification_of n s.
Proof.
  unfold parse_specification. intros H. inv_ok H. injection H as <-.
  apply tag_contains_ok in E. apply assert_true in E0. apply not_impl_ok, attr_req_ok in E1.
  split; [congruence|]. split; [repeat split; auto|]. split; [cbn; rewrite opt_ref_path; reflexivity|].
  split; [|apply attr_values_faithful, E3]. cbn [sp_children]. unfold last_section, last_child in *.
  destruct (find_list "CHILDREN" (rev (kids_of n))) as [c|]; cbn.
  - inv_ok E2. injection E2 as <-. eapply mapM_Forall2; [|exact E4]. intros k h. apply hier_faithful.
  - injection E2 as <-. exact I.
Qed.

(** ** Supported elements *)
Lemma data_type_supported n d : data_type_of n d -> tag_in data_type_tags n = true.
Proof.
  intros [_ H]. unfold tag_in. destruct d;
  try match type of H with _ /\ _ => apply proj1 in H end; rewrite H; reflexivity.
Qed.
Lemma spec_type_supported n t : spec_type_of n t -> tag_in spec_type_tags n = true.
Proof. intros H. unfold tag_in. destruct t; destruct H as [H _]; rewrite H; reflexivity. Qed.
Lemma attr_def_supported n a : attr_def_of n a -> tag_in attr_def_tags n = true.
Proof. intros [H _]. unfold tag_in. rewrite H. destruct (ad_type a); reflexivity. Qed.
Lemma attr_value_supported n a : attr_value_of n a -> tag_in attr_value_tags n = true.
Proof. intros [H _]. unfold tag_in. rewrite H. destruct (sa_type a); reflexivity. Qed.
Lemma hier_of_supported n : forall level h, hier_of level n h -> hier_supported n.
Proof.
  induction n as [n IH] using node_strong_ind. intros level h H. inversion H; subst.
  constructor; [assumption|]. intros ks k Hk Hin.
  destruct (h_children h) as [hs|] eqn:EH.
  - specialize (H9 ks hs Hk eq_refl).
    assert (B : nsize k < nsize n).
    { unfold section_items in Hk. destruct (find_child "CHILDREN" n) as [c|] eqn:EC; [|discriminate].
      cbn in Hk. injection Hk as <-. apply children_size in Hin. apply find_child_size in EC. lia. }
    clear -H9 Hin IH B. induction H9 as [|k' h' ks hs Hk' _ IHk]; [destruct Hin|].
    destruct Hin as [->|Hin]; [eapply IH; [exact B|exact Hk']|auto].
  - apply proj2 in H8. rewrite H8 in Hk; [discriminate|reflexivity].
Qed.
