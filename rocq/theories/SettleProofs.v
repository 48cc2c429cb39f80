(** SettleProofs.v -- lemmas behind Prop_Settle.v *)
From Verif Require Import Base Xml Utf8 Lxml Py LxmlStr Models AttrDef DataType Header AttrValue SpecObj
  Hierarchy SpecTypes Progress Parser Unparser SpecTraversal SpecPrint SpecXhtml SpecDocument SpecSettle
  SpecProgress SpecParse SpecEscape EscapeProofs DictProofs ProgressProofs TraversalProofs ParserProofs FaithProofs RT_Hier.

Lemma Ok_inj' {A} (x y : A) : Ok x = Ok y -> x = y.
Proof. congruence. Qed.

(** ** The unparser does not see the difference *)
Lemma fmt_spelled o : fmt (spelled o) = fmt o.
Proof. destruct o; reflexivity. Qed.
Lemma mapM_map {A B C} (f : B -> result C) (g : A -> B) l : mapM f (map g l) = mapM (fun x => f (g x)) l.
Proof. induction l as [|x l IH]; [reflexivity|]. cbn [map mapM]. rewrite IH. reflexivity. Qed.
Lemma mapM_ext_in {A B} (f g : A -> result B) l : (forall x, In x l -> f x = g x) -> mapM f l = mapM g l.
Proof.
  induction l as [|x l IH]; intros H; [reflexivity|]. cbn [mapM]. rewrite H by (left; reflexivity).
  rewrite IH by (intros y Hy; apply H; right; exact Hy). reflexivity.
Qed.
Lemma mapM_ext {A B} (f g : A -> result B) l : (forall x, f x = g x) -> mapM f l = mapM g l.
Proof. intros H. apply mapM_ext_in. auto. Qed.
Lemma flat_map_map {A B C} (f : B -> list C) (g : A -> B) l : flat_map f (map g l) = flat_map (fun x => f (g x)) l.
Proof. induction l as [|x l IH]; [reflexivity|]. cbn [map flat_map]. rewrite IH. reflexivity. Qed.

Lemma us_attr_def a : unparse_attribute_definition (spell_attr_def a) = unparse_attribute_definition a.
Proof.
  unfold unparse_attribute_definition.
  cbn [spell_attr_def ad_type ad_identifier ad_xml_node ad_description ad_last_change ad_long_name ad_editable ad_multi_valued].
  rewrite (mapM_ext (unparse_ad_child (spell_attr_def a)) (unparse_ad_child a)); [reflexivity|].
  intros t. unfold unparse_ad_child, unparse_attribute_default_value, unparse_default_str, unparse_attribute_type.
  cbn [spell_attr_def ad_type ad_default_value ad_default_value_definition_ref ad_datatype_definition].
  rewrite fmt_spelled. reflexivity.
Qed.
Lemma us_block o : spec_attributes_block (map_list spell_attr_def o) = spec_attributes_block o.
Proof.
  destruct o as [l|]; [|reflexivity]. cbn [map_list option_map spec_attributes_block]. unfold unparse_attribute_definitions.
  rewrite mapM_map, (mapM_ext _ _ l us_attr_def). reflexivity.
Qed.
Lemma us_close c o t : close_type c (map_list spell_attr_def o) t = close_type c o t.
Proof. unfold close_type. rewrite us_block. destruct o as [[|x l]|]; reflexivity. Qed.
Lemma us_spec_type t : unparse_spec_type (spell_spec_type t) = unparse_spec_type t.
Proof.
  destruct t; cbn [spell_spec_type map_spec_type unparse_spec_type];
    unfold unparse_spec_object_type, unparse_spec_relation_type, unparse_specification_type, unparse_relation_group_type;
    cbn [sot_attribute_definitions srt_attribute_definitions spt_spec_attributes rgt_attribute_definitions
         srt_is_self_closed spt_is_self_closed rgt_is_self_closed]; rewrite ?us_block, ?us_close; reflexivity.
Qed.
Lemma us_value a : unparse_attribute_value (spell_value a) = unparse_attribute_value a.
Proof.
  unfold unparse_attribute_value, spell_value. cbn [sa_type sa_xml_node sa_value sa_definition_ref].
  assert (E : forall l, flat_map enum_value_template (map spelled l) = flat_map enum_value_template l).
  { intros l. rewrite flat_map_map. apply flat_map_ext. intros o. unfold enum_value_template. rewrite fmt_spelled. reflexivity. }
  destruct (sa_type a), (sa_value a); try reflexivity;
    unfold value_template, xhtml_template, enum_template, enum_definition_part; rewrite ?fmt_spelled, ?E; reflexivity.
Qed.
Lemma us_values o : unparse_attribute_values (map_list spell_value o) = unparse_attribute_values o.
Proof.
  destruct o as [[|a l]|]; try reflexivity. cbn [map_list option_map map unparse_attribute_values].
  change (spell_value a :: map spell_value l) with (map spell_value (a :: l)).
  rewrite mapM_map, (mapM_ext _ _ (a :: l) us_value). reflexivity.
Qed.
Lemma us_spec_object o : unparse_spec_object (spell_spec_object o) = unparse_spec_object o.
Proof.
  unfold unparse_spec_object. cbn [spell_spec_object so_description so_identifier so_last_change so_long_name so_xml_node].
  rewrite (mapM_ext (unparse_so_child (spell_spec_object o)) (unparse_so_child o)); [reflexivity|].
  intros t. unfold unparse_so_child, unparse_spec_object_type_ref. cbn [spell_spec_object so_attributes so_spec_object_type].
  change (Some (map spell_value (so_attributes o))) with (map_list spell_value (Some (so_attributes o))).
  rewrite us_values, fmt_spelled. reflexivity.
Qed.
Lemma us_spec_relation r : unparse_spec_relation (spell_spec_relation r) = unparse_spec_relation r.
Proof.
  unfold unparse_spec_relation. cbn [spell_spec_relation sr_description sr_identifier sr_last_change sr_long_name sr_xml_node].
  rewrite (mapM_ext (unparse_sr_child (spell_spec_relation r)) (unparse_sr_child r)); [reflexivity|].
  intros t. unfold unparse_sr_child, unparse_sr_type, unparse_sr_source, unparse_sr_target.
  cbn [spell_spec_relation sr_relation_type_ref sr_source sr_target sr_values_attribute]. rewrite !fmt_spelled.
  destruct (sr_values_attribute r) as [a|]; [|reflexivity]. cbn [option_map].
  change (Some [spell_value a]) with (map_list spell_value (Some [a])). rewrite us_values. reflexivity.
Qed.
Lemma us_hier h : unparse_hier (spell_hier h) = unparse_hier h.
Proof.
  induction h as [h IH] using hier_ind'. destruct h as [i so lv ch ln o lc ed tb sc nd]. cbn [h_kids h_children] in IH.
  cbn [spell_hier unparse_hier]. destruct (base_level lv) as [k|e]; [|reflexivity]. cbn [bind].
  unfold print_object. rewrite fmt_spelled. destruct ch as [l|]; [|reflexivity]. cbn [option_map].
  assert (E : mapM unparse_hier (map spell_hier l) = mapM unparse_hier l).
  { rewrite mapM_map. apply mapM_ext_in. rewrite Forall_forall in IH. exact IH. }
  rewrite E. destruct l; reflexivity.
Qed.
Lemma us_specification s : unparse_specification (spell_specification s) = unparse_specification s.
Proof.
  unfold unparse_specification. cbn [spell_specification sp_description sp_identifier sp_last_change sp_long_name sp_xml_node].
  rewrite (mapM_ext (unparse_sp_child (spell_specification s)) (unparse_sp_child s)); [reflexivity|].
  intros t. unfold unparse_sp_child. cbn [spell_specification sp_specification_type sp_children sp_values].
  rewrite us_values. destruct (sp_children s) as [l|]; [|reflexivity]. cbn [map_list option_map].
  unfold unparse_specification_children. rewrite mapM_map, (mapM_ext _ _ l us_hier). reflexivity.
Qed.
Lemma us_relation_group g : unparse_relation_group (spell_relation_group g) = unparse_relation_group g.
Proof.
  unfold unparse_relation_group.
  cbn [spell_relation_group rg_description rg_identifier rg_last_change rg_long_name rg_spec_relations rg_type_ref
       rg_source_specification_ref rg_target_specification_ref].
  destruct (rg_spec_relations g) as [l|]; [|reflexivity]. cbn [map_list option_map]. rewrite flat_map_map.
  rewrite (flat_map_ext _ (fun r => "            <SPEC-RELATION-REF>" ++ fmt r ++ "</SPEC-RELATION-REF>" ++ nl)); [reflexivity|].
  intros r. rewrite fmt_spelled. reflexivity.
Qed.
Lemma us_section {A} t (f : A -> result str) (g : A -> A) o :
  (forall x, f (g x) = f x) -> pure_unparse_section t f (map_list g o) = pure_unparse_section t f o.
Proof.
  intros H. destruct o as [l|]; [|reflexivity]. cbn [map_list option_map pure_unparse_section].
  rewrite mapM_map, (mapM_ext _ _ l H). reflexivity.
Qed.
Lemma us_bundle b : unparse_string (spell_bundle b) = unparse_string b.
Proof.
  rewrite !(proj2 (unparse_traced _)). unfold pure_unparse. cbn [spell_bundle b_namespace_info b_header b_core_content b_tool_extensions].
  destruct (b_core_content b) as [[c|]|]; try reflexivity. cbn [option_map].
  assert (E : pure_unparse_content (spell_content c) = pure_unparse_content c); [|rewrite E; reflexivity].
  unfold pure_unparse_content, spell_content, map_content.
  cbn [rc_data_types rc_spec_types rc_spec_objects rc_spec_relations rc_specifications rc_spec_relation_groups].
  rewrite (us_section "DATATYPES" _ (fun d => d)) by reflexivity.
  rewrite (us_section "SPEC-TYPES" _ _ _ us_spec_type), (us_section "SPEC-OBJECTS" _ _ _ us_spec_object),
    (us_section "SPEC-RELATIONS" _ _ _ us_spec_relation), (us_section "SPECIFICATIONS" _ _ _ us_specification),
    (us_section "SPEC-RELATION-GROUPS" (fun g => Ok (unparse_relation_group g)) spell_relation_group); [reflexivity|].
  intros g. rewrite us_relation_group. reflexivity.
Qed.

(** ** Nor does the list of XHTML texts change *)
Lemma sx_definitions t : flat_map default_xhtml (type_definitions (spell_spec_type t)) = flat_map default_xhtml (type_definitions t).
Proof.
  assert (E : forall o, flat_map default_xhtml (items (map_list spell_attr_def o)) = flat_map default_xhtml (items o)).
  { intros [l|]; [|reflexivity]. cbn [map_list option_map items]. rewrite flat_map_map. reflexivity. }
  destruct t; apply E.
Qed.
Lemma sx_value a : value_xhtml (spell_value a) = value_xhtml a.
Proof. unfold value_xhtml, spell_value. cbn [sa_type sa_value]. destruct (sa_type a), (sa_value a); reflexivity. Qed.
Lemma flat_map_flat_map {A B C} (f : B -> list C) (g : A -> list B) l :
  flat_map f (flat_map g l) = flat_map (fun x => flat_map f (g x)) l.
Proof. induction l as [|x l IH]; [reflexivity|]. cbn [flat_map]. rewrite flat_map_app, IH. reflexivity. Qed.
Lemma items_map_list {A B} (f : A -> B) o : items (map_list f o) = map f (items o).
Proof. destruct o; reflexivity. Qed.
Lemma sx_bundle b : bundle_xhtml (spell_bundle b) = bundle_xhtml b.
Proof.
  unfold bundle_xhtml. cbn [spell_bundle b_core_content]. destruct (b_core_content b) as [[c|]|]; try reflexivity.
  cbn [option_map]. unfold content_xhtml, spell_content, map_content.
  cbn [rc_spec_types rc_spec_objects rc_spec_relations rc_specifications]. rewrite !items_map_list, !flat_map_flat_map, !flat_map_map.
  f_equal; [apply flat_map_ext; intros t; apply sx_definitions|].
  f_equal; [apply flat_map_ext; intros o; cbn [spell_spec_object so_attributes]; rewrite flat_map_map; apply flat_map_ext, sx_value|].
  f_equal.
  - apply flat_map_ext; intros x. cbn [spell_spec_relation sr_values_attribute]. destruct (sr_values_attribute x) as [a|]; [|reflexivity].
    cbn [option_map flat_map]. rewrite sx_value. reflexivity.
  - apply flat_map_ext; intros x. cbn [spell_specification sp_values]. rewrite items_map_list, flat_map_map. apply flat_map_ext, sx_value.
Qed.
Lemma sx_markup b : uses_markup (spell_bundle b) = uses_markup b.
Proof. unfold uses_markup. rewrite sx_bundle. reflexivity. Qed.

(** ** What reading guarantees *)
Lemma find_child_tag t n k : find_child t n = Some k -> In (Some t) (child_tags n).
Proof.
  unfold find_child, find_list, child_tags, children. intros H. apply find_some in H. destruct H as [H1 H2].
  apply in_map_iff. exists k. apply tag_is_eq in H2. split; [exact H2|]. apply filter_In. split; [exact H1|].
  destruct k; try discriminate H2; reflexivity.
Qed.
Lemma self_closed_no_child t n : is_self_closed_tag n = true -> find_child t n = None.
Proof.
  intros H. unfold is_self_closed_tag in H. destruct (children n) as [|x l] eqn:E; [|discriminate].
  destruct (find_child t n) as [k|] eqn:F; [|reflexivity]. exfalso. apply (find_child_children _ _ _ F E).
Qed.

Definition read_attr_def (a : attr_def) : Prop :=
  In (Some "TYPE") (ad_order a)
  /\ (ad_default_value a <> DVNone -> In (Some "DEFAULT-VALUE") (ad_order a))
  /\ (ad_default_value a = DVEmptyTag -> ad_type a = AT_STRING \/ ad_type a = AT_XHTML \/ ad_type a = AT_ENUMERATION)
  /\ (ad_type a <> AT_ENUMERATION -> ad_multi_valued a = None).
Lemma parsed_attr_def n a : parse_attribute_definition n = Ok a -> read_attr_def a.
Proof.
  unfold parse_attribute_definition. cbv zeta. intros H. inv_ok H.
  destruct (attr_type_of_def_tag (tag n)) as [t|]; [|discriminate]. inv_ok H. destruct x1 as [ref dv]. cbn [bind] in H.
  apply Ok_inj' in H. subst a. unfold read_attr_def, ad_order. cbn [ad_xml_node ad_default_value ad_type ad_multi_valued order_of].
  split; [|split; [|split]].
  - unfold parse_datatype_ref in E0. apply not_impl_ok in E0. inv_ok E0. apply find_req_ok in E2. apply (find_child_tag _ _ _ E2).
  - intros HN. destruct (find_child "DEFAULT-VALUE" n) as [d|] eqn:EF; [apply (find_child_tag _ _ _ EF)|]. exfalso. apply HN.
    clear HN. destruct t; cbn [parse_default_value] in E1;
      unfold parse_default_string, parse_default_simple, parse_default_boolean, parse_default_xhtml, parse_default_enum in E1;
      rewrite EF in E1; congruence.
  - intros ->. destruct t; auto; exfalso; cbn [parse_default_value] in E1; unfold parse_default_simple, parse_default_boolean in E1;
      destruct (find_child "DEFAULT-VALUE" n); try discriminate;
      match type of E1 with match ?x with _ => _ end = _ => destruct x; [|discriminate] end; inv_ok E1; discriminate.
  - destruct t; congruence.
Qed.
Lemma when_weaken (P Q : str -> Prop) o : (forall s, P s -> Q s) -> when P o -> when Q o.
Proof. destruct o; cbn; auto. Qed.
Lemma none_raw : text_raw "None".
Proof.
  split; [|intros a b H; assert (I : In 62%N "None") by (rewrite H, !in_app_iff; cbn; tauto); cbn in I; intuition discriminate].
  unfold xml_text_without. repeat constructor; try discriminate; cbn; intros H; repeat destruct H as [H|H]; try discriminate; exact H. Qed.
Lemma spelled_ok o : plain_ref o -> ref_ok (spelled o).
Proof.
  intros H. destruct o as [s|]; cbn in H.
  - exists s. split; [reflexivity|exact H].
  - exists "None". split; [reflexivity|]. split; [discriminate|apply none_raw].
Qed.
Lemma plain_given o : plain_ref o -> o <> None -> ref_ok o.
Proof. destruct o as [s|]; [|congruence]. intros H _. exists s. split; [reflexivity|exact H]. Qed.
Lemma mapM_ok_iff {A B} (f : A -> result B) l :
  (exists l', mapM f l = Ok l') <-> Forall (fun x => exists y, f x = Ok y) l.
Proof.
  induction l as [|x l IH]; [split; [constructor|intros _; exists []; reflexivity]|].
  rewrite Forall_cons_iff, <- IH. cbn [mapM]. split.
  - intros (l' & H). inv_ok H. eauto.
  - intros ((y & Hy) & l' & Hl). rewrite Hy, Hl. cbn [bind]. eauto.
Qed.
Lemma bind_ok_iff {A B} (r : result A) (k : A -> B) : (exists y, bind r (fun x => Ok (k x)) = Ok y) <-> exists x, r = Ok x.
Proof. destruct r as [x|e]; cbn [bind]; split; intros (y & H); eauto; discriminate. Qed.

(** ** Attribute definitions *)
Lemma printable_spelled_attr_def D a :
  read_attr_def a -> plain_attr_def D a -> writable_attr_def a -> printable_attr_def D (spell_attr_def a).
Proof.
  intros (R1 & R2 & R3 & R4) (P1 & P2 & P3 & P4 & P5 & P6 & P7) (W1 & W2).
  unfold printable_attr_def, printable_default, ad_order in *.
  cbn [spell_attr_def ad_type ad_identifier ad_datatype_definition ad_xml_node ad_description ad_last_change ad_long_name
       ad_default_value_definition_ref ad_default_value ad_multi_valued] in *.
  split; [exact P1|]. split; [apply spelled_ok, P2|]. split; [exact P3|]. split; [exact P4|]. split; [exact P5|].
  split; [exact R4|]. split; [|auto].
  destruct (ad_default_value a) as [| |v] eqn:ED; [exact I|auto|]. specialize (P7 v eq_refl). specialize (W2 v eq_refl).
  destruct (ad_type a); try exact P7; (split; [apply plain_given; [exact P6|apply W2; cbn; auto]|exact P7]).
Qed.
Lemma writable_iff_attr_def a :
  read_attr_def a -> ((exists s, unparse_attribute_definition a = Ok s) <-> writable_attr_def a).
Proof.
  intros (R1 & R2 & R3 & R4). unfold unparse_attribute_definition. cbv zeta. rewrite bind_ok_iff, mapM_ok_iff.
  unfold writable_attr_def. change (tags_or (ad_xml_node a) ["DEFAULT-VALUE"; "TYPE"]) with (ad_order a).
  assert (EC : forall t, (exists y, unparse_ad_child a t = Ok y) <->
     (t = Some "DEFAULT-VALUE" /\ (exists y, unparse_attribute_default_value a = Ok y)) \/ t = Some "TYPE").
  { intros t. unfold unparse_ad_child. destruct (ostr_eqb_spec t (Some "DEFAULT-VALUE")) as [->|N1].
    - split; [intros H; left; auto|]. intros [[_ H]|H]; [exact H|discriminate].
    - destruct (ostr_eqb_spec t (Some "TYPE")) as [->|N2]; [split; eauto|]. split; [intros (y & H); discriminate|].
      intros [[H _]|H]; congruence. }
  assert (ED : (exists y, unparse_attribute_default_value a = Ok y) <->
     (forall v, ad_default_value a = DVStr v -> In (ad_type a) [AT_BOOLEAN; AT_ENUMERATION; AT_XHTML] ->
        ad_default_value_definition_ref a <> None)).
  { unfold unparse_attribute_default_value. destruct (ad_default_value a) as [| |v] eqn:EV.
    - split; [discriminate|eauto].
    - split; [discriminate|eauto].
    - unfold unparse_default_str. destruct (ad_type a) eqn:ET;
        try (solve [split; [intros _ v' _ HI; cbn in HI; intuition discriminate|eauto]]);
        (destruct (ad_default_value_definition_ref a) as [ref|];
         [split; [discriminate|eauto] | split; [intros (y & H); discriminate|intros H; exfalso; apply (H v eq_refl); cbn; auto]]). }
  rewrite Forall_forall. setoid_rewrite EC. rewrite Forall_forall. split.
  - intros H. split.
    + intros t Ht. destruct (H t Ht) as [[HD _]|HT]; auto.
    + intros v Hv. assert (HI : In (Some "DEFAULT-VALUE") (ad_order a)) by (apply R2; rewrite Hv; discriminate).
      destruct (H _ HI) as [[_ HD]|HT]; [|discriminate]. apply (proj1 ED HD v Hv).
  - intros [H1 H2] t Ht. destruct (H1 t Ht) as [->| ->]; [left; split; [reflexivity|apply ED, H2]|right; reflexivity].
Qed.

(** ** Spec types *)
Definition read_definitions (closed : bool) (o : option (list attr_def)) : Prop :=
  each read_attr_def o /\ (closed = true -> o = None).
Lemma parsed_definitions n o : parse_attribute_definitions n = Ok o -> read_definitions (is_self_closed_tag n) o.
Proof.
  unfold parse_attribute_definitions. intros H. split.
  - destruct (find_child "SPEC-ATTRIBUTES" n) as [sa|]; [|apply Ok_inj' in H; subst o; exact I].
    inv_ok H. apply Ok_inj' in H. subst o. cbn [each]. apply mapM_Ok in E. induction E as [|k y l l' HE _ IH]; constructor; [|exact IH].
    apply (parsed_attr_def k y HE).
  - intros HC. rewrite (self_closed_no_child _ _ HC) in H. congruence.
Qed.
Definition read_spec_type (t : spec_type) : Prop :=
  match t with
  | STObject t => each read_attr_def (sot_attribute_definitions t)
  | STRelation t => read_definitions (srt_is_self_closed t) (srt_attribute_definitions t) /\ srt_long_name t <> None
  | STGroup t => read_definitions (rgt_is_self_closed t) (rgt_attribute_definitions t)
  | STSpecification t => read_definitions (spt_is_self_closed t) (spt_spec_attributes t) /\ spt_last_change t <> None
                         /\ each (fun a => ad_long_name a <> None) (spt_spec_attributes t)
  end.
Lemma fill_map_names l : forall m m', fill_attribute_map l m = Ok m' -> Forall (fun a => ad_long_name a <> None) l.
Proof.
  induction l as [|a l IH]; intros m m' H; [constructor|]. cbn [fill_attribute_map] in H.
  destruct (ad_long_name a) eqn:E; [|discriminate]. constructor; [congruence|]. apply (IH _ _ H).
Qed.
Lemma parsed_spec_type n t : parse_spec_type n = Ok (Some t) -> read_spec_type t.
Proof.
  unfold parse_spec_type. intros H.
  destruct (tag_is "SPEC-OBJECT-TYPE" n); [|destruct (tag_is "SPEC-RELATION-TYPE" n);
    [|destruct (tag_is "SPECIFICATION-TYPE" n); [|destruct (tag_is "RELATION-GROUP-TYPE" n);
    [|destruct (is_comment n); discriminate]]]]; inv_ok H; apply Ok_inj' in H.
  - assert (t = STObject x) by congruence. subst t. unfold parse_spec_object_type in E. inv_ok E. apply Ok_inj' in E. subst x.
    cbn [read_spec_type sot_attribute_definitions]. apply parsed_definitions in E2. apply E2.
  - assert (t = STRelation x) by congruence. subst t. unfold parse_spec_relation_type in E. inv_ok E. apply Ok_inj' in E. subst x.
    cbn [read_spec_type srt_attribute_definitions srt_is_self_closed srt_long_name]. split; [apply parsed_definitions, E3|discriminate].
  - assert (t = STSpecification x) by congruence. subst t. unfold parse_specification_type in E. inv_ok E. apply Ok_inj' in E. subst x.
    cbn [read_spec_type spt_spec_attributes spt_is_self_closed spt_last_change]. split; [apply parsed_definitions, E3|]. split; [discriminate|].
    destruct x3 as [l|]; [|exact I]. apply (fill_map_names _ _ _ E4).
  - assert (t = STGroup x) by congruence. subst t. unfold parse_relation_group_type in E. inv_ok E. apply Ok_inj' in E. subst x.
    cbn [read_spec_type rgt_attribute_definitions rgt_is_self_closed]. apply parsed_definitions, E2.
Qed.
Lemma each_items {A} (P : A -> Prop) o : each P o <-> Forall P (items o).
Proof. destruct o; cbn; [reflexivity|]. split; auto. Qed.
Lemma each_spelled {A B} (P : A -> Prop) (Q : B -> Prop) (f : A -> B) o :
  (forall x, In x (items o) -> P x -> Q (f x)) -> each P o -> each Q (map_list f o).
Proof.
  destruct o as [l|]; [|auto]. cbn. intros H HP. rewrite Forall_forall in *. intros y Hy. apply in_map_iff in Hy.
  destruct Hy as (x & <- & Hx). auto.
Qed.
Lemma printable_spelled_definitions D o :
  each read_attr_def o -> Forall (plain_attr_def D) (items o) -> Forall writable_attr_def (items o) ->
  each (printable_attr_def D) (map_list spell_attr_def o).
Proof.
  intros HR HP HW. apply each_spelled with (P := fun a => True); [|destruct o; [apply Forall_forall; auto|exact I]].
  intros a Ha _. rewrite each_items in HR. rewrite Forall_forall in *. apply printable_spelled_attr_def; auto.
Qed.
Lemma printable_spelled_spec_type D t :
  read_spec_type t -> plain_spec_type D t -> Forall writable_attr_def (type_definitions t) ->
  printable_spec_type D (spell_spec_type t).
Proof.
  intros HR [HD HP] HW. unfold type_definitions in *. destruct t as [t|t|t|t]; cbn [read_spec_type spell_spec_type map_spec_type printable_spec_type] in *;
    cbn [sot_identifier sot_description sot_last_change sot_long_name sot_attribute_definitions
         srt_identifier srt_description srt_last_change srt_long_name srt_attribute_definitions srt_is_self_closed
         rgt_identifier rgt_description rgt_last_change rgt_long_name rgt_attribute_definitions rgt_is_self_closed
         spt_identifier spt_description spt_last_change spt_long_name spt_spec_attributes spt_is_self_closed].
  - destruct HP as (P1 & P2 & P3 & P4). repeat split; auto. apply printable_spelled_definitions; auto.
  - destruct HP as (P1 & P2 & P3 & P4). destruct HR as [[R1 R2] R3]. repeat split; auto.
    + destruct (srt_long_name t) as [s|]; [|congruence]. eauto.
    + apply printable_spelled_definitions; auto.
  - destruct HP as (P1 & P2 & P3 & P4). destruct HR as ([R1 R2] & R3 & R4). repeat split; auto.
    + destruct (spt_last_change t) as [s|]; [|congruence]. eauto.
    + apply printable_spelled_definitions; auto.
    + apply each_spelled with (P := fun a => ad_long_name a <> None); auto.
  - destruct HP as (P1 & P2 & P3 & P4). destruct HR as [R1 R2]. repeat split; auto.
    + apply printable_spelled_definitions; auto.
Qed.
Lemma block_ok_iff o : each read_attr_def o ->
  ((exists s, spec_attributes_block o = Ok s) <-> Forall writable_attr_def (items o)).
Proof.
  destruct o as [l|]; cbn [each items spec_attributes_block]; intros HR; [|split; [constructor|eauto]].
  unfold unparse_attribute_definitions. rewrite bind_ok_iff, bind_ok_iff, mapM_ok_iff. rewrite !Forall_forall in *.
  split; intros H a Ha; apply writable_iff_attr_def; auto.
Qed.
Lemma close_ok_iff c o t : each read_attr_def o ->
  ((exists s, close_type c o t = Ok s) <-> Forall writable_attr_def (items o)).
Proof.
  intros HR. unfold close_type. destruct (c && negb (has_attributes o)) eqn:E.
  - destruct o as [[|a l]|]; cbn in E; [|rewrite andb_false_r in E; discriminate|]; (split; [constructor|eauto]).
  - rewrite bind_ok_iff. apply block_ok_iff, HR.
Qed.
Lemma writable_iff_spec_type t : read_spec_type t ->
  ((exists s, unparse_spec_type t = Ok s) <-> Forall writable_attr_def (type_definitions t)).
Proof.
  unfold type_definitions. destruct t as [t|t|t|t]; cbn [read_spec_type unparse_spec_type]; intros HR;
    unfold unparse_spec_object_type, unparse_spec_relation_type, unparse_specification_type, unparse_relation_group_type;
    rewrite bind_ok_iff; first [apply block_ok_iff|apply close_ok_iff]; first [exact HR|apply HR].
Qed.

(** ** Attribute values *)
Definition read_value (a : spec_attr) : Prop :=
  match sa_type a, sa_value a with
  | AT_ENUMERATION, VList _ => In (Some "VALUES") (value_order a) /\ In (Some "DEFINITION") (value_order a)
  | AT_ENUMERATION, VStr _ => False
  | _, VStr _ => True
  | _, VList _ => False
  end.
Lemma parsed_xhtml_value n a : parse_xhtml_attribute_value n = Ok a -> sa_type a = AT_XHTML /\ read_value a.
Proof.
  unfold parse_xhtml_attribute_value. intros H. inv_ok H. destruct x2 as [v st]. inv_ok H. apply Ok_inj' in H. subst a. split; [reflexivity|exact I].
Qed.
Lemma parsed_value n a : parse_attribute_value n = Ok (Some a) -> read_value a.
Proof.
  unfold parse_attribute_value. intros H. destruct (is_comment n); [discriminate|].
  destruct (tag_is "ATTRIBUTE-VALUE-STRING" n); [inv_ok H; apply Ok_inj' in H; assert (a = SpecAttr AT_STRING x0 (VStr x) None (Some n)) by congruence; subst a; exact I|].
  destruct (tag_is "ATTRIBUTE-VALUE-ENUMERATION" n).
  { inv_ok H. destruct (find_child "VALUES" n) as [vs|] eqn:EV; [|discriminate]. apply Ok_inj' in H.
    assert (a = SpecAttr AT_ENUMERATION x (VList (map text (children vs))) None (Some n)) by congruence. subst a.
    unfold read_value, value_order. cbn [sa_type sa_value sa_xml_node order_of]. split; [apply (find_child_tag _ _ _ EV)|].
    unfold definition_ref_text in E. inv_ok E. apply find_req_ok in E0. apply (find_child_tag _ _ _ E0). }
  destruct (tag_is "ATTRIBUTE-VALUE-INTEGER" n); [|destruct (tag_is "ATTRIBUTE-VALUE-REAL" n); [|destruct (tag_is "ATTRIBUTE-VALUE-BOOLEAN" n);
    [|destruct (tag_is "ATTRIBUTE-VALUE-DATE" n); [|destruct (tag_is "ATTRIBUTE-VALUE-XHTML" n); [|discriminate]]]]];
    inv_ok H; apply Ok_inj' in H; assert (a = x) by congruence; subst a;
    try (unfold parse_simple_value in E; inv_ok E; apply Ok_inj' in E; subst x; exact I).
  apply parsed_xhtml_value in E. apply E.
Qed.
Lemma parsed_values n o : parse_attribute_values n = Ok o -> each read_value o.
Proof.
  unfold parse_attribute_values. intros H. destruct n as [n|]; [|apply Ok_inj' in H; subst o; exact I].
  inv_ok H. apply Ok_inj' in H. subst o. cbn [each]. apply mapM_Ok in E. induction E as [|k y l l' HE _ IH]; [constructor|].
  destruct y as [y|]; cbn [catSomes]; [constructor; [apply (parsed_value k y HE)|exact IH]|exact IH].
Qed.
Lemma printable_spelled_value V a : read_value a -> plain_value V a -> printable_value V (spell_value a).
Proof.
  unfold read_value, plain_value, printable_value, value_order. intros HR [H1 H2]. cbn [spell_value sa_type sa_definition_ref sa_value sa_xml_node].
  split; [apply spelled_ok, H1|]. destruct (sa_type a), (sa_value a) as [v|l]; try contradiction HR; try exact H2.
  split; [|exact HR]. apply Forall_forall. intros y Hy. apply in_map_iff in Hy. destruct Hy as (x & <- & Hx). rewrite Forall_forall in H2.
  apply spelled_ok, H2, Hx.
Qed.
Lemma index_of_In x l : In x l -> exists i, index_of x l = Some i.
Proof.
  induction l as [|y l IH]; intros H; [destruct H|]. cbn [index_of]. destruct (ostr_eqb_spec x y) as [_|N]; [eauto|].
  destruct H as [H|H]; [congruence|]. destruct (IH H) as (i & ->). cbn. eauto.
Qed.
Lemma read_value_written a : read_value a -> exists s, unparse_attribute_value a = Ok s.
Proof.
  unfold read_value, unparse_attribute_value, values_first_order, value_order. change tags_or with order_of. intros HR. destruct (sa_type a), (sa_value a); try contradiction HR; eauto.
  destruct HR as [H1 H2]. apply index_of_In in H1, H2. destruct H1 as (i & ->), H2 as (j & ->). cbn [bind]. eauto.
Qed.
Lemma read_values_written o : each read_value o -> exists s, unparse_attribute_values o = Ok s.
Proof.
  destruct o as [[|a l]|]; cbn [each unparse_attribute_values]; intros HR; eauto. rewrite bind_ok_iff, mapM_ok_iff.
  rewrite Forall_forall in *. intros x Hx. apply read_value_written, HR, Hx.
Qed.

(** ** Spec objects *)
Definition read_spec_object (o : spec_object) : Prop :=
  In (Some "TYPE") (so_order o) /\ Forall read_value (so_attributes o).
Lemma parsed_spec_object n o : parse_spec_object n = Ok o -> read_spec_object o.
Proof.
  unfold parse_spec_object. cbv zeta. intros H. inv_ok H. apply Ok_inj' in H. subst o. unfold read_spec_object, so_order.
  cbn [so_xml_node so_attributes order_of]. apply find_req_ok in E2. split; [apply (find_child_tag _ _ _ E2)|].
  apply parsed_values in E4. destruct x4; [exact E4|constructor].
Qed.
Lemma Forall_spelled {A B} (P R : A -> Prop) (Q : B -> Prop) (f : A -> B) l :
  (forall x, R x -> P x -> Q (f x)) -> Forall R l -> Forall P l -> Forall Q (map f l).
Proof. intros H HR HP. rewrite Forall_forall in *. intros y Hy. apply in_map_iff in Hy. destruct Hy as (x & <- & Hx). auto. Qed.
Lemma printable_spelled_spec_object V o :
  read_spec_object o -> plain_spec_object V o -> writable_spec_object o -> printable_spec_object V (spell_spec_object o).
Proof.
  intros (R1 & R2) (P1 & P2 & P3 & P4 & P5 & P6) HW. unfold printable_spec_object, writable_spec_object, so_order in *.
  cbn [spell_spec_object so_identifier so_spec_object_type so_description so_last_change so_long_name so_attributes so_xml_node].
  repeat split; auto using spelled_ok. apply (Forall_spelled (plain_value V) read_value); auto using printable_spelled_value.
Qed.
Lemma writable_iff_spec_object o : read_spec_object o ->
  ((exists s, unparse_spec_object o = Ok s) <-> writable_spec_object o).
Proof.
  intros (R1 & R2). unfold unparse_spec_object, writable_spec_object, so_order. cbv zeta. change tags_or with order_of.
  apply ostr_mem_In in R1. unfold so_order in R1. rewrite R1. rewrite <- ostr_mem_In.
  destruct (ostr_mem (Some "VALUES") (order_of (so_xml_node o) ["VALUES"; "TYPE"])) eqn:EV; cbn [py_assert bind].
  - split; [auto|]. intros _. rewrite bind_ok_iff, mapM_ok_iff. apply Forall_forall. intros t _. unfold unparse_so_child.
    destruct (ostr_eqb t (Some "VALUES")); [apply read_values_written, R2|]. destruct (ostr_eqb t (Some "TYPE")); eauto.
  - split; [intros (s & H); discriminate|discriminate].
Qed.

(** ** Spec relations *)
Definition read_spec_relation (r : spec_relation) : Prop :=
  (forall a, sr_values_attribute r = Some a ->
     read_value a /\ In (sa_type a) [AT_STRING; AT_XHTML; AT_INTEGER] /\ In (Some "VALUES") (sr_order r))
  /\ In (Some "TYPE") (sr_order r) /\ In (Some "SOURCE") (sr_order r) /\ In (Some "TARGET") (sr_order r).
Lemma parsed_relation_value n a : parse_relation_value n = Ok a -> read_value a /\ In (sa_type a) [AT_STRING; AT_XHTML; AT_INTEGER].
Proof.
  unfold parse_relation_value. intros H. destruct (tag_is "ATTRIBUTE-VALUE-STRING" n).
  { inv_ok H. apply Ok_inj' in H. subst a. cbn; auto. }
  destruct (tag_is "ATTRIBUTE-VALUE-XHTML" n).
  { apply parsed_xhtml_value in H. destruct H as [H1 H2]. rewrite H1. cbn; auto. }
  destruct (tag_is "ATTRIBUTE-VALUE-INTEGER" n); [|discriminate].
  inv_ok H. apply Ok_inj' in H. subst a. cbn; auto.
Qed.
Lemma parsed_spec_relation n r : parse_spec_relation n = Ok r -> read_spec_relation r.
Proof.
  unfold parse_spec_relation. cbv zeta. intros H. inv_ok H.
  destruct (negb (ostr_mem (Some "SOURCE") (child_tags n))); [discriminate|].
  destruct (negb (ostr_mem (Some "TARGET") (child_tags n))); [discriminate|]. inv_ok H.
  apply Ok_inj' in H. subst r. unfold read_spec_relation, sr_order. cbn [sr_values_attribute sr_xml_node order_of].
  apply find_req_ok in E2, E4, E6. split; [|split; [|split]]; [|eapply find_child_tag; eassumption..].
  intros a ->. destruct (find_child "VALUES" n) as [vs|] eqn:EV; [|discriminate].
  destruct (children vs) as [|v l]; [discriminate|]. inv_ok E8. apply Ok_inj' in E8. assert (x8 = a) by congruence. subst x8.
  apply parsed_relation_value in E9. destruct E9 as [R1 R2]. split; [exact R1|]. split; [exact R2|apply (find_child_tag _ _ _ EV)].
Qed.
Lemma printable_spelled_spec_relation V r :
  read_spec_relation r -> plain_spec_relation V r -> writable_spec_relation r -> printable_spec_relation V (spell_spec_relation r).
Proof.
  intros (R1 & R2 & R3 & R4) (P1 & P2 & P3 & P4 & P5 & P6 & P7 & P8) HW. unfold printable_spec_relation, writable_spec_relation, sr_order in *.
  cbn [spell_spec_relation sr_identifier sr_relation_type_ref sr_source sr_target sr_description sr_last_change sr_long_name sr_values_attribute sr_xml_node].
  split; [exact P1|]. split; [apply spelled_ok, P2|]. split; [apply spelled_ok, P3|]. split; [apply spelled_ok, P4|].
  split; [exact P5|]. split; [exact P6|]. split; [exact P7|]. split; [|auto].
  destruct (sr_values_attribute r) as [a0|]; cbn [option_map]; intros a Ha; [|discriminate].
  assert (a = spell_value a0) by congruence. subst a. destruct (R1 a0 eq_refl) as (Q1 & Q2 & Q3).
  split; [apply printable_spelled_value; auto|]. split; [exact Q2|exact Q3].
Qed.
Lemma writable_iff_spec_relation r : read_spec_relation r ->
  ((exists s, unparse_spec_relation r = Ok s) <-> writable_spec_relation r).
Proof.
  intros (R1 & R2 & R3 & R4). unfold unparse_spec_relation, writable_spec_relation. cbv zeta.
  change (tags_or (sr_xml_node r) ["TYPE"; "SOURCE"; "TARGET"; "VALUES"]) with (sr_order r).
  rewrite bind_ok_iff, mapM_ok_iff, !Forall_forall. split; intros H t Ht; specialize (H t Ht).
  - destruct H as (y & H). unfold unparse_sr_child in H.
    destruct (ostr_eqb_spec t (Some "TYPE")) as [->|N1]; [cbn; auto|].
    destruct (ostr_eqb_spec t (Some "SOURCE")) as [->|N2]; [cbn; auto|].
    destruct (ostr_eqb_spec t (Some "TARGET")) as [->|N3]; [cbn; auto|].
    destruct (ostr_eqb_spec t (Some "VALUES")) as [->|N4]; [cbn; auto|discriminate].
  - unfold unparse_sr_child. destruct (ostr_eqb_spec t (Some "TYPE")); [eauto|]. destruct (ostr_eqb_spec t (Some "SOURCE")); [eauto|].
    destruct (ostr_eqb_spec t (Some "TARGET")); [eauto|]. destruct (ostr_eqb_spec t (Some "VALUES")).
    + destruct (sr_values_attribute r) as [a|]; [|eauto]. apply read_values_written. cbn. constructor; [apply (R1 a eq_refl)|constructor].
    + cbn in H. exfalso. intuition congruence.
Qed.

(** ** Hierarchies *)
Lemma spell_hier_fields h :
  h_identifier (spell_hier h) = h_identifier h /\ h_spec_object (spell_hier h) = spelled (h_spec_object h)
  /\ h_long_name (spell_hier h) = h_long_name h /\ h_last_change (spell_hier h) = h_last_change h
  /\ h_level (spell_hier h) = h_level h /\ h_kids (spell_hier h) = map spell_hier (h_kids h).
Proof. destruct h as [i so lv [l|] ln o lc ed tb sc nd]; repeat split. Qed.
Lemma printable_spelled_hier h : plain_hier h -> printable_hier (spell_hier h).
Proof.
  induction h as [h IH] using hier_ind'. intros HP. apply printable_hier_eq.
  destruct (spell_hier_fields h) as (-> & -> & -> & -> & _ & ->). destruct (HP h (within_self h)) as (P1 & P2 & P3 & P4).
  split; [exact P1|]. split; [apply spelled_ok, P2|]. split; [exact P3|]. split; [exact P4|].
  rewrite Forall_forall in *. intros y Hy. apply in_map_iff in Hy. destruct Hy as (k & <- & Hk). apply IH; [exact Hk|].
  intros x Hx. apply HP, (within_kid h k x Hk Hx).
Qed.
Lemma leveled_spelled h : forall n, leveled n h -> leveled n (spell_hier h).
Proof.
  induction h as [h IH] using hier_ind'. intros n HL. apply leveled_eq in HL. apply leveled_eq.
  destruct (spell_hier_fields h) as (_ & _ & _ & _ & -> & ->). destruct HL as [H1 H2]. split; [exact H1|].
  rewrite Forall_forall in *. intros y Hy. apply in_map_iff in Hy. destruct Hy as (k & <- & Hk). auto.
Qed.
Lemma leveled_written h : forall n, leveled (S n) h -> exists s, unparse_hier h = Ok s.
Proof.
  induction h as [h IH] using hier_ind'. intros n HL. apply leveled_eq in HL. destruct HL as [H1 H2].
  destruct h as [i so lv ch ln o lc ed tb sc nd]. cbn [h_level h_kids h_children] in *. subst lv. cbn [unparse_hier base_level bind].
  rewrite bind_ok_iff. destruct ch as [l|]; [|eauto]. destruct (match l with [] => sc | _ => false end); [eauto|].
  rewrite bind_ok_iff, mapM_ok_iff. rewrite Forall_forall in *. intros k Hk. apply (IH k Hk (S n)), H2, Hk.
Qed.
Definition read_specification (s : specification) : Prop :=
  each read_value (sp_values s) /\ each (leveled 1) (sp_children s)
  /\ (sp_specification_type s <> None -> In (Some "TYPE") (sp_order s))
  /\ (sp_children s <> None -> In (Some "CHILDREN") (sp_order s))
  /\ (sp_values s <> None -> In (Some "VALUES") (sp_order s)).
Lemma last_child_tag t n k : last_child t n = Some k -> In (Some t) (child_tags n).
Proof.
  unfold last_child, find_list, child_tags, children. intros H. apply find_some in H. destruct H as [H1 H2]. apply in_rev in H1.
  apply in_map_iff. exists k. apply tag_is_eq in H2. split; [exact H2|]. apply filter_In. split; [exact H1|].
  destruct k; try discriminate H2; reflexivity.
Qed.
Lemma parsed_specification n s : parse_specification n = Ok s -> read_specification s.
Proof.
  intros H. pose proof (parse_specification_leveled _ _ H) as HL. unfold parse_specification in H. inv_ok H. apply Ok_inj' in H. subst s.
  unfold read_specification, sp_order. cbn [sp_values sp_children sp_specification_type sp_xml_node order_of] in *.
  split; [apply (parsed_values _ _ E3)|]. split; [destruct x2; [exact HL|exact I]|]. split; [|split].
  - unfold opt_ref. destruct (find_child "TYPE" n) eqn:EF; [intros _; apply (find_child_tag _ _ _ EF)|congruence].
  - destruct (last_child "CHILDREN" n) eqn:EF; [intros _; apply (last_child_tag _ _ _ EF)|congruence].
  - destruct (find_child "VALUES" n) eqn:EF; [intros _; apply (find_child_tag _ _ _ EF)|]. cbn in E3. congruence.
Qed.
Lemma map_list_none {A B} (f : A -> B) o : map_list f o <> None -> o <> None.
Proof. destruct o; [discriminate|auto]. Qed.
Lemma printable_spelled_specification V s :
  read_specification s -> plain_specification V s -> printable_specification V (spell_specification s).
Proof.
  intros (R1 & R2 & R3 & R4 & R5) (P1 & P2 & P3 & P4 & P5 & P6 & P7). unfold printable_specification, sp_order in *.
  cbn [spell_specification sp_identifier sp_description sp_last_change sp_long_name sp_specification_type sp_values sp_children sp_xml_node].
  repeat (split; [assumption|]). split; [|split; [|split; [|split; [|split]]]].
  - destruct (sp_values s) as [l|]; [|exact I]. cbn [each] in *. apply (Forall_spelled (plain_value V) read_value); auto using printable_spelled_value.
  - destruct (sp_children s) as [l|]; [|exact I]. cbn [each] in *. apply (Forall_spelled plain_hier (leveled 1)); auto using printable_spelled_hier.
  - destruct (sp_children s) as [l|]; [|exact I]. cbn [each] in *. apply (Forall_spelled plain_hier (leveled 1)); auto using leveled_spelled.
  - intros H. apply R3. intros E. rewrite E in H. apply H. reflexivity.
  - intros H. apply R4, (map_list_none _ _ H).
  - intros H. apply R5, (map_list_none _ _ H).
Qed.
Lemma read_specification_written s : read_specification s -> exists t, unparse_specification s = Ok t.
Proof.
  intros (R1 & R2 & _). unfold unparse_specification. cbv zeta. rewrite bind_ok_iff, mapM_ok_iff. apply Forall_forall. intros t _.
  unfold unparse_sp_child. destruct (ostr_eqb t (Some "TYPE")); [eauto|]. destruct (ostr_eqb t (Some "CHILDREN")).
  - destruct (sp_children s) as [l|]; [|eauto]. unfold unparse_specification_children. rewrite bind_ok_iff, mapM_ok_iff.
    cbn [each] in R2. rewrite Forall_forall in *. intros h Hh. apply (leveled_written h 0), R2, Hh.
  - destruct (ostr_eqb t (Some "VALUES")); [|eauto]. apply read_values_written, R1.
Qed.

(** ** Data types, groups, header *)
Lemma parsed_data_type_closed n c vs : parse_data_type n = Ok (DTEnumeration c vs) -> dt_is_self_closed c = true -> vs = None.
Proof.
  intros H HC. unfold parse_data_type in H. cbv zeta in H. inv_ok H.
  assert (G : tag_is "DATATYPE-DEFINITION-ENUMERATION" n = true -> vs = None).
  { intros ET. rewrite ET in H. destruct (find_child "SPECIFIED-VALUES" n) as [sv|] eqn:EF.
    - inv_ok H. apply Ok_inj' in H.
      assert (EC : c = DTC x1 (attr_opt "DESC" n) (attr_opt "LAST-CHANGE" n) (attr_opt "LONG-NAME" n) (is_self_closed_tag n)) by congruence.
      subst c. cbn [dt_is_self_closed] in HC. rewrite (self_closed_no_child _ _ HC) in EF. discriminate.
    - congruence. }
  destruct (tag_is "DATATYPE-DEFINITION-ENUMERATION" n); [auto|]. exfalso.
  repeat match type of H with (if ?b then _ else _) = _ => destruct b end; try discriminate; inv_ok H; discriminate.
Qed.
Lemma printable_parsed_data_type n d : parse_data_type n = Ok d -> plain_data_type d -> printable_data_type d.
Proof.
  intros H HP. destruct d; try exact HP. destruct HP as [P1 P2]. split; [exact P1|]. split; [exact P2|]. apply (parsed_data_type_closed _ _ _ H).
Qed.
Lemma printable_spelled_group g : plain_relation_group g -> printable_relation_group (spell_relation_group g).
Proof.
  intros (P1 & P2 & P3 & P4 & P5 & P6 & P7 & P8). unfold printable_relation_group.
  cbn [spell_relation_group rg_identifier rg_description rg_last_change rg_long_name rg_type_ref rg_source_specification_ref
       rg_target_specification_ref rg_spec_relations].
  repeat (split; [first [assumption|apply plain_given; assumption]|]).
  apply each_spelled with (P := plain_ref); auto using spelled_ok.
Qed.
Lemma parsed_header_identifier n h : parse_header n = Ok h -> exists s, hd_identifier h = Some s.
Proof.
  unfold parse_header. intros H. inv_ok H. destruct (find_child "REQ-IF-HEADER" n); [|discriminate]. inv_ok H. apply Ok_inj' in H. subst h.
  cbn [hd_identifier]. eauto.
Qed.
Lemma printable_read_header h : (exists s, hd_identifier h = Some s) -> plain_header h -> writable_header h -> printable_header h.
Proof.
  intros (s & HS) (P1 & P2) HW. unfold writable_header in HW. rewrite HS in *. split; [|exact P2]. exists s. rewrite HS.
  split; [reflexivity|]. split; [congruence|exact P1].
Qed.
Lemma writable_iff_header h : (exists s, hd_identifier h = Some s) -> ((exists s, unparse_header h = Ok s) <-> writable_header h).
Proof.
  intros (s & HS). unfold unparse_header, writable_header. rewrite HS. destruct s as [|c s].
  - split; [intros (x & H); discriminate|congruence].
  - split; [discriminate|eauto].
Qed.

(** ** Content and bundle *)
Record read_content (c : content) : Prop := {
  rd_dt : each (fun d => exists n, parse_data_type n = Ok d) (rc_data_types c);
  rd_st : each read_spec_type (rc_spec_types c);
  rd_so : each read_spec_object (rc_spec_objects c);
  rd_sr : each read_spec_relation (rc_spec_relations c);
  rd_sp : each read_specification (rc_specifications c) }.
Lemma mapM_each {A B} (f : A -> result B) (P : B -> Prop) l l' :
  (forall x y, f x = Ok y -> P y) -> mapM f l = Ok l' -> Forall P l'.
Proof. intros HP H. apply mapM_Ok in H. induction H; constructor; eauto. Qed.
Lemma mapM_each_some {A B} (f : A -> result (option B)) (P : B -> Prop) l l' :
  (forall x y, f x = Ok (Some y) -> P y) -> mapM f l = Ok l' -> Forall P (catSomes l').
Proof. intros HP H. apply mapM_Ok in H. induction H as [|x [y|] l l' Hxy _ IH]; cbn [catSomes]; [constructor|constructor; eauto|exact IH]. Qed.
Lemma lefts_each {A} (f : A -> result (spec_relation + exn)) (P : spec_relation -> Prop) l l' :
  (forall x y, f x = Ok (inl y) -> P y) -> mapM f l = Ok l' -> Forall P (lefts l').
Proof. intros HP H. apply mapM_Ok in H. induction H as [|x [y|y] l l' Hxy _ IH]; cbn; [constructor|constructor; eauto|exact IH]. Qed.
Lemma content_read n c lk xs : content_facts n c lk xs -> read_content c.
Proof.
  intros [_ H1 H2 H3 H4 H5 _ _]. unfold sec_facts in *. constructor.
  - destruct (find_child "DATATYPES" n); [|rewrite H1; exact I]. destruct H1 as (l & -> & E). eapply mapM_each; [|exact E]. eauto.
  - destruct (find_child "SPEC-TYPES" n); [|rewrite H2; exact I]. destruct H2 as (l & -> & ol & E & ->).
    eapply mapM_each_some; [|exact E]. apply parsed_spec_type.
  - destruct (find_child "SPEC-OBJECTS" n); [|rewrite H5; exact I]. destruct H5 as (l & -> & ol & E & ->).
    eapply mapM_each_some; [|exact E]. intros x y Hxy. unfold object_item in Hxy. destruct (is_comment x); [discriminate|]. inv_ok Hxy.
    apply Ok_inj' in Hxy. assert (x0 = y) by congruence. subst x0. apply (parsed_spec_object _ _ E0).
  - destruct H4 as (ol & H4 & _). destruct (find_child "SPEC-RELATIONS" n).
    + destruct H4 as [-> E]. eapply lefts_each; [|exact E]. intros x y Hxy. unfold relation_item in Hxy.
      destruct (parse_spec_relation x) as [r|e] eqn:ER.
      * assert (r = y) by congruence. subst r. apply (parsed_spec_relation _ _ ER).
      * destruct e; try discriminate. inv_ok Hxy. discriminate.
    + destruct H4 as [-> _]. exact I.
  - destruct (find_child "SPECIFICATIONS" n); [|rewrite H3; exact I]. destruct H3 as (l & -> & E). eapply mapM_each; [|exact E]. apply parsed_specification.
Qed.
Lemma printable_spelled_content D V c :
  read_content c -> plain_content D V c -> writable_content c -> printable_content V D (spell_content c).
Proof.
  intros [R1 R2 R3 R4 R5] (P1 & P2 & P3 & P4 & P5 & P6) (W1 & W2 & W3). unfold printable_content, spell_content, map_content.
  cbn [rc_data_types rc_spec_types rc_spec_objects rc_spec_relations rc_specifications rc_spec_relation_groups].
  apply each_items in P1, P2, P3, P4, P5, P6, R1, R2, R3, R4, R5.
  rewrite !each_items, !items_map_list. rewrite !Forall_forall in *.
  split; [|split; [|split; [|split; [|split]]]]; intros y Hy; apply in_map_iff in Hy; destruct Hy as (x & <- & Hx).
  - destruct (R1 x Hx) as (n & Hn). apply (printable_parsed_data_type n); auto.
  - apply printable_spelled_spec_type; auto. apply Forall_forall. intros a Ha. apply W1. apply in_flat_map. eauto.
  - apply printable_spelled_spec_object; auto.
  - apply printable_spelled_spec_relation; auto.
  - apply printable_spelled_specification; auto.
  - apply printable_spelled_group; auto.
Qed.
Lemma section_ok_iff {A} t (f : A -> result str) o :
  (exists s, pure_unparse_section t f o = Ok s) <-> Forall (fun x => exists s, f x = Ok s) (items o).
Proof.
  destruct o as [l|]; cbn [pure_unparse_section items]; [|split; [constructor|eauto]]. rewrite bind_ok_iff. apply mapM_ok_iff.
Qed.
Lemma writable_iff_content c : read_content c -> ((exists s, pure_unparse_content c = Ok s) <-> writable_content c).
Proof.
  intros [R1 R2 R3 R4 R5]. unfold writable_content.
  assert (S1 : exists s, pure_unparse_section "DATATYPES" (fun d => Ok (unparse_data_type d)) (rc_data_types c) = Ok s).
  { apply section_ok_iff, Forall_forall. eauto. }
  assert (S2 : (exists s, pure_unparse_section "SPEC-TYPES" unparse_spec_type (rc_spec_types c) = Ok s)
               <-> Forall writable_attr_def (flat_map type_definitions (items (rc_spec_types c)))).
  { rewrite section_ok_iff. rewrite each_items in R2. rewrite !Forall_forall in *. split.
    - intros H a Ha. apply in_flat_map in Ha. destruct Ha as (t & Ht & Ha). pose proof (proj1 (writable_iff_spec_type t (R2 t Ht)) (H t Ht)) as HW.
      rewrite Forall_forall in HW. apply HW, Ha.
    - intros H t Ht. apply (writable_iff_spec_type t (R2 t Ht)), Forall_forall. intros a Ha. apply H, in_flat_map. eauto. }
  assert (S3 : (exists s, pure_unparse_section "SPEC-OBJECTS" unparse_spec_object (rc_spec_objects c) = Ok s)
               <-> Forall writable_spec_object (items (rc_spec_objects c))).
  { rewrite section_ok_iff. rewrite each_items in R3. rewrite !Forall_forall in *. split; intros H o Ho; apply writable_iff_spec_object; auto. }
  assert (S4 : (exists s, pure_unparse_section "SPEC-RELATIONS" unparse_spec_relation (rc_spec_relations c) = Ok s)
               <-> Forall writable_spec_relation (items (rc_spec_relations c))).
  { rewrite section_ok_iff. rewrite each_items in R4. rewrite !Forall_forall in *. split; intros H o Ho; apply writable_iff_spec_relation; auto. }
  assert (S5 : exists s, pure_unparse_section "SPECIFICATIONS" unparse_specification (rc_specifications c) = Ok s).
  { apply section_ok_iff. rewrite each_items in R5. rewrite Forall_forall in *. intros s Hs. apply read_specification_written, R5, Hs. }
  assert (S6 : exists s, pure_unparse_section "SPEC-RELATION-GROUPS" (fun g => Ok (unparse_relation_group g)) (rc_spec_relation_groups c) = Ok s).
  { apply section_ok_iff, Forall_forall. eauto. }
  unfold pure_unparse_content. destruct S1 as (s1 & ->), S5 as (s5 & ->), S6 as (s6 & ->). cbn [bind]. rewrite <- S2, <- S3, <- S4.
  repeat match goal with |- context [pure_unparse_section ?t ?f ?o] => destruct (pure_unparse_section t f o); cbn [bind] end;
    (split; [intros (y & Hy)|intros (Q2 & Q3 & Q4)]); try discriminate; try solve [repeat split; eauto];
    try (destruct Q2; discriminate); try (destruct Q3; discriminate); try (destruct Q4; discriminate).
Qed.
Definition read_bundle (b : bundle) : Prop :=
  (forall h, b_header b = Some h -> exists s, hd_identifier h = Some s)
  /\ (forall c, b_core_content b = Some (Some c) -> read_content c)
  /\ (ni_dump (b_namespace_info b) <> None
      \/ exists namespace configuration, b = bundle_empty namespace configuration).
Lemma parsed_bundle s b : parse_string s = Ok b -> read_bundle b.
Proof.
  intros H. pose proof (parse_string_content _ _ H) as HC. rewrite (proj2 (string_traced s)) in H. unfold pure_string in H.
  split; [|split].
  - intros h Hh. destruct s as [|x s]; [discriminate|]. destruct (lxml_parse (x :: s)) as [[decl root]|]; [|discriminate].
    unfold pure_reqif in H. destruct (strip_if_namespaced root) as [r|e]; [|discriminate]. cbn [bind] in H.
    destruct (tag_is "REQ-IF" r); [|discriminate]. cbn [negb] in H. destruct (children r) as [|k0 ks].
    { apply Ok_inj' in H. subst b. discriminate Hh. }
    destruct (find_child "THE-HEADER" r) as [hn|]; cbn [bind] in H.
    + destruct (parse_header hn) as [h0|e] eqn:EH; [|discriminate]. cbn [bind] in H.
      assert (h0 = h); [|subst h0; apply (parsed_header_identifier _ _ EH)].
      destruct (find_child "CORE-CONTENT" r) as [cc|]; [destruct (find_child "REQ-IF-CONTENT" cc) as [rc|]; [destruct (pure_content rc) as [[[ct lk] xs]|e]; [|discriminate]|]|];
        cbn [bind] in H; apply Ok_inj' in H; subst b; cbn [b_header] in Hh; congruence.
    + exfalso. destruct (find_child "CORE-CONTENT" r) as [cc|]; [destruct (find_child "REQ-IF-CONTENT" cc) as [rc|]; [destruct (pure_content rc) as [[[ct lk] xs]|e]; [|discriminate]|]|];
        cbn [bind] in H; apply Ok_inj' in H; subst b; cbn [b_header] in Hh; congruence.
  - intros c Hc. destruct (document_content s) as [rc|].
    + destruct HC as (c' & E & F). assert (c' = c) by congruence. subst c'. apply (content_read _ _ _ _ F).
    + destruct HC as ([E|E] & _); congruence.
  - destruct s as [|x s]; [discriminate|]. destruct (lxml_parse (x :: s)) as [[decl root]|]; [|discriminate].
    unfold pure_reqif in H. destruct (strip_if_namespaced root) as [r|e]; [|discriminate]. cbn [bind] in H.
    destruct (tag_is "REQ-IF" r); [|discriminate]. cbn [negb] in H. destruct (children r) as [|k0 ks].
    { apply Ok_inj' in H. subst b. right. eauto. }
    left. match type of H with bind ?r _ = _ => destruct r as [hd|]; [|discriminate] end. cbn [bind] in H.
    destruct (find_child "CORE-CONTENT" r) as [cc|]; [destruct (find_child "REQ-IF-CONTENT" cc) as [rc|]; [destruct (pure_content rc) as [[[ct lk] xs]|e]; [|discriminate]|]|];
        cbn [bind] in H; apply Ok_inj' in H; subst b; discriminate.
Qed.
Lemma writable_iff_bundle b : read_bundle b -> ((exists s, unparse_string b = Ok s) <-> writable_bundle b).
Proof.
  intros (R1 & R2 & R3). rewrite (proj2 (unparse_traced b)). unfold pure_unparse, writable_bundle.
  assert (N : (exists s, unparse_namespace_info (b_namespace_info b) = Ok s) <->
    (ni_dump (b_namespace_info b) <> None \/ ni_namespace (b_namespace_info b) <> None \/ ni_configuration (b_namespace_info b) <> None)).
  { unfold unparse_namespace_info. destruct (ni_dump (b_namespace_info b)) as [d|] eqn:ED.
    - split; [intros _; left; discriminate|eauto].
    - destruct R3 as [R3|(ns & cf & ->)]; [congruence|]. cbn [bundle_empty b_namespace_info namespace_info_empty ni_namespace ni_configuration
        ni_namespace_id ni_namespace_xhtml ni_schema_namespace ni_schema_location ni_language component app].
      destruct ns as [ns|], cf as [cf|]; cbn [component app]; (split; [intros (y & H)|intros H]); eauto; try discriminate;
        try (right; left; discriminate); try (right; right; discriminate); exfalso; intuition congruence. }
  assert (HH : (exists s, match b_header b with None => Ok [] | Some h => unparse_header h end = Ok s) <->
               (forall h, b_header b = Some h -> writable_header h)).
  { destruct (b_header b) as [h|]; [|split; [discriminate|eauto]]. rewrite (writable_iff_header h) by (apply R1; reflexivity).
    split; [intros H h' E; congruence|intros H; apply H; reflexivity]. }
  assert (HC : (exists s, match b_core_content b with
               | None => Ok []
               | Some oc =>
                   let! s := match oc with None => Ok [] | Some c => pure_unparse_content c end in
                   Ok (("  <CORE-CONTENT>" ++ nl) ++ s ++ "  </CORE-CONTENT>" ++ nl)
               end = Ok s) <-> (forall c, b_core_content b = Some (Some c) -> writable_content c)).
  { destruct (b_core_content b) as [[c|]|]; [|split; [discriminate|cbn [bind]; eauto]..]. rewrite bind_ok_iff.
    rewrite (writable_iff_content c) by (apply R2; reflexivity). split; [intros H c' E; congruence|intros H; apply H; reflexivity]. }
  rewrite <- N, <- HH, <- HC.
  destruct (unparse_namespace_info (b_namespace_info b)); cbn [bind].
  2:{ split; [intros (y & H); discriminate|intros ((y & H) & _); discriminate]. }
  match goal with |- context [bind ?r _] => destruct r end; cbn [bind].
  2:{ split; [intros (y & H); discriminate|intros (_ & (y & H) & _); discriminate]. }
  match goal with |- context [bind ?r (fun core => Ok (_ ++ _ ++ _ ++ core ++ _))] => destruct r end; cbn [bind].
  2:{ split; [intros (y & H); discriminate|intros (_ & _ & (y & H)); discriminate]. }
  split; eauto 8.
Qed.
Lemma printable_spelled_bundle r p u b :
  read_bundle b -> plain_bundle r p u b -> writable_bundle b -> printable_bundle r p u (spell_bundle b).
Proof.
  intros (R1 & R2 & _) (P1 & P2 & P3 & P4 & P5 & P6 & P7 & P8 & P9) (_ & W2 & W3). unfold printable_bundle. rewrite sx_markup.
  cbn [spell_bundle b_namespace_info b_header b_core_content b_tool_extensions].
  split; [exact P1|]. split; [unfold writes_root; rewrite P2; reflexivity|]. split; [exact P3|]. split; [exact P4|]. split; [exact P5|].
  split; [exact P6|]. split; [intros h Hh; apply printable_read_header; auto|]. split.
  - intros c Hc. destruct (b_core_content b) as [[c0|]|]; try discriminate. cbn [option_map] in Hc.
    assert (c = spell_content c0) by congruence. subst c. apply printable_spelled_content; auto.
  - destruct P9 as [H|[H|H]]; auto. right; left. destruct (b_core_content b) as [[c0|]|]; [discriminate..|congruence].
Qed.
