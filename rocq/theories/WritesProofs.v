(** WritesProofs.v -- which documents can be written, read off the XML tree *)
From Verif Require Import Base Xml Lxml Py LxmlStr Models AttrDef AttrValue SpecTypes SpecObj Header Parser SpecPrint SpecDocument SpecParse SpecSettle SpecConventional
  DictProofs ProgressProofs FaithProofs ParserProofs IsolationProofs SettleProofs.

Lemma in_child_tags t n : In (Some t) (child_tags n) <-> find_child t n <> None.
Proof.
  split.
  - intros H E. unfold child_tags, children in H. apply in_map_iff in H. destruct H as (k & HT & HK). apply filter_In in HK.
    unfold find_child, find_list in E. pose proof (List.find_none _ _ E k (proj1 HK)) as F. unfold tag_is in F. rewrite HT in F.
    rewrite (proj2 (str_eqb_eq t t) eq_refl) in F. discriminate.
  - intros H. destruct (find_child t n) as [k|] eqn:E; [|congruence]. apply (find_child_tag _ _ _ E).
Qed.
Lemma Forall2_iff {A B} (P : A -> Prop) (Q : B -> Prop) l l' :
  Forall2 (fun x y => P x <-> Q y) l l' -> (Forall P l <-> Forall Q l').
Proof. induction 1 as [|x y l l' H _ IH]; [split; constructor|]. rewrite !Forall_cons_iff. tauto. Qed.
Lemma each_section {B} t rc ks (P : node -> Prop) (f : node -> bool) (Q : B -> Prop) l : section_items t rc = Some ks ->
  Forall2 (fun x y => P x <-> Q y) (filter f ks) l -> every t (fun x => f x = true -> P x) rc <-> Forall Q l.
Proof.
  intros HS H. apply Forall2_iff in H. rewrite <- H. unfold every. rewrite HS. split.
  - intros HE. apply Forall_forall. intros x HX. apply filter_In in HX. apply (HE ks x eq_refl); apply HX.
  - intros HF ks' k E HI Hk. injection E as <-. rewrite Forall_forall in HF. apply HF, filter_In. auto.
Qed.
(** ** Definitions *)
Lemma definition_iff n a : parse_attribute_definition n = Ok a -> definition_writes n <-> writable_attr_def a.
Proof.
  intros H. pose proof (attr_def_faithful _ _ H) as (HT & _ & _ & _ & HD & _).
  assert (EO : ad_order a = child_tags n).
  { revert H. unfold parse_attribute_definition. cbv zeta. intros H. inv_ok H.
    destruct (attr_type_of_def_tag (tag n)) as [t|]; [|discriminate]. inv_ok H. destruct x1 as [ref dv]. cbn [bind] in H.
    apply Ok_inj' in H. subst a. reflexivity. }
  unfold definition_writes, writable_attr_def. rewrite EO. clear H EO.
  assert (EF : Forall (fun k => tag k = Some "DEFAULT-VALUE" \/ tag k = Some "TYPE") (children n)
    <-> Forall (fun t => t = Some ("DEFAULT-VALUE" : str) \/ t = Some ("TYPE" : str)) (child_tags n)).
  { unfold child_tags. rewrite Forall_map. reflexivity. }
  rewrite EF. clear EF.
  assert (E2 : (forall t v, In t ["BOOLEAN"; "ENUMERATION"; "XHTML"] -> tag n = Some ("ATTRIBUTE-DEFINITION-" ++ t) ->
        path_node ["DEFAULT-VALUE"; "ATTRIBUTE-VALUE-" ++ t] n = Some v ->
        (t = "ENUMERATION" -> path_text ["VALUES"; "ENUM-VALUE-REF"] v <> None) ->
        path_text ["DEFINITION"; "ATTRIBUTE-DEFINITION-" ++ t ++ "-REF"] v <> None)
    <-> (forall v, ad_default_value a = DVStr v -> In (ad_type a) [AT_BOOLEAN; AT_ENUMERATION; AT_XHTML] -> ad_default_value_definition_ref a <> None)).
  { assert (TI : forall t, tag n = Some ("ATTRIBUTE-DEFINITION-" ++ t) -> t = at_name (ad_type a)).
    { intros t E. rewrite HT in E. assert (E' : ("ATTRIBUTE-DEFINITION-" : str) ++ t = "ATTRIBUTE-DEFINITION-" ++ at_name (ad_type a)) by congruence. apply app_inv_head in E'. exact E'. }
    unfold default_of in HD. destruct (find_child "DEFAULT-VALUE" n) as [d|] eqn:ED.
    2: { destruct HD as [E1 _]. split; [intros _ v E; congruence|]. intros _ t v _ _ HP. cbn [path_node] in HP. rewrite ED in HP. discriminate. }
    destruct HD as [((EC & _) & E1 & _)|(v & HV & HX & HR)].
    { split; [intros _ w E; congruence|]. intros _ t w _ _ HP. cbn [path_node] in HP. rewrite ED in HP.
      destruct (find_child ("ATTRIBUTE-VALUE-" ++ t) d) as [k|] eqn:EK; [|discriminate]. exfalso. apply (find_child_children _ _ _ EK EC). }
    split.
    - intros HA w HW HI. rewrite HR.
      assert (PN : path_node ["DEFAULT-VALUE"; "ATTRIBUTE-VALUE-" ++ at_name (ad_type a)] n = Some v) by (cbn [path_node]; rewrite ED, HV; reflexivity).
      specialize (HA (at_name (ad_type a)) v). destruct (ad_type a); cbn in HI; try (exfalso; intuition discriminate).
      + apply HA; [cbn; tauto|exact HT|exact PN|]. intros _. destruct (path_text ["VALUES"; "ENUM-VALUE-REF"] v); [discriminate|congruence].
      + apply HA; [cbn; tauto|exact HT|exact PN|discriminate].
      + apply HA; [cbn; tauto|exact HT|exact PN|discriminate].
    - intros HA t w HI HT' HP HE. pose proof (TI t HT'). subst t. cbn [path_node] in HP. rewrite ED, HV in HP. injection HP as ->.
      destruct (ad_type a) eqn:EA; try (exfalso; cbn in HI; intuition discriminate).
      + specialize (HE eq_refl). destruct (path_text ["VALUES"; "ENUM-VALUE-REF"] w) as [s|]; [|congruence]. rewrite <- HR. apply (HA s HX). cbn. tauto.
      + destruct HX as (s & _ & HX). rewrite <- HR. apply (HA s HX). cbn. tauto.
      + destruct HX as (s & tv & HX & _). rewrite <- HR. apply (HA s HX). cbn. tauto. }
  rewrite E2. reflexivity.
Qed.
Lemma definitions_iff n o : parse_attribute_definitions n = Ok o -> every "SPEC-ATTRIBUTES" definition_writes n <-> Forall writable_attr_def (items o).
Proof.
  unfold parse_attribute_definitions, every, section_items. intros H. destruct (find_child "SPEC-ATTRIBUTES" n) as [sa|] eqn:E.
  2: { apply Ok_inj' in H. subst o. split; [constructor|]. intros _ ks k EK. discriminate. }
  inv_ok H. apply Ok_inj' in H. subst o. cbn [items option_map]. apply mapM_Ok in E0.
  assert (EI : Forall2 (fun k y => definition_writes k <-> writable_attr_def y) (children sa) x).
  { clear E. induction E0 as [|k y l l' HE _ IH]; constructor; [apply definition_iff, HE|exact IH]. }
  apply Forall2_iff in EI. rewrite <- EI, Forall_forall. split; [intros HA k HK; apply (HA _ k eq_refl HK)|intros HA ks k EK HK; injection EK as <-; apply HA, HK].
Qed.
Lemma type_iff n t : parse_spec_type n = Ok (Some t) -> every "SPEC-ATTRIBUTES" definition_writes n <-> Forall writable_attr_def (type_definitions t).
Proof.
  unfold parse_spec_type. intros H.
  destruct (tag_is "SPEC-OBJECT-TYPE" n); [|destruct (tag_is "SPEC-RELATION-TYPE" n);
    [|destruct (tag_is "SPECIFICATION-TYPE" n); [|destruct (tag_is "RELATION-GROUP-TYPE" n);
    [|destruct (is_comment n); discriminate]]]]; inv_ok H; apply Ok_inj' in H.
  - assert (t = STObject x) by congruence. subst t. unfold parse_spec_object_type in E. inv_ok E. apply Ok_inj' in E. subst x. apply definitions_iff, E2.
  - assert (t = STRelation x) by congruence. subst t. unfold parse_spec_relation_type in E. inv_ok E. apply Ok_inj' in E. subst x. apply definitions_iff, E3.
  - assert (t = STSpecification x) by congruence. subst t. unfold parse_specification_type in E. inv_ok E. apply Ok_inj' in E. subst x. apply definitions_iff, E3.
  - assert (t = STGroup x) by congruence. subst t. unfold parse_relation_group_type in E. inv_ok E. apply Ok_inj' in E. subst x. apply definitions_iff, E2.
Qed.
Lemma object_iff n o : object_item n = Ok (Some o) -> object_writes n <-> writable_spec_object o.
Proof.
  unfold object_item. destruct (is_comment n); [discriminate|]. intros H. inv_ok H. assert (x = o) by congruence. subst x. clear H.
  assert (EO : so_order o = child_tags n).
  { revert E. unfold parse_spec_object. cbv zeta. intros H. inv_ok H. apply Ok_inj' in H. subst o. reflexivity. }
  unfold object_writes, writable_spec_object. rewrite EO, in_child_tags. reflexivity.
Qed.
Lemma relation_iff n x : parse_spec_relation n = Ok x -> relation_writes n <-> writable_spec_relation x.
Proof.
  intros H. assert (EO : sr_order x = child_tags n).
  { revert H. unfold parse_spec_relation. cbv zeta. intros H. inv_ok H.
    destruct (negb (ostr_mem (Some "SOURCE") (child_tags n))); [discriminate|].
    destruct (negb (ostr_mem (Some "TARGET") (child_tags n))); [discriminate|]. inv_ok H. apply Ok_inj' in H. subst x. reflexivity. }
  unfold relation_writes, writable_spec_relation. rewrite EO. unfold child_tags. rewrite Forall_map. reflexivity.
Qed.
(** ** Content *)
Lemma content_iff rc c lk xs : content_facts rc c lk xs ->
  (every "SPEC-TYPES" (every "SPEC-ATTRIBUTES" definition_writes) rc
   /\ every "SPEC-OBJECTS" (fun o => is_comment o = false -> object_writes o) rc
   /\ every "SPEC-RELATIONS" (fun x => incomplete x = false -> relation_writes x) rc) <-> writable_content c.
Proof.
  intros [_ _ H2 _ H4 H5 _ _]. unfold sec_facts in *. unfold writable_content.
  assert (I1 : every "SPEC-TYPES" (every "SPEC-ATTRIBUTES" definition_writes) rc <-> Forall writable_attr_def (flat_map type_definitions (items (rc_spec_types c)))).
  { rewrite Forall_flat_map. destruct (find_child "SPEC-TYPES" rc) as [x|] eqn:E.
    2: { rewrite H2. split; [constructor|]. unfold every, section_items. rewrite E. intros _ ks k EK. discriminate. }
    destruct H2 as (l & -> & ol & HM & ->). cbn [items].
    assert (ES : section_items "SPEC-TYPES" rc = Some (children x)) by (unfold section_items; rewrite E; reflexivity).
    assert (EF : Forall2 (fun k y => every "SPEC-ATTRIBUTES" definition_writes k <-> Forall writable_attr_def (type_definitions y)) (filter (fun k => negb (is_comment k)) (children x)) (catSomes ol)).
    { eapply catSomes_Forall2; [apply spec_type_none| |exact HM]. intros k y HK. split; [apply (spec_type_faithful _ _ HK)|apply type_iff, HK]. }
    rewrite <- (each_section _ _ _ _ _ _ _ ES EF). unfold every at 1 3. split; intros HA ks k EK HI.
    - intros _. apply (HA ks k EK HI).
    - destruct (is_comment k) eqn:EC; [|apply (HA ks k EK HI); rewrite EC; reflexivity]. destruct k; discriminate. }
  assert (I2 : every "SPEC-OBJECTS" (fun o => is_comment o = false -> object_writes o) rc <-> Forall writable_spec_object (items (rc_spec_objects c))).
  { destruct (find_child "SPEC-OBJECTS" rc) as [x|] eqn:E.
    2: { rewrite H5. split; [constructor|]. unfold every, section_items. rewrite E. intros _ ks k EK. discriminate. }
    destruct H5 as (l & -> & ol & HM & ->). cbn [items].
    assert (ES : section_items "SPEC-OBJECTS" rc = Some (children x)) by (unfold section_items; rewrite E; reflexivity).
    assert (EF : Forall2 (fun k y => object_writes k <-> writable_spec_object y) (filter (fun k => negb (is_comment k)) (children x)) (catSomes ol)).
    { eapply catSomes_Forall2; [apply object_item_none| |exact HM]. intros k y HK. split; [apply (object_item_faithful _ _ HK)|apply object_iff, HK]. }
    rewrite <- (each_section _ _ _ _ _ _ _ ES EF). unfold every. split; intros HA ks k EK HI HC; apply (HA ks k EK HI); destruct (is_comment k); try discriminate; reflexivity. }
  assert (I3 : every "SPEC-RELATIONS" (fun x => incomplete x = false -> relation_writes x) rc <-> Forall writable_spec_relation (items (rc_spec_relations c))).
  { destruct H4 as (ol & H4 & _). destruct (find_child "SPEC-RELATIONS" rc) as [x|] eqn:E.
    2: { destruct H4 as [-> _]. split; [constructor|]. unfold every, section_items. rewrite E. intros _ ks k EK. discriminate. }
    destruct H4 as [-> HM]. cbn [items].
    assert (ES : section_items "SPEC-RELATIONS" rc = Some (children x)) by (unfold section_items; rewrite E; reflexivity).
    assert (EF : Forall2 (fun k y => relation_writes k <-> writable_spec_relation y) (filter (fun k => negb (incomplete k)) (children x)) (lefts ol)).
    { apply mapM_Ok in HM. clear -HM. induction HM as [|n y ks l H _ IH]; [constructor|]. cbn [filter]. unfold incomplete at 1. destruct (faulty n) eqn:F.
      - destruct (faulty_item n F) as (z & E & R). rewrite E in H. injection H as <-. unfold report in R. destruct (lacks n); [|discriminate]. exact IH.
      - destruct (sound_item n y F H) as [q ->]. apply inl_item in H. destruct (spec_relation_faithful _ _ H) as [L _]. rewrite L. cbn [negb lefts].
        constructor; [apply relation_iff, H|exact IH]. }
    rewrite <- (each_section _ _ _ _ _ _ _ ES EF). unfold every. split; intros HA ks k EK HI HC; apply (HA ks k EK HI); destruct (incomplete k); try discriminate; reflexivity. }
  rewrite I1, I2, I3. reflexivity.
Qed.
