(** WriteFailureProofs.v -- which exception each writer raises *)
From Verif Require Import Base Xml Utf8 Lxml Py LxmlStr Models AttrDef DataType Header AttrValue SpecObj
  Hierarchy SpecTypes Progress Parser Unparser SpecTraversal SpecProgress SpecAccept SpecFailure SpecWriteFailure
  DictProofs ProgressProofs TraversalProofs FailureProofs.

Lemma layout_eq n usual : tags_or n usual = layout n usual. Proof. destruct n; reflexivity. Qed.
Lemma str_eqb_swap a b : str_eqb a b = str_eqb b a.
Proof. destruct (str_eqb_spec a b), (str_eqb_spec b a); congruence. Qed.
Lemma is_tag_eq t o : ostr_eqb o (Some t) = is_tag t o. Proof. destruct o; reflexivity. Qed.
Lemma is_tag_eq' t o : ostr_eqb (Some t) o = is_tag t o. Proof. destruct o as [x|]; [|reflexivity]. apply str_eqb_swap. Qed.
Lemma is_tag_other t u o : is_tag t o = true -> str_eqb t u = false -> is_tag u o = false.
Proof. destruct o as [x|]; [|discriminate]. cbn [is_tag]. destruct (str_eqb_spec x t) as [->|]; [tauto|discriminate]. Qed.
Lemma laid_out_eq t l : ostr_mem (Some t) l = laid_out t l.
Proof. unfold ostr_mem, laid_out. induction l as [|o l IH]; [reflexivity|]. cbn [existsb]. rewrite IH, is_tag_eq'. reflexivity. Qed.
Lemma index_laid_out t l : present (index_of (Some t) l) = laid_out t l.
Proof.
  unfold laid_out. induction l as [|o l IH]; [reflexivity|]. cbn [index_of existsb]. rewrite is_tag_eq'.
  destruct (is_tag t o); [reflexivity|]. rewrite <- IH. destruct (index_of (Some t) l); reflexivity.
Qed.

Lemma namespace_write i : failure (unparse_namespace_info i) = first_unmet (namespace_writing i).
Proof.
  unfold unparse_namespace_info, namespace_writing. rewrite unmet_single.
  destruct (ni_dump i); [reflexivity|].
  destruct (ni_namespace i), (ni_schema_namespace i), (ni_configuration i), (ni_namespace_id i), (ni_namespace_xhtml i),
    (ni_schema_location i), (ni_language i); reflexivity.
Qed.
Lemma header_write h : failure (unparse_header h) = first_unmet (header_writing h).
Proof. unfold unparse_header, header_writing. destruct (hd_identifier h) as [[|c s]|]; reflexivity. Qed.
Lemma default_write a : failure (unparse_attribute_default_value a) = first_unmet (default_writing a).
Proof.
  unfold unparse_attribute_default_value, default_writing. destruct (ad_default_value a) as [| |v]; try reflexivity.
  unfold unparse_default_str, names_definition.
  destruct (ad_type a); try reflexivity; destruct (ad_default_value_definition_ref a); reflexivity.
Qed.
Lemma attr_def_write a : failure (unparse_attribute_definition a) = first_unmet (attr_def_writing a).
Proof.
  unfold unparse_attribute_definition, attr_def_writing. rewrite layout_eq. apply failure_then_mapM. intros t _.
  unfold unparse_ad_child. rewrite !is_tag_eq. destruct (is_tag "DEFAULT-VALUE" t); [apply default_write|].
  destruct (is_tag "TYPE" t); reflexivity.
Qed.
Lemma block_write ads : failure (spec_attributes_block ads) = first_unmet (flat_map attr_def_writing (match ads with Some l => l | None => [] end)).
Proof.
  unfold spec_attributes_block. destruct ads as [l|]; [|reflexivity]. rewrite failure_then. unfold unparse_attribute_definitions.
  apply failure_then_mapM. intros a _. apply attr_def_write.
Qed.
Lemma close_write sc ads t : failure (close_type sc ads t) = first_unmet (flat_map attr_def_writing (match ads with Some l => l | None => [] end)).
Proof.
  unfold close_type. destruct (sc && negb (has_attributes ads)) eqn:E.
  - apply andb_true_iff in E. destruct E as [_ E]. destruct ads as [[|a l]|]; try reflexivity. discriminate E.
  - rewrite failure_then. apply block_write.
Qed.
Lemma spec_type_write t : failure (unparse_spec_type t) = first_unmet (spec_type_writing t).
Proof.
  unfold spec_type_writing, attributes_of_type. destruct t as [t|t|t|t]; cbn [unparse_spec_type].
  - unfold unparse_spec_object_type. rewrite failure_then. apply block_write.
  - unfold unparse_spec_relation_type. rewrite failure_then. apply close_write.
  - unfold unparse_specification_type. rewrite failure_then. apply close_write.
  - unfold unparse_relation_group_type. rewrite failure_then. apply close_write.
Qed.
Lemma attr_value_write a : failure (unparse_attribute_value a) = first_unmet (attr_value_writing a).
Proof.
  unfold unparse_attribute_value, attr_value_writing.
  destruct (sa_type a); try (destruct (sa_value a); reflexivity).
  unfold values_first_order. rewrite layout_eq. rewrite <- !index_laid_out.
  destruct (index_of (Some "VALUES") _); [|reflexivity]. destruct (index_of (Some "DEFINITION") _); [|reflexivity].
  cbn [bind present first_unmet]. destruct (sa_value a); reflexivity.
Qed.
Lemma attr_values_write l : failure (unparse_attribute_values (Some l)) = first_unmet (flat_map attr_value_writing l).
Proof.
  destruct l as [|a l]; [reflexivity|]. unfold unparse_attribute_values. apply failure_then_mapM. intros x _. apply attr_value_write.
Qed.
Lemma unmet_repeat {A} (g : A -> list requirement) (r : list requirement) l (p : A -> bool) :
  (forall x, In x l -> g x = if p x then r else []) ->
  existsb p l = true -> first_unmet (flat_map g l) = first_unmet r.
Proof.
  assert (N : first_unmet r = None -> forall l, (forall x, In x l -> g x = if p x then r else []) -> first_unmet (flat_map g l) = None).
  { intros N l'. induction l' as [|x l' IH]; intros H; [reflexivity|]. cbn [flat_map]. rewrite unmet_app, (H x) by (left; reflexivity).
    assert (T : first_unmet (if p x then r else []) = None) by (destruct (p x); [exact N|reflexivity]). rewrite T.
    apply IH. intros y HY. apply H. right. exact HY. }
  induction l as [|x l IH]; intros H E; [discriminate E|]. cbn [flat_map existsb] in *. rewrite unmet_app, (H x) by (left; reflexivity).
  destruct (p x); cbn [orb] in E.
  - destruct (first_unmet r) eqn:R; [reflexivity|]. apply N; [reflexivity|]. intros y HY. apply H. right. exact HY.
  - cbn [first_unmet]. apply IH; [|exact E]. intros y HY. apply H. right. exact HY.
Qed.
Lemma spec_object_write o : failure (unparse_spec_object o) = first_unmet (spec_object_writing o).
Proof.
  unfold unparse_spec_object, spec_object_writing. cbv zeta. rewrite layout_eq, !laid_out_eq. set (l := layout (so_xml_node o) ["VALUES"; "TYPE"]).
  rewrite unmet_app. destruct (laid_out "VALUES" l) eqn:V; [|reflexivity]. cbn [py_assert bind first_unmet].
  destruct (laid_out "TYPE" l); [|reflexivity]. cbn [py_assert bind first_unmet].
  rewrite failure_then, (failure_mapM _ (fun t => if is_tag "VALUES" t then flat_map attr_value_writing (so_attributes o) else [])).
  - apply (unmet_repeat _ _ l (is_tag "VALUES")); [intros x _; reflexivity|exact V].
  - intros t _. unfold unparse_so_child. rewrite !is_tag_eq. destruct (is_tag "VALUES" t); [apply attr_values_write|].
    destruct (is_tag "TYPE" t); reflexivity.
Qed.
Lemma spec_relation_write r : failure (unparse_spec_relation r) = first_unmet (spec_relation_writing r).
Proof.
  unfold unparse_spec_relation, spec_relation_writing. rewrite layout_eq. apply failure_then_mapM. intros t _.
  unfold unparse_sr_child. rewrite !is_tag_eq. cbn [existsb].
  destruct (is_tag "TYPE" t) eqn:T1; [rewrite (is_tag_other "TYPE" "VALUES" t T1 eq_refl); reflexivity|].
  destruct (is_tag "SOURCE" t) eqn:T2; [rewrite (is_tag_other "SOURCE" "VALUES" t T2 eq_refl); reflexivity|].
  destruct (is_tag "TARGET" t) eqn:T3; [rewrite (is_tag_other "TARGET" "VALUES" t T3 eq_refl); reflexivity|].
  destruct (is_tag "VALUES" t); [|reflexivity]. destruct (sr_values_attribute r) as [a|]; [|reflexivity].
  rewrite attr_values_write. cbn [flat_map]. rewrite app_nil_r. reflexivity.
Qed.
Lemma hier_write h : failure (unparse_hier h) = first_unmet (hierarchy_writing h).
Proof.
  induction h as [h IH] using hier_ind'. destruct h as [i so lv ch ln o lc ed tb sc nd]. cbn [h_kids h_children] in IH.
  cbn [unparse_hier hierarchy_writing h_level]. destruct lv as [|k]; [reflexivity|]. cbn [base_level bind Nat.ltb Nat.leb first_unmet].
  rewrite failure_then. destruct ch as [l|]; [|reflexivity]. unfold h_kids in IH. cbn [h_children] in IH.
  rewrite Forall_forall in IH. destruct (match l with [] => sc | _ => false end) eqn:E.
  - destruct l; [reflexivity|discriminate E].
  - apply failure_then_mapM. exact IH.
Qed.
Lemma specification_write s : failure (unparse_specification s) = first_unmet (specification_writing s).
Proof.
  unfold unparse_specification, specification_writing. rewrite layout_eq. apply failure_then_mapM. intros t _.
  unfold unparse_sp_child. rewrite !is_tag_eq.
  destruct (is_tag "TYPE" t) eqn:T1.
  { rewrite (is_tag_other "TYPE" "CHILDREN" t T1 eq_refl), (is_tag_other "TYPE" "VALUES" t T1 eq_refl). reflexivity. }
  destruct (is_tag "CHILDREN" t).
  { destruct (sp_children s) as [l|]; [|reflexivity]. unfold unparse_specification_children. apply failure_then_mapM. intros h _. apply hier_write. }
  destruct (is_tag "VALUES" t); [|reflexivity]. destruct (sp_values s) as [l|]; [apply attr_values_write|reflexivity].
Qed.
Lemma section_write {A} t (f : A -> result str) (g : A -> list requirement) o :
  (forall x, failure (f x) = first_unmet (g x)) -> failure (pure_unparse_section t f o) = first_unmet (flat_map g (opt_list o)).
Proof.
  intros H. destruct o as [l|]; [|reflexivity]. cbn [pure_unparse_section opt_list]. apply failure_then_mapM. intros x _. apply H.
Qed.
Lemma section_total {A} t (f : A -> str) o : exists s, pure_unparse_section t (fun x => Ok (f x)) o = Ok s.
Proof.
  destruct o as [l|]; [|eexists; reflexivity]. cbn [pure_unparse_section].
  assert (M : mapM (fun x => Ok (f x)) l = Ok (map f l)). { induction l as [|x l IH]; [reflexivity|]. cbn. rewrite IH. reflexivity. }
  rewrite M. eexists. reflexivity.
Qed.
Lemma content_write c : failure (pure_unparse_content c) = first_unmet (content_writing c).
Proof.
  unfold pure_unparse_content, content_writing.
  destruct (section_total "DATATYPES" unparse_data_type (rc_data_types c)) as [s1 ->]. cbn [bind].
  rewrite unmet_app, <- (section_write "SPEC-TYPES" unparse_spec_type _ _ spec_type_write).
  destruct (pure_unparse_section "SPEC-TYPES" _ _); [|reflexivity]. cbn [bind failure].
  rewrite unmet_app, <- (section_write "SPEC-OBJECTS" unparse_spec_object _ _ spec_object_write).
  destruct (pure_unparse_section "SPEC-OBJECTS" _ _); [|reflexivity]. cbn [bind failure].
  rewrite unmet_app, <- (section_write "SPEC-RELATIONS" unparse_spec_relation _ _ spec_relation_write).
  destruct (pure_unparse_section "SPEC-RELATIONS" _ _); [|reflexivity]. cbn [bind failure].
  rewrite <- (section_write "SPECIFICATIONS" unparse_specification _ _ specification_write).
  destruct (pure_unparse_section "SPECIFICATIONS" _ _); [|reflexivity]. cbn [bind failure].
  destruct (section_total "SPEC-RELATION-GROUPS" unparse_relation_group (rc_spec_relation_groups c)) as [s6 ->]. reflexivity.
Qed.
Lemma bundle_write b : failure (unparse_string b) = write_failure b.
Proof.
  rewrite (proj2 (unparse_traced b)). unfold pure_unparse, write_failure, bundle_writing.
  rewrite unmet_app, <- namespace_write. destruct (unparse_namespace_info (b_namespace_info b)); [|reflexivity]. cbn [bind failure].
  rewrite unmet_app.
  assert (H : failure (match b_header b with None => Ok [] | Some h => unparse_header h end)
              = first_unmet (match b_header b with Some h => header_writing h | None => [] end)).
  { destruct (b_header b); [apply header_write|reflexivity]. }
  rewrite <- H. destruct (match b_header b with None => Ok [] | Some h => unparse_header h end); [|reflexivity]. cbn [bind failure].
  rewrite failure_then. destruct (b_core_content b) as [[c|]|]; try reflexivity. rewrite failure_then. apply content_write.
Qed.
