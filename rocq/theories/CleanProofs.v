(** CleanProofs.v -- the texts of a parsed bundle, and what is written for them,
    consist of XML characters *)
From Verif Require Import Base Xml Utf8 Lxml Py LxmlStr Models AttrDef DataType Header AttrValue SpecObj Hierarchy SpecTypes
  Progress Parser Unparser Serialise SpecXml SpecParse SpecTexts DictProofs ParserProofs GrammarProofs GrammarDoc XmlChars SerialiseProofs.

Definition xc (s : str) : Prop := Forall char s.
Notation oxc := (opt_text_is xc).

Lemma xc_app s t : xc s -> xc t -> xc (s ++ t).
Proof. intros. apply Forall_app. split; assumption. Qed.
Lemma xc_app_inv s t : xc (s ++ t) -> xc s /\ xc t.
Proof. apply Forall_app. Qed.
Lemma xc_lit s : forallb is_xml_char s = true -> xc s.
Proof. intros H. apply Forall_forall. intros c HC. rewrite forallb_forall in H. apply char_ok, H, HC. Qed.
Lemma xc_cons c s : char c -> xc s -> xc (c :: s).
Proof. intros; constructor; assumption. Qed.
Lemma xc_flat_map {A} (f : A -> str) l : Forall (fun x => xc (f x)) l -> xc (flat_map f l).
Proof. induction 1; [constructor|]. apply xc_app; assumption. Qed.
Lemma xc_concat l : Forall xc l -> xc (concat l).
Proof. induction 1; [constructor|]. apply xc_app; assumption. Qed.
Lemma xc_join sep l : xc sep -> Forall xc l -> xc (join sep l).
Proof.
  intros HS. induction 1 as [|x l HX HL IH]; [constructor|]. cbn [join]. destruct l; [exact HX|].
  apply xc_app; [exact HX|apply xc_app; assumption].
Qed.
Lemma xc_spaces n : xc (spaces n).
Proof. unfold spaces. induction n; [constructor|]. constructor; [apply char_ok; reflexivity|assumption]. Qed.
Lemma xc_replace c new s : xc new -> xc s -> xc (replace_char c new s).
Proof.
  intros HN HS. apply xc_flat_map. eapply Forall_impl; [|exact HS]. intros x HX. cbv beta. destruct (N.eqb x c); [exact HN|].
  constructor; [exact HX|constructor].
Qed.
Lemma xc_lstrip s : xc s -> xc (lstrip s).
Proof. induction 1 as [|c s HC HS IH]; [constructor|]. cbn [lstrip]. destruct (py_space c); [exact IH|constructor; assumption]. Qed.
Lemma xc_rev s : xc s -> xc (rev s).
Proof. apply Forall_rev. Qed.
Lemma xc_rstrip s : xc s -> xc (rstrip s).
Proof. intros H. unfold rstrip. apply xc_rev, xc_lstrip, xc_rev, H. Qed.
Lemma xc_strip s : xc s -> xc (strip s).
Proof. intros H. apply xc_rstrip, xc_lstrip, H. Qed.
Lemma xc_fmt o : oxc o -> xc (fmt o).
Proof. destruct o; [auto|]. intros _. apply xc_lit. reflexivity. Qed.
Lemma xc_dec fuel : forall n acc, xc acc -> xc (dec_digits fuel n acc).
Proof.
  induction fuel as [|f IH]; intros n acc H; [exact H|]. cbn [dec_digits]. cbv zeta.
  assert (HD : char (48 + n mod 10)%N).
  { apply char_ok. assert (HM : (n mod 10 < 10)%N) by (apply N.mod_lt; discriminate).
    unfold is_xml_char. rewrite ?orb_true_iff, ?andb_true_iff, ?N.leb_le, ?N.eqb_eq. lia. }
  destruct (_ =? 0)%N; [|apply IH]; constructor; assumption.
Qed.
Lemma xc_str_of_N n : xc (str_of_N n).
Proof. apply xc_dec. constructor. Qed.
Lemma xc_str_of_Z z : xc (str_of_Z z).
Proof. destruct z; cbn [str_of_Z]; try apply xc_str_of_N. constructor; [apply char_ok; reflexivity|apply xc_str_of_N]. Qed.
Lemma xc_hex fuel : forall n acc, xc acc -> xc (hex_digits fuel n acc).
Proof.
  induction fuel as [|f IH]; intros n acc H; [exact H|]. cbn [hex_digits]. cbv zeta.
  assert (HD : char (hex_char (n mod 16))).
  { apply char_ok. assert (HM : (n mod 16 < 16)%N) by (apply N.mod_lt; discriminate). unfold hex_char.
    destruct (N.ltb_spec (n mod 16) 10);
    unfold is_xml_char; rewrite ?orb_true_iff, ?andb_true_iff, ?N.leb_le, ?N.eqb_eq; lia. }
  destruct (_ =? 0)%N; [|apply IH]; constructor; assumption.
Qed.

Ltac xlit := lazymatch goal with
  | |- xc ?s => apply xc_lit; solve [vm_compute; reflexivity]
  end.
Ltac is_lit s := lazymatch s with
  | nil => idtac | nl => idtac
  | N.pos ?p :: ?r => lazymatch p with xI _ => is_lit r | xO _ => is_lit r | xH => is_lit r end
  end.
Create HintDb xc.
Ltac xs := repeat first
  [ assumption
  | lazymatch goal with |- xc ?s => is_lit s; xlit end
  | apply xc_app
  | apply xc_spaces
  | apply xc_fmt
  | apply xc_str_of_Z
  | solve [auto with xc] ].

Lemma xc_html_lxml s : xc s -> xc (lxml_escape_for_html s).
Proof. intros H. unfold lxml_escape_for_html. repeat (apply xc_replace; [xlit|]). exact H. Qed.
Lemma xc_html s : xc s -> xc (html_escape s).
Proof. intros H. unfold html_escape. repeat (apply xc_replace; [xlit|]). exact H. Qed.
Lemma xc_title s : xc s -> xc (lxml_escape_title s).
Proof. intros H. unfold lxml_escape_title. apply xc_replace; [xlit|exact H]. Qed.
Lemma xc_opt_attr n esc v : xc n -> (forall s, xc s -> xc (esc s)) -> oxc v -> xc (opt_attr n esc v).
Proof. intros H1 H2 H3. destruct v; unfold opt_attr; xs. Qed.
Lemma xc_truthy n v : xc n -> oxc v -> xc (truthy_attr n v).
Proof. intros H1 H3. destruct v as [[|c s]|]; unfold truthy_attr; xs. Qed.
Lemma xc_bool_attr n v : xc n -> xc (opt_bool_attr n v).
Proof. intros H1. destruct v as [[]|]; unfold opt_bool_attr, bool_str; xs. Qed.
Lemma xc_raw s : xc s -> xc (raw s).
Proof. auto. Qed.
Lemma xc_spec_tag t : xc (get_spec_type_tag t).
Proof. destruct t; xlit. Qed.
Lemma xc_def_tag t : xc (get_definition_tag t).
Proof. destruct t; xlit. Qed.
Lemma xc_val_tag t : xc (get_attribute_value_tag t).
Proof. destruct t; xlit. Qed.
#[global] Hint Resolve xc_html_lxml xc_html xc_title xc_raw xc_spec_tag xc_def_tag xc_val_tag xc_html_lxml : xc.
Lemma xc_at_name t : xc (at_name t).
Proof. destruct t; xlit. Qed.
#[global] Hint Resolve xc_at_name : xc.
Ltac xa := repeat first
  [ assumption
  | lazymatch goal with |- xc ?s => is_lit s; xlit end
  | apply xc_app | apply xc_spaces | apply xc_fmt | apply xc_str_of_Z
  | apply xc_bool_attr | apply xc_truthy | apply xc_opt_attr
  | solve [auto with xc] ].
Lemma Ok_inj {A} (x y : A) : Ok x = Ok y -> x = y.
Proof. congruence. Qed.
Lemma mapM_ok {A} (f : A -> result str) (Q : A -> Prop) l out :
  (forall x t, Q x -> f x = Ok t -> xc t) -> Forall Q l -> mapM f l = Ok out -> Forall xc out.
Proof.
  intros HF HL. revert out. induction HL as [|x l HX HL IH]; intros out H; [injection H as <-; constructor|].
  cbn [mapM] in H. destruct (f x) as [t|] eqn:E; [|discriminate]. cbn [bind] in H. destruct (mapM f l) as [ts|] eqn:E2; [|discriminate].
  cbn [bind] in H. injection H as <-. constructor; [apply (HF x t HX E)|apply IH; reflexivity].
Qed.
Lemma mapM_any {A} (f : A -> result str) l out :
  (forall x t, f x = Ok t -> xc t) -> mapM f l = Ok out -> Forall xc out.
Proof. intros HF. apply (mapM_ok f (fun _ => True)); [intros x t _; apply HF|]. apply Forall_forall. auto. Qed.

(** ** What is written *)
Lemma xc_enum_value v : enum_value_texts xc v -> xc (unparse_enum_value v).
Proof. intros ((H1 & H2 & H3 & H4) & H5 & H6). unfold unparse_enum_value. xa. Qed.
Lemma xc_data_type d : data_type_texts xc d -> xc (unparse_data_type d).
Proof.
  intros ((H1 & H2 & H3 & H4) & H5).
  destruct d as [c m|c|c mx mn|c a mx mn|c vs|c|c]; cbn [dt_c] in *; unfold unparse_data_type, dt_head, dt_close; xa.
  all: try (destruct (dt_is_self_closed c); xa; fail).
  all: try (destruct H5; xa; fail).
  - destruct a; xa.
  - destruct vs as [vs|]; xa. apply xc_flat_map. eapply Forall_impl; [|exact H5]. apply xc_enum_value.
Qed.
Lemma xc_default a s : attr_def_texts xc a -> unparse_attribute_default_value a = Ok s -> xc s.
Proof.
  intros (_ & _ & H2 & H3) H. unfold unparse_attribute_default_value in H. destruct (ad_default_value a) as [| |v].
  - injection H as <-. constructor.
  - apply Ok_inj in H. subst s. xlit.
  - unfold unparse_default_str in H.
    destruct (ad_type a); try (destruct (ad_default_value_definition_ref a) as [ref|]; [|discriminate H]; cbn [opt_text_is] in H2);
      apply Ok_inj in H; subst s; xa.
Qed.
Lemma xc_attr_def a s : attr_def_texts xc a -> unparse_attribute_definition a = Ok s -> xc s.
Proof.
  intros HA H. pose proof HA as ((H1 & H2 & H3 & H4) & H5 & H6 & H7). unfold unparse_attribute_definition in H.
  destruct (mapM _ _) as [body|] eqn:E; [|discriminate]. cbn [bind] in H. apply Ok_inj in H. subst s.
  apply mapM_any in E.
  - apply xc_concat in E. xa.
  - intros t u HT. unfold unparse_ad_child in HT. destruct (ostr_eqb t _); [apply (xc_default _ _ HA HT)|].
    destruct (ostr_eqb t _); [|discriminate]. apply Ok_inj in HT. subst u. unfold unparse_attribute_type. xa.
Qed.
Lemma xc_attr_defs o s : all_of (attr_def_texts xc) o -> spec_attributes_block o = Ok s -> xc s.
Proof.
  intros HA H. unfold spec_attributes_block in H. destruct o as [l|]; [|injection H as <-; constructor].
  unfold unparse_attribute_definitions in H. destruct (mapM _ _) as [body|] eqn:E; [|discriminate]. cbn [bind] in H. apply Ok_inj in H. subst s.
  apply (mapM_ok _ _ _ _ xc_attr_def HA) in E. apply xc_concat in E. xa.
Qed.
Lemma xc_close b o t s : xc t -> all_of (attr_def_texts xc) o -> close_type b o t = Ok s -> xc s.
Proof.
  intros HT HA H. unfold close_type in H. destruct (_ && _); [apply Ok_inj in H; subst s; xlit|].
  destruct (spec_attributes_block o) as [body|] eqn:E; [|discriminate]. cbn [bind] in H. apply Ok_inj in H. subst s.
  apply xc_attr_defs in E; [|exact HA]. xa.
Qed.
Lemma xc_spec_type t s : spec_type_texts xc t -> unparse_spec_type t = Ok s -> xc s.
Proof.
  intros HT H. destruct t as [t|t|t|t]; cbn [spec_type_texts unparse_spec_type] in *; destruct HT as ((H1 & H2 & H3 & H4) & H5).
  - unfold unparse_spec_object_type in H. destruct (spec_attributes_block _) as [body|] eqn:E; [|discriminate]. cbn [bind] in H.
    apply xc_attr_defs in E; [|exact H5]. apply Ok_inj in H. subst s. xa.
  - unfold unparse_spec_relation_type in H. destruct (close_type _ _ _) as [body|] eqn:E; [|discriminate]. cbn [bind] in H.
    apply xc_close in E; [|xlit|exact H5]. apply Ok_inj in H. subst s. xa.
  - unfold unparse_specification_type in H. destruct (close_type _ _ _) as [body|] eqn:E; [|discriminate]. cbn [bind] in H.
    apply xc_close in E; [|xlit|exact H5]. apply Ok_inj in H. subst s. xa.
  - unfold unparse_relation_group_type in H. destruct (close_type _ _ _) as [body|] eqn:E; [|discriminate]. cbn [bind] in H.
    apply xc_close in E; [|xlit|exact H5]. apply Ok_inj in H. subst s. xa.
Qed.
Lemma xc_attr_value a s : attr_value_texts xc a -> unparse_attribute_value a = Ok s -> xc s.
Proof.
  intros (H1 & H2) H. unfold unparse_attribute_value in H.
  destruct (sa_type a).
  2: { destruct (values_first_order (sa_xml_node a)) as [b|]; [|discriminate]. cbn [bind] in H. destruct (sa_value a) as [v|l]; [discriminate|].
       apply Ok_inj in H. subst s. unfold enum_template. xa.
       assert (HV : xc (rstrip (flat_map enum_value_template l))).
       { apply xc_rstrip, xc_flat_map. eapply Forall_impl; [|exact H2]. intros o HO. unfold enum_value_template. xa. }
       destruct b; unfold enum_values_part, enum_definition_part; xa. }
  all: destruct (sa_value a) as [v|l]; [|discriminate]; apply Ok_inj in H; subst s; unfold value_template, xhtml_template; xa.
Qed.
Lemma xc_attr_values o s : all_of (attr_value_texts xc) o -> unparse_attribute_values o = Ok s -> xc s.
Proof.
  intros HA H. unfold unparse_attribute_values in H. destruct o as [[|a l]|]; [apply Ok_inj in H; subst s; xlit| |injection H as <-; constructor].
  destruct (mapM _ _) as [parts|] eqn:E; [|discriminate]. cbn [bind] in H. apply Ok_inj in H. subst s.
  apply (mapM_ok _ _ _ _ xc_attr_value HA) in E. apply xc_concat in E. xa.
Qed.
Lemma xc_spec_object o s : spec_object_texts xc o -> unparse_spec_object o = Ok s -> xc s.
Proof.
  intros ((H1 & H2 & H3 & H4) & H5 & H6) H. unfold unparse_spec_object in H. cbv zeta in H.
  destruct (py_assert _); [|discriminate]. cbn [bind] in H. destruct (py_assert _); [|discriminate]. cbn [bind] in H.
  destruct (mapM _ _) as [body|] eqn:E; [|discriminate]. cbn [bind] in H. apply Ok_inj in H. subst s.
  apply mapM_any in E.
  - apply xc_concat in E. xa.
  - intros t u HT. unfold unparse_so_child in HT. destruct (ostr_eqb t _); [apply (xc_attr_values (Some (so_attributes o)) _ H6 HT)|].
    destruct (ostr_eqb t _); apply Ok_inj in HT; subst u; [|constructor]. unfold unparse_spec_object_type_ref. xa.
Qed.
Lemma xc_spec_relation r s : spec_relation_texts xc r -> unparse_spec_relation r = Ok s -> xc s.
Proof.
  intros ((H1 & H2 & H3 & H4) & H5 & H6 & H7 & H8) H. unfold unparse_spec_relation in H. cbv zeta in H.
  destruct (mapM _ _) as [body|] eqn:E; [|discriminate]. cbn [bind] in H. apply Ok_inj in H. subst s.
  apply mapM_any in E.
  - apply xc_concat in E. xa.
  - intros t u HT. unfold unparse_sr_child in HT.
    repeat (destruct (ostr_eqb t _); [try (apply Ok_inj in HT; subst u; unfold unparse_sr_type, unparse_sr_source, unparse_sr_target; xa; fail)|]).
    + destruct (sr_values_attribute r) as [a|]; [|apply Ok_inj in HT; subst u; constructor].
      apply (xc_attr_values (Some [a]) u); [constructor; [exact H8|constructor]|exact HT].
    + discriminate.
Qed.
Lemma xc_relation_group g : relation_group_texts xc g -> xc (unparse_relation_group g).
Proof.
  intros ((H1 & H2 & H3 & H4) & H5 & H6 & H7 & H8). unfold unparse_relation_group.
  assert (HR : forall t r v, xc t -> xc r -> oxc v -> xc (ref_block t r v)).
  { intros t r v HT HR HV. destruct v; unfold ref_block; xa. }
  xa; try (apply HR; first [assumption|xlit]).
  destruct (rg_spec_relations g) as [l|]; xa. apply xc_flat_map. eapply Forall_impl; [|exact H8]. intros o HO. cbv beta. xa.
Qed.
Lemma xc_hier : forall h s, hierarchy_texts xc h -> unparse_hier h = Ok s -> xc s.
Proof.
  fix REC 1. intros h s HH H. destruct h as [id obj lv ch ln ord lc ed tb sc n]. inversion HH as [? ? ? ? ? ? ? ? ? ? ? P1 P2 P3 P4 P5]; subst.
  cbn [unparse_hier] in H. destruct (base_level lv) as [b|]; [|discriminate]. cbn [bind] in H.
  destruct (match ch with None => _ | Some l => _ end) as [co|] eqn:E; [|discriminate]. cbn [bind] in H.
  assert (HC : xc co).
  { clear H. destruct ch as [l|]; [|injection E as <-; constructor]. specialize (P5 l eq_refl). destruct (match l with [] => sc | _ => false end).
    - apply Ok_inj in E. subst co. xa.
    - destruct (mapM unparse_hier l) as [parts|] eqn:EP; [|discriminate]. cbn [bind] in E. apply Ok_inj in E. subst co.
      assert (HP : Forall xc parts).
      { clear -REC EP P5. revert parts EP. induction l as [|x l IH]; intros parts EP; [injection EP as <-; constructor|].
        cbn [mapM] in EP. destruct (unparse_hier x) as [t|] eqn:E1; [|discriminate]. cbn [bind] in EP.
        destruct (mapM unparse_hier l) as [ts|] eqn:E2; [|discriminate]. cbn [bind] in EP. injection EP as <-.
        inversion P5; subst. constructor; [apply (REC x t); assumption|apply IH; [assumption|reflexivity]]. }
      apply xc_concat in HP. xa. }
  apply Ok_inj in H. subst s. destruct ord; unfold print_object; xa.
Qed.
Lemma xc_specification sp s : specification_texts xc sp -> unparse_specification sp = Ok s -> xc s.
Proof.
  intros ((H1 & H2 & H3 & H4) & H5 & H6 & H7) H. unfold unparse_specification in H. cbv zeta in H.
  destruct (mapM _ _) as [body|] eqn:E; [|discriminate]. cbn [bind] in H. apply Ok_inj in H. subst s.
  apply mapM_any in E.
  - apply xc_concat in E. xa.
  - intros t u HT. unfold unparse_sp_child in HT. destruct (ostr_eqb t _).
    { apply Ok_inj in HT. subst u. destruct (sp_specification_type sp) as [[|c x]|]; xa. }
    destruct (ostr_eqb t _).
    { destruct (sp_children sp) as [l|]; [|apply Ok_inj in HT; subst u; constructor]. unfold unparse_specification_children in HT.
      destruct (mapM unparse_hier l) as [parts|] eqn:EP; [|discriminate]. cbn [bind] in HT. apply Ok_inj in HT. subst u.
      apply (mapM_ok _ _ _ _ xc_hier H7) in EP. apply xc_concat in EP. xa. }
    destruct (ostr_eqb t _); [apply (xc_attr_values _ _ H6 HT)|]. apply Ok_inj in HT. subst u. constructor.
Qed.
Lemma xc_header h s : header_texts xc h -> unparse_header h = Ok s -> xc s.
Proof.
  intros (H1 & H2 & H3 & H4 & H5 & H6 & H7 & H8) H. unfold unparse_header in H.
  destruct (hd_identifier h) as [[|c id]|]; try discriminate. apply Ok_inj in H. subst s. cbn [opt_text_is] in H1.
  assert (HT : forall t esc v, xc t -> (forall s, xc s -> xc (esc s)) -> oxc v -> xc (text_elem t esc v)).
  { intros t esc v A1 A2 A3. destruct v as [[|x v]|]; unfold text_elem; xa. }
  xa; try (apply HT; first [assumption|xlit|auto with xc]).
  destruct (hd_repository_id h); xa.
Qed.
Lemma xc_namespace i s : namespace_texts xc i -> unparse_namespace_info i = Ok s -> xc s.
Proof.
  intros (H1 & H2 & H3 & H4 & H5 & H6 & H7 & H8 & H9) H. unfold unparse_namespace_info in H. destruct (ni_dump i) as [d|].
  { apply Ok_inj in H. subst s. xa. }
  assert (HC : forall n v, xc n -> oxc v -> Forall xc (component n v)).
  { intros n v A1 A2. destruct v; cbn [component]; constructor; [xa|constructor]. }
  set (l := component "xmlns" _ ++ _) in H.
  assert (HL : Forall xc l).
  { unfold l. repeat (apply Forall_app; split); apply HC; first [assumption|xlit]. }
  destruct l as [|x l]; [discriminate|]. apply Ok_inj in H. subst s. xa. apply xc_join; [xlit|exact HL].
Qed.
