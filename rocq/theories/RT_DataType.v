(** RT_DataType.v -- the data type round trip *)
From Verif Require Import Base Xml Lxml Py LxmlStr Models AttrDef DataType XmlProofs DictProofs
  SpecEscape EscapeProofs SpecPrint Frag RT RT_Header IntProofs.

Ltac lits :=
  repeat match goal with
  | |- context [str_eqb ?a ?b] =>
      let v := eval vm_compute in (str_eqb a b) in
      match v with true => idtac | false => idtac end; change (str_eqb a b) with v
  | |- context [contains ?a ?b] =>
      let v := eval vm_compute in (contains a b) in
      match v with true => idtac | false => idtac end; change (contains a b) with v
  | |- context [ostr_eqb ?a ?b] =>
      let v := eval vm_compute in (ostr_eqb a b) in
      match v with true => idtac | false => idtac end; change (ostr_eqb a b) with v
  end; cbv iota.
Lemma tag_contains_el sub n as_ body m : tag_contains sub (el n as_ body m) = Ok (contains sub n).
Proof. reflexivity. Qed.
Lemma tag_is_el t n as_ body m : tag_is t (el n as_ body m) = str_eqb n t.
Proof. reflexivity. Qed.
Lemma attr_el k n as_ body m : attr_opt k (el n as_ body m) = assoc k (map attr_of as_).
Proof. apply attr_opt_el. Qed.
Lemma self_closed_el n as_ body m :
  is_self_closed_tag (el n as_ body m)
  = match elements (f_n body m) with [] => match lead (f_n body m) with [] => true | _ => false end | _ => false end.
Proof.
  unfold is_self_closed_tag. rewrite children_el. destruct (elements (f_n body m)); [|reflexivity].
  unfold text, el. destruct (lead (f_n body m)); reflexivity.
Qed.
(** looking up attributes in an attribute list *)
Lemma assoc_app k a b : assoc k (a ++ b) = match assoc k a with Some v => Some v | None => assoc k b end.
Proof. induction a as [|[k' v] a IH]; [reflexivity|]. cbn. destruct (str_eqb k k'); [reflexivity|exact IH]. Qed.
Lemma assoc_oa k n esc v : assoc k (map attr_of (oa n esc v)) = if str_eqb k n then v else None.
Proof. destruct v; cbn; destruct (str_eqb k n); reflexivity. Qed.
Lemma assoc_ta k n v : assoc k (map attr_of (ta n v)) = if str_eqb k n then drop_empty v else None.
Proof. destruct v as [[|]|]; cbn; destruct (str_eqb k n); reflexivity. Qed.
Lemma assoc_ob k n v : assoc k (map attr_of (ob n v)) = if str_eqb k n then option_map bool_str v else None.
Proof. destruct v; cbn; destruct (str_eqb k n); reflexivity. Qed.
Lemma assoc_one k n r v : assoc k (map attr_of [PA n r v]) = if str_eqb k n then Some v else None.
Proof. reflexivity. Qed.
Lemma assoc_pcons k n r v l : assoc k (map attr_of (PA n r v :: l)) = if str_eqb k n then Some v else assoc k (map attr_of l).
Proof. reflexivity. Qed.
Lemma or_none {A} (o : option A) : match o with Some v => Some v | None => None end = o.
Proof. destruct o; reflexivity. Qed.
Ltac attrs := unfold attr_req; rewrite ?attr_el, ?map_app, ?assoc_pcons, ?assoc_app, ?assoc_oa, ?assoc_ta, ?assoc_ob, ?assoc_one, ?assoc_pcons, ?assoc_oa, ?assoc_ta, ?assoc_ob; lits; rewrite ?or_none; cbn [bind or_not_impl].
Ltac goods :=
  repeat first [apply good_app|apply good_ws; reflexivity|apply good_nil
    |apply good_em; [reflexivity|okattrs_tac]|apply good_el; [reflexivity|okattrs_tac|]].
Ltac elems_in H := repeat rewrite ?elements_app, ?elements_chr, ?elements_el, ?app_nil_l, ?app_nil_r in H.

Definition fclosed (closed : bool) (name : str) (as_ : list pattr) : frag :=
  fws "        " +++ (if closed then fem name as_ else fel name as_ (fws (nl ++ "        "))) +++ fws nl.
Definition nclosed (closed : bool) (name : str) (as_ : list pattr) (m : nsmap) : node :=
  el name as_ (if closed then fnil else fws (nl ++ "        ")) m.
Lemma fclosed_elements closed name as_ m : elements (f_n (fclosed closed name as_) m) = [nclosed closed name as_ m].
Proof. unfold fclosed. destruct closed; elems; reflexivity. Qed.
Lemma fclosed_good p u closed name as_ : okname name = true -> okattrs as_ -> good p u (fclosed closed name as_).
Proof.
  intros H1 H2. unfold fclosed. apply good_app; [apply good_ws; reflexivity|]. apply good_app; [|apply good_ws; reflexivity].
  destruct closed; [apply good_em; assumption|apply good_el; [assumption|assumption|apply good_ws; reflexivity]].
Qed.
Lemma nclosed_closed closed name as_ m : is_self_closed_tag (nclosed closed name as_ m) = closed.
Proof. unfold nclosed. rewrite self_closed_el. destruct closed; reflexivity. Qed.
Lemma fclosed_str c name as_ :
  f_str (fclosed (dt_is_self_closed c) name as_) = "        <" ++ name ++ render_attrs as_ ++ dt_close c name.
Proof. unfold fclosed, dt_close. destruct (dt_is_self_closed c); frags; strs. Qed.

Definition dt_attrs (c : dt_common) : list pattr :=
  oa "DESC" lxml_escape_for_html (dt_description c) ++ [PA "IDENTIFIER" (dt_identifier c) (dt_identifier c)]
  ++ ta "LAST-CHANGE" (dt_last_change c).
Lemma dt_attrs_str c : render_attrs (dt_attrs c) = dt_head c.
Proof. unfold dt_attrs, dt_head. renders. strs. Qed.

Definition fenum_attrs (v : enum_value) : list pattr :=
  oa "DESC" raw (ev_description v) ++ [PA "IDENTIFIER" (ev_identifier v) (ev_identifier v)]
  ++ oa "LAST-CHANGE" raw (ev_last_change v) ++ oa "LONG-NAME" lxml_escape_for_html (ev_long_name v).
Definition fenum (v : enum_value) : frag :=
  fws "            "
  +++ fel "ENUM-VALUE" (fenum_attrs v)
        (fws (nl ++ "              ")
         +++ fel "PROPERTIES" []
               (fws (nl ++ "                ")
                +++ fem "EMBEDDED-VALUE" ([PA "KEY" (ev_key v) (ev_key v)] ++ oa "OTHER-CONTENT" raw (ev_other_content v))
                +++ fws (nl ++ "              "))
         +++ fws (nl ++ "            "))
  +++ fws nl.
Lemma rt_enum_value p u ctx v : printable_enum_value v ->
  rt p u ctx (fun v => Ok (unparse_enum_value v)) parse_enum_value (fun x => x) (fun x => x) (fun _ => false) v.
Proof.
  intros (H1 & H2 & H3 & H4 & H5 & H6). exists (fenum v). split; [|split; [|split]].
  - unfold fenum, fenum_attrs, raw. goods.
  - f_equal. unfold fenum, fenum_attrs, unparse_enum_value. frags. renders. strs.
  - reflexivity.
  - intros m _. eexists. exists v. split; [|split; [|split; reflexivity]].
    + unfold fenum. elems. reflexivity.
    + unfold parse_enum_value, fenum_attrs. attrs. unfold find_req. rewrite find_child_elements, children_el. elems.
      cbn [app]. rewrite find_cons. lits. cbn [bind]. rewrite find_child_elements, children_el. elems.
      rewrite find_cons. lits. cbn [bind]. attrs. destruct v; reflexivity.
Qed.

Section DataType.
Variables (p u : str) (ctx : nsmap -> Prop).
Lemma rt_simple d c name as_ rest :
  dt_c d = c ->
  okname name = true -> okattrs (dt_attrs c ++ as_) ->
  unparse_data_type d = "        <" ++ name ++ dt_head c ++ rest ++ dt_close c name ->
  render_attrs as_ = rest ->
  (forall m, parse_data_type (nclosed (dt_is_self_closed c) name (dt_attrs c ++ as_) m) = Ok (normal_data_type d)) ->
  unparse_data_type (normal_data_type d) = unparse_data_type d ->
  rt p u ctx (fun d => Ok (unparse_data_type d)) parse_data_type (fun x => x) normal_data_type (fun _ => false) d.
Proof.
  intros HC HN HA HS HR HP HU. exists (fclosed (dt_is_self_closed c) name (dt_attrs c ++ as_)). split; [|split; [|split]].
  - apply fclosed_good; assumption.
  - rewrite fclosed_str, render_app, dt_attrs_str, HR, HS. f_equal. strs.
  - unfold fclosed. destruct (dt_is_self_closed c); reflexivity.
  - intros m _. eexists. exists (normal_data_type d). split; [apply fclosed_elements|]. split; [apply HP|].
    split; [reflexivity|]. rewrite HU. reflexivity.
Qed.
Lemma head_normal c : dt_head (normal_common c) = dt_head c.
Proof. unfold dt_head, normal_common. cbn [dt_description dt_identifier dt_last_change]. destruct (dt_last_change c) as [[|]|]; reflexivity. Qed.
Lemma head_normal_name c : dt_head (normal_common_name c) = dt_head c.
Proof. unfold dt_head, normal_common_name. cbn [dt_description dt_identifier dt_last_change]. destruct (dt_last_change c) as [[|]|]; reflexivity. Qed.
Lemma truthy_drop n v : truthy_attr n (drop_empty v) = truthy_attr n v.
Proof. destruct v as [[|]|]; reflexivity. Qed.
Ltac parse_dt := intros m; unfold parse_data_type; rewrite nclosed_closed; unfold nclosed;
  rewrite tag_contains_el, !tag_is_el; lits; cbn [bind py_assert]; unfold dt_attrs; attrs.

Definition fspecified (vs : list frag) : frag :=
  fws "          " +++ fel "SPECIFIED-VALUES" [] (fws nl +++ fcat vs +++ fws "          ") +++ fws nl.

Lemma rt_data_type d : printable_data_type d ->
  rt p u ctx (fun d => Ok (unparse_data_type d)) parse_data_type (fun x => x) normal_data_type (fun _ => false) d.
Proof.
  destruct d as [c ml|c|c mx mn|c acc mx mn|c vs|c|c]; cbn [printable_data_type]; unfold printable_common.
  - intros [(H1 & H2 & H3 & H4) H5].
    apply (rt_simple _ c "DATATYPE-DEFINITION-STRING" (oa "LONG-NAME" lxml_escape_for_html (dt_long_name c) ++ ta "MAX-LENGTH" ml)
             (opt_attr "LONG-NAME" lxml_escape_for_html (dt_long_name c) ++ truthy_attr "MAX-LENGTH" ml)).
    + reflexivity.
    + reflexivity.
    + unfold dt_attrs. okattrs_tac.
    + unfold unparse_data_type. strs.
    + renders. reflexivity.
    + parse_dt. reflexivity.
    + unfold normal_data_type, unparse_data_type. rewrite head_normal, truthy_drop. reflexivity.
  - intros (H1 & H2 & H3 & H4).
    apply (rt_simple _ c "DATATYPE-DEFINITION-BOOLEAN" (oa "LONG-NAME" lxml_escape_for_html (dt_long_name c))
             (opt_attr "LONG-NAME" lxml_escape_for_html (dt_long_name c))).
    + reflexivity.
    + reflexivity.
    + unfold dt_attrs. okattrs_tac.
    + unfold unparse_data_type. strs.
    + renders. reflexivity.
    + parse_dt. reflexivity.
    + unfold normal_data_type, unparse_data_type. rewrite head_normal. reflexivity.
  - intros [(H1 & H2 & H3 & H4) [H5 H6]].
    apply (rt_simple _ c "DATATYPE-DEFINITION-INTEGER" (ta "LONG-NAME" (dt_long_name c) ++ oa "MAX" raw mx ++ oa "MIN" raw mn)
             (truthy_attr "LONG-NAME" (dt_long_name c) ++ opt_attr "MAX" raw mx ++ opt_attr "MIN" raw mn)).
    + reflexivity.
    + reflexivity.
    + unfold dt_attrs. okattrs_tac.
    + unfold unparse_data_type. strs.
    + renders. reflexivity.
    + parse_dt. reflexivity.
    + unfold normal_data_type, unparse_data_type. rewrite head_normal_name.
      cbn [normal_common_name dt_long_name]. rewrite truthy_drop. reflexivity.
  - intros [(H1 & H2 & H3 & H4) [H5 H6]].
    exists (fws "        " +++ fem "DATATYPE-DEFINITION-REAL"
       (oa "ACCURACY" raw (option_map str_of_Z acc) ++ oa "DESC" lxml_escape_for_html (dt_description c)
        ++ [PA "IDENTIFIER" (dt_identifier c) (dt_identifier c)]
        ++ oa "LAST-CHANGE" raw (dt_last_change c) ++ oa "LONG-NAME" raw (dt_long_name c)
        ++ oa "MAX" raw mx ++ oa "MIN" raw mn) +++ fws nl).
    split; [|split; [|split]].
    + apply good_app; [apply good_ws; reflexivity|]. apply good_app; [|apply good_ws; reflexivity].
      apply good_em; [reflexivity|]. split; [keys|]. apply avals_app; [|avals_tac].
      destruct acc as [z|]; [apply avals_one, aval_int|apply avals_nil].
    + unfold unparse_data_type. f_equal. frags. renders. destruct acc; cbn [option_map opt_attr]; unfold raw; strs.
    + reflexivity.
    + intros m _. eexists. eexists. split; [elems; reflexivity|].
      split; [|split; [reflexivity|]].
      * unfold parse_data_type. rewrite self_closed_el, tag_contains_el, !tag_is_el. cbn [fnil f_n elements filter lead]. lits.
        cbn [bind py_assert]. attrs. destruct acc as [z|]; cbn [option_map]; [rewrite py_int_of_Z|]; reflexivity.
      * reflexivity.
  - intros ((H1 & H2 & H3 & H4) & H5 & H6). destruct vs as [vs|].
    + assert (HC : dt_is_self_closed c = false).
      { destruct (dt_is_self_closed c); [specialize (H6 eq_refl); discriminate|reflexivity]. }
      assert (HV : rts p u ctx (fun v => Ok (unparse_enum_value v)) parse_enum_value (fun x => x) (fun x => x) (fun _ => false) vs).
      { apply rt_list. eapply Forall_impl; [|exact H5]. intros v Hv. apply rt_enum_value, Hv. }
      destruct HV as (g & G1 & G2 & G3 & G4). rewrite mapM_pure in G2. cbn [bind] in G2. apply Ok_inj in G2.
      exists (fws "        " +++ fel "DATATYPE-DEFINITION-ENUMERATION" (dt_attrs c ++ oa "LONG-NAME" lxml_escape_for_html (dt_long_name c))
               (fws (nl ++ "          ") +++ fel "SPECIFIED-VALUES" [] (fws nl +++ g +++ fws "          ") +++ fws (nl ++ "        ")) +++ fws nl).
      split; [|split; [|split]].
      * unfold dt_attrs. goods; exact G1.
      * unfold unparse_data_type. rewrite HC. f_equal. frags. rewrite render_app, dt_attrs_str, render_oa, flat_map_concat_map, G2. strs.
      * frags. rewrite G3. clear. assert (E : existsb (fun _ : enum_value => false) vs = false) by (induction vs; [reflexivity|exact IHvs]).
        rewrite E. reflexivity.
      * intros m Hm. destruct (G4 m Hm) as (xs & X1 & X2 & X3). rewrite !map_id in X2. subst xs.
        eexists. eexists. split; [elems; reflexivity|]. split; [|split; [reflexivity|]].
        -- unfold parse_data_type. rewrite self_closed_el, tag_contains_el, !tag_is_el. elems. cbn [app]. lits. cbn [bind py_assert].
           unfold dt_attrs. attrs. rewrite find_child_elements, children_el. elems. cbn [app]. rewrite find_cons. lits.
           rewrite children_el. elems. rewrite X1. cbn [bind]. rewrite <- HC. reflexivity.
        -- unfold normal_data_type, unparse_data_type. rewrite head_normal. reflexivity.
    + apply (rt_simple _ c "DATATYPE-DEFINITION-ENUMERATION" (oa "LONG-NAME" lxml_escape_for_html (dt_long_name c))
             (opt_attr "LONG-NAME" lxml_escape_for_html (dt_long_name c))).
      * reflexivity.
      * reflexivity.
      * unfold dt_attrs. okattrs_tac.
      * unfold unparse_data_type, dt_close. destruct (dt_is_self_closed c); cbn [app]; rewrite ?app_nil_r; strs.
      * renders. reflexivity.
      * parse_dt. rewrite find_child_elements, children_el. destruct (dt_is_self_closed c) eqn:E; cbn; rewrite <- E; reflexivity.
      * unfold normal_data_type, unparse_data_type. rewrite head_normal. reflexivity.
  - intros (H1 & H2 & H3 & H4).
    apply (rt_simple _ c "DATATYPE-DEFINITION-XHTML" (oa "LONG-NAME" lxml_escape_for_html (dt_long_name c))
             (opt_attr "LONG-NAME" lxml_escape_for_html (dt_long_name c))).
    + reflexivity.
    + reflexivity.
    + unfold dt_attrs. okattrs_tac.
    + unfold unparse_data_type. strs.
    + renders. reflexivity.
    + parse_dt. reflexivity.
    + unfold normal_data_type, unparse_data_type. rewrite head_normal. reflexivity.
  - intros (H1 & H2 & H3 & H4).
    apply (rt_simple _ c "DATATYPE-DEFINITION-DATE" (ta "LONG-NAME" (dt_long_name c))
             (truthy_attr "LONG-NAME" (dt_long_name c))).
    + reflexivity.
    + reflexivity.
    + unfold dt_attrs. okattrs_tac.
    + unfold unparse_data_type. strs.
    + renders. reflexivity.
    + parse_dt. reflexivity.
    + unfold normal_data_type, unparse_data_type. rewrite head_normal_name.
      cbn [normal_common_name dt_long_name]. rewrite truthy_drop. reflexivity.
Qed.
End DataType.
