(** RT_AttrDef.v -- the attribute definition round trip *)
From Verif Require Import Base Xml Lxml Py LxmlStr Models AttrDef XmlProofs DictProofs
  SpecEscape EscapeProofs SpecPrint Frag RT RT_Header RT_DataType.

Lemma ok_def_tag t : okname (get_definition_tag t) = true. Proof. destruct t; reflexivity. Qed.
Lemma ok_value_tag t : okname (get_attribute_value_tag t) = true. Proof. destruct t; reflexivity. Qed.
Lemma ok_spec_tag t : okname (get_spec_type_tag t) = true. Proof. destruct t; reflexivity. Qed.
Lemma fmt_some s : fmt (Some s) = s. Proof. reflexivity. Qed.
(** an element containing a reference *)
Definition ref_str (o : option str) : str := match o with Some s => s | None => [] end.
Definition fref (t : str) (o : option str) : frag := fel t [] (ftxt (ref_str o) (ref_str o)).
Lemma fref_good p u t o : okname t = true -> ref_ok o -> good p u (fref t o).
Proof.
  intros HT (s & -> & _ & H). apply good_el_txt; [exact HT|split; [reflexivity|constructor]|]. apply text_raw_reads, H.
Qed.
Lemma fref_str t o : ref_ok o -> f_str (fref t o) = "<" ++ t ++ ">" ++ fmt o ++ "</" ++ t ++ ">".
Proof. intros (s & -> & _ & H). reflexivity. Qed.
Lemma fref_elements t o m : elements (f_n (fref t o) m) = [el t [] (ftxt (ref_str o) (ref_str o)) m].
Proof. reflexivity. Qed.
Lemma fref_use t o : f_use (fref t o) = false. Proof. reflexivity. Qed.
Lemma text_ref t o m : ref_ok o -> text (el t [] (ftxt (ref_str o) (ref_str o)) m) = o.
Proof. intros (s & -> & N & _). apply text_el_ne, N. Qed.
Ltac okname_tac := first [reflexivity|apply ok_def_tag|apply ok_value_tag|apply ok_spec_tag].
Ltac goods2 :=
  repeat first [apply good_app|apply good_ws; reflexivity|apply good_nil
    |apply fref_good; [okname_tac|assumption]
    |apply good_em; [okname_tac|okattrs_tac]|apply good_el; [okname_tac|okattrs_tac|]].
Ltac elems2 := repeat (elems; rewrite ?fref_elements; cbn [app]).
Ltac find_step := rewrite ?find_child_elements, ?children_el; elems2; rewrite ?find_cons; lits.

Section AttrDef.
Variables (p u : str) (ctx : nsmap -> Prop) (D : str -> Prop) (xuse : str -> bool).
Hypothesis DX : forall v, D v -> exists f, good p u f /\ f_str f = v /\ f_use f = xuse v
  /\ forall m, ctx m -> stringify_namespaced_children (el "THE-VALUE" [] f m) None = Ok v.

Definition ad_use (a : attr_def) : bool :=
  match ad_type a, ad_default_value a with AT_XHTML, DVStr v => xuse v | _, _ => false end.

Definition fdefn (t : str) (o : option str) : frag :=
  fel "DEFINITION" [] (fws (nl ++ "                    ") +++ fref t o +++ fws (nl ++ "                  ")).
Definition fdefval (g : frag) (a : attr_def) (v : str) : frag :=
  match ad_type a with
  | AT_BOOLEAN =>
      fel "ATTRIBUTE-VALUE-BOOLEAN" [PA "THE-VALUE" v v]
        (fws (nl ++ "                  ")
         +++ fdefn "ATTRIBUTE-DEFINITION-BOOLEAN-REF" (ad_default_value_definition_ref a)
         +++ fws (nl ++ "                "))
  | AT_ENUMERATION =>
      fel "ATTRIBUTE-VALUE-ENUMERATION" []
        (fws (nl ++ "                  ")
         +++ fdefn "ATTRIBUTE-DEFINITION-ENUMERATION-REF" (ad_default_value_definition_ref a)
         +++ fws (nl ++ "                  ")
         +++ fel "VALUES" [] (fws (nl ++ "                    ") +++ fref "ENUM-VALUE-REF" (Some v)
                              +++ fws (nl ++ "                  "))
         +++ fws (nl ++ "                "))
  | AT_XHTML =>
      fel "ATTRIBUTE-VALUE-XHTML" []
        (fws (nl ++ "                  ")
         +++ fdefn "ATTRIBUTE-DEFINITION-XHTML-REF" (ad_default_value_definition_ref a)
         +++ fws (nl ++ "                  ")
         +++ fel "THE-VALUE" [] g
         +++ fws (nl ++ "                "))
  | t => fem (get_attribute_value_tag t) [PA "THE-VALUE" v v]
  end.
Definition fdefault (g : frag) (a : attr_def) : frag :=
  match ad_default_value a with
  | DVNone => fnil
  | DVEmptyTag => fws "              " +++ fem "DEFAULT-VALUE" [] +++ fws nl
  | DVStr v =>
      fws "              "
      +++ fel "DEFAULT-VALUE" [] (fws (nl ++ "                ") +++ fdefval g a v +++ fws (nl ++ "              "))
      +++ fws nl
  end.
Definition ftype (a : attr_def) : frag :=
  fws "              "
  +++ fel "TYPE" [] (fws (nl ++ "                ") +++ fref (get_definition_tag (ad_type a)) (ad_datatype_definition a)
                     +++ fws (nl ++ "              "))
  +++ fws nl.
Definition fad (g : frag) (a : attr_def) (t : option str) : frag :=
  if ostr_eqb t (Some "DEFAULT-VALUE") then fdefault g a
  else if ostr_eqb t (Some "TYPE") then ftype a else fnil.

Definition g_ok (g : frag) (a : attr_def) : Prop :=
  good p u g /\ f_use g = ad_use a /\
  forall v, ad_type a = AT_XHTML -> ad_default_value a = DVStr v ->
    f_str g = v /\ forall m, ctx m -> stringify_namespaced_children (el "THE-VALUE" [] g m) None = Ok v.

Lemma g_exists a : printable_default D a -> exists g, g_ok g a.
Proof.
  unfold printable_default, g_ok, ad_use. intros H. destruct (ad_type a); try (exists fnil; split; [apply good_nil|]; split; [reflexivity|discriminate]).
  destruct (ad_default_value a) as [| |v]; try (exists fnil; split; [apply good_nil|]; split; [reflexivity|discriminate]).
  destruct H as [_ H]. destruct (DX v H) as (f & F1 & F2 & F3 & F4). exists f. split; [exact F1|]. split; [exact F3|].
  intros v' _ E. assert (v = v') by congruence. subst v'. auto.
Qed.

Lemma fdefault_good g a : printable_default D a -> g_ok g a -> good p u (fdefault g a).
Proof.
  unfold printable_default. intros H (G1 & G2 & G3). unfold fdefault. destruct (ad_default_value a) as [| |v].
  - apply good_nil.
  - goods2.
  - unfold fdefval, fdefn. destruct (ad_type a); try (goods2; fail).
    + destruct H as (H1 & H2 & H3). assert (HR : ref_ok (Some v)) by (exists v; auto). goods2.
    + destruct H as (H1 & H2). goods2.
    + destruct H as (H1 & H2). goods2. exact G1.
Qed.
Lemma fdefault_str g a : printable_default D a -> g_ok g a ->
  unparse_attribute_default_value a = Ok (f_str (fdefault g a)).
Proof.
  unfold printable_default. intros H (G1 & G2 & G3). unfold unparse_attribute_default_value, fdefault.
  destruct (ad_default_value a) as [| |v] eqn:EV; [reflexivity..|].
  unfold unparse_default_str, fdefval, fdefn. destruct (ad_type a) eqn:ET; try (f_equal; frags; rewrite render_one; strs).
  - destruct H as ((s & -> & _) & H2 & H3). f_equal. unfold fref. frags. strs.
  - destruct H as ((s & -> & _) & H2). f_equal. unfold fref. frags. rewrite render_one. strs.
  - destruct H as ((s & -> & _) & H2). f_equal. unfold fref. frags. destruct (G3 v eq_refl eq_refl) as [-> _]. strs.
Qed.
Lemma fdefault_use g a : g_ok g a -> f_use (fdefault g a) = ad_use a.
Proof.
  unfold ad_use. intros (G1 & G2 & G3). unfold ad_use in G2. unfold fdefault. destruct (ad_default_value a) as [| |v]; [destruct (ad_type a); reflexivity..|].
  unfold fdefval, fdefn. destruct (ad_type a); try reflexivity. frags. rewrite fref_use, G2. cbn [orb]. rewrite !orb_false_r. reflexivity.
Qed.
Lemma fdefault_elements g a m :
  elements (f_n (fdefault g a) m)
  = match ad_default_value a with
    | DVNone => []
    | DVEmptyTag => [el "DEFAULT-VALUE" [] fnil m]
    | DVStr v => [el "DEFAULT-VALUE" [] (fws (nl ++ "                ") +++ fdefval g a v +++ fws (nl ++ "              ")) m]
    end.
Proof. unfold fdefault. destruct (ad_default_value a); [reflexivity|elems; reflexivity..]. Qed.
Lemma ftype_elements a m :
  elements (f_n (ftype a) m)
  = [el "TYPE" [] (fws (nl ++ "                ") +++ fref (get_definition_tag (ad_type a)) (ad_datatype_definition a)
                     +++ fws (nl ++ "              ")) m].
Proof. unfold ftype. elems. reflexivity. Qed.
Lemma ftype_str a : ref_ok (ad_datatype_definition a) -> f_str (ftype a) = unparse_attribute_type a.
Proof. intros (s & E & _). unfold ftype, unparse_attribute_type, fref. rewrite E. frags. strs. Qed.
Lemma fad_ok g a m tags : Forall (fun t => t = Some "DEFAULT-VALUE" \/ t = Some "TYPE") tags ->
  block_ok (fad g a) tags m.
Proof.
  intros H t Ht. rewrite Forall_forall in H. destruct (H t Ht) as [->| ->]; unfold fad; lits.
  - rewrite fdefault_elements. unfold fdefault. destruct (ad_default_value a); [left; split; reflexivity|right; eexists; split; reflexivity..].
  - right. rewrite ftype_elements. eexists. split; reflexivity.
Qed.

(** reading the default value *)
Lemma parse_default_ok g a n m : printable_default D a -> g_ok g a -> ctx m ->
  find_child "DEFAULT-VALUE" n = hd_error (elements (f_n (fdefault g a) m)) ->
  parse_default_value (ad_type a) n
  = Ok (match ad_default_value a, ad_type a with
     | DVStr _, (AT_BOOLEAN | AT_ENUMERATION | AT_XHTML) => ad_default_value_definition_ref a
     | _, _ => None end, ad_default_value a).
Proof.
  unfold printable_default. intros H (G1 & G2 & G3) Hm HF. rewrite fdefault_elements in HF.
  destruct (ad_default_value a) as [| |v] eqn:EV; cbn [hd_error] in HF.
  - destruct (ad_type a); unfold parse_default_value, parse_default_string, parse_default_simple, parse_default_boolean,
      parse_default_xhtml, parse_default_enum; rewrite HF; reflexivity.
  - destruct H as [->|[->| ->]]; unfold parse_default_value, parse_default_string, parse_default_xhtml, parse_default_enum;
      rewrite HF, self_closed_el; reflexivity.
  - assert (SC : forall x, elements (f_n (fws (nl ++ "                ") +++ x +++ fws (nl ++ "              ")) m) = elements (f_n x m))
      by (intros x; elems; reflexivity).
    destruct (ad_type a) eqn:ET; unfold parse_default_value, parse_default_string, parse_default_simple, parse_default_boolean,
      parse_default_xhtml, parse_default_enum; rewrite HF, ?self_closed_el, ?find_child_elements, ?children_el, ?SC;
      unfold fdefval; rewrite ET; elems; rewrite ?find_cons; lits.
    1,3,4,6: attrs; reflexivity.
    + destruct H as (H1 & H2 & H3). unfold fdefn. find_step. unfold find_req. find_step. cbn [bind]. find_step. find_step.
      rewrite !text_ref by (assumption || (exists v; auto)). reflexivity.
    + destruct H as (H1 & H2). attrs. unfold fdefn. find_step. find_step. rewrite text_ref by assumption. reflexivity.
    + destruct H as (H1 & H2). unfold fdefn. find_step. find_step. rewrite text_ref by assumption. cbn [bind]. unfold find_req. find_step.
      cbn [bind]. destruct (G3 v eq_refl eq_refl) as [_ G4]. rewrite G4 by exact Hm. reflexivity.
Qed.

Definition fattr_def_attrs (a : attr_def) : list pattr :=
  oa "DESC" lxml_escape_for_html (ad_description a) ++ [PA "IDENTIFIER" (ad_identifier a) (ad_identifier a)]
  ++ ob "IS-EDITABLE" (ad_editable a) ++ ta "LAST-CHANGE" (ad_last_change a)
  ++ oa "LONG-NAME" lxml_escape_for_html (ad_long_name a) ++ ob "MULTI-VALUED" (ad_multi_valued a).
Definition fattr_def (g : frag) (a : attr_def) : frag :=
  fws "            "
  +++ fel (get_spec_type_tag (ad_type a)) (fattr_def_attrs a) (fws nl +++ fblocks (fad g a) (ad_order a) +++ fws "            ")
  +++ fws nl.
Definition ad_with (n : node) (a : attr_def) : attr_def :=
  AttrDef (ad_type a) (ad_identifier a) (ad_datatype_definition a) (Some n) (ad_description a)
    (ad_last_change a) (ad_long_name a) (ad_editable a) (ad_default_value_definition_ref a)
    (ad_default_value a) (ad_multi_valued a).
Lemma unparse_ad_child_normal n a t : unparse_ad_child (ad_with n (normal_attr_def a)) t = unparse_ad_child a t.
Proof.
  unfold unparse_ad_child. destruct (ostr_eqb t (Some "DEFAULT-VALUE")); [|reflexivity].
  unfold unparse_attribute_default_value. cbn [ad_with normal_attr_def ad_default_value]. destruct (ad_default_value a) eqn:EV; try reflexivity.
  unfold unparse_default_str. cbn [ad_with normal_attr_def ad_default_value ad_type ad_default_value_definition_ref]. rewrite EV.
  destruct (ad_type a); reflexivity.
Qed.
Lemma bool_str_true b : str_eqb (bool_str b) "true" = b. Proof. destruct b; reflexivity. Qed.
Lemma type_of_spec_tag t : attr_type_of_def_tag (Some (get_spec_type_tag t)) = Some t.
Proof. destruct t; reflexivity. Qed.

Lemma rt_attr_def a : printable_attr_def D a ->
  rt p u ctx unparse_attribute_definition parse_attribute_definition erase_attr_def normal_attr_def ad_use a.
Proof.
  intros (H1 & H2 & H3 & H4 & H5 & H6 & H7 & H8 & H9 & H10). destruct (g_exists a H7) as (g & G).
  assert (HB : forall m, block_ok (fad g a) (ad_order a) m) by (intros m; apply fad_ok, H8).
  assert (HPR : forall t, In t (ad_order a) -> unparse_ad_child a t = Ok (f_str (fad g a t))).
  { intros t Ht. rewrite Forall_forall in H8. destruct (H8 t Ht) as [->| ->]; unfold unparse_ad_child, fad; lits.
    - apply fdefault_str; assumption.
    - rewrite ftype_str by assumption. reflexivity. }
  exists (fattr_def g a). split; [|split; [|split]].
  - unfold fattr_def, fattr_def_attrs. goods2. apply good_blocks. intros t Ht. unfold fad.
    destruct (ostr_eqb t (Some "DEFAULT-VALUE")); [apply fdefault_good; assumption|].
    destruct (ostr_eqb t (Some "TYPE")); [|apply good_nil]. unfold ftype. goods2.
  - unfold unparse_attribute_definition. change (tags_or (ad_xml_node a) ["DEFAULT-VALUE"; "TYPE"]) with (ad_order a).
    pose proof (blocks_print (fad g a) (ad_order a) _ HPR) as HP. destruct (mapM _ _) as [parts|]; [|discriminate].
    cbn [bind] in HP |- *. apply Ok_inj in HP. f_equal. unfold fattr_def, fattr_def_attrs. frags. rewrite HP. renders. strs.
  - unfold fattr_def. frags. rewrite blocks_use. cbn [orb]. rewrite !orb_false_r.
    unfold ad_use. destruct (existsb _ _) eqn:EX; symmetry.
    + apply existsb_exists in EX. destruct EX as (t & _ & Ht). unfold fad in Ht. destruct (ostr_eqb t (Some "DEFAULT-VALUE")).
      * rewrite (fdefault_use g a G) in Ht. exact Ht.
      * destruct (ostr_eqb t (Some "TYPE")); discriminate.
    + destruct (ad_type a) eqn:ET; try reflexivity. destruct (ad_default_value a) as [| |v] eqn:EV; try reflexivity.
      assert (HI : In (Some "DEFAULT-VALUE") (ad_order a)) by (apply H10; discriminate).
      destruct (xuse v) eqn:EU; [|reflexivity]. rewrite <- EX. symmetry. apply existsb_exists. exists (Some "DEFAULT-VALUE"). split; [exact HI|].
      unfold fad. lits. rewrite (fdefault_use g a G). unfold ad_use. rewrite ET, EV. exact EU.
  - intros m Hm.
    set (n := el (get_spec_type_tag (ad_type a)) (fattr_def_attrs a) (fws nl +++ fblocks (fad g a) (ad_order a) +++ fws "            ") m).
    assert (EC : children n = elements (f_n (fblocks (fad g a) (ad_order a)) m)) by (unfold n; rewrite children_el; elems; reflexivity).
    exists n, (ad_with n (normal_attr_def a)). split; [|split; [|split]].
    + unfold fattr_def. elems. reflexivity.
    + assert (HA : forall k, attr_opt k n = assoc k (map attr_of (fattr_def_attrs a))) by (intros k; apply attr_el).
      assert (HTG : tag n = Some (get_spec_type_tag (ad_type a))) by reflexivity.
      assert (HT : parse_datatype_ref (ad_type a) n = Ok (ad_datatype_definition a)).
      { unfold parse_datatype_ref, find_req. rewrite find_child_elements, EC, find_blocks by apply HB.
        assert (EM : ostr_mem (Some "TYPE") (ad_order a) = true) by (apply ostr_mem_In; exact H9). rewrite EM.
        unfold fad. lits. rewrite ftype_elements. cbn [hd_error bind]. rewrite find_child_elements, children_el. elems2. rewrite find_cons, str_eqb_refl.
        cbn [bind or_not_impl]. rewrite text_ref by exact H2. reflexivity. }
      unfold parse_attribute_definition, parse_multi_valued, attr_req. rewrite HTG, type_of_spec_tag, HT, !HA. clearbody n. unfold fattr_def_attrs. attrs.
      rewrite (parse_default_ok g a n m H7 G Hm).
      2: { rewrite find_child_elements, EC, find_blocks by apply HB. unfold fad. lits.
           destruct (ostr_mem (Some "DEFAULT-VALUE") (ad_order a)) eqn:EM; [reflexivity|].
           rewrite fdefault_elements. destruct (ad_default_value a) eqn:EV; [reflexivity| |];
             exfalso; assert (HI : In (Some "DEFAULT-VALUE") (ad_order a)) by (apply H10; discriminate);
             apply ostr_mem_In in HI; congruence. }
      cbn [bind]. unfold ad_with, normal_attr_def. cbn [ad_type ad_identifier ad_datatype_definition ad_description ad_last_change ad_long_name ad_editable
        ad_default_value_definition_ref ad_default_value ad_multi_valued]. f_equal. f_equal.
      * unfold editable_of. destruct (ad_editable a) as [[]|]; reflexivity.
      * destruct (ad_type a) eqn:ET; try (symmetry; apply H6; discriminate).
        destruct (ad_multi_valued a) as [[]|]; reflexivity.
    + reflexivity.
    + unfold unparse_attribute_definition.
      cbn [ad_with ad_xml_node tags_or]. unfold child_tags. rewrite EC.
      pose proof (blocks_reprint (fad g a) (ad_order a) (unparse_ad_child (ad_with n (normal_attr_def a))) m (HB m)) as HR.
      change (order_of (ad_xml_node a) ["DEFAULT-VALUE"; "TYPE"]) with (ad_order a).
      change (tags_or (ad_xml_node a) ["DEFAULT-VALUE"; "TYPE"]) with (ad_order a).
      pose proof (blocks_print (fad g a) (ad_order a) _ HPR) as HP.
      change (mapM (unparse_ad_child (AttrDef _ _ _ _ _ _ _ _ _ _ _))) with (mapM (unparse_ad_child (ad_with n (normal_attr_def a)))).
      rewrite <- HP in HR. destruct (mapM (unparse_ad_child a) _) as [parts|]; [|discriminate].
      destruct (mapM _ _) as [parts'|e]; cbn [bind] in *.
      * f_equal. apply Ok_inj in HP. rewrite HP. assert (HR' : Ok (concat parts') = Ok (f_str (fblocks (fad g a) (ad_order a)))).
        { rewrite <- HP. apply HR. intros t Ht _. rewrite unparse_ad_child_normal. apply HPR, Ht. }
        apply Ok_inj in HR'. rewrite HR'. unfold ad_with, normal_attr_def. cbn [ad_type ad_identifier ad_description ad_last_change ad_long_name ad_editable ad_multi_valued].
        rewrite truthy_drop. reflexivity.
      * assert (HR' : Raise e = Ok (concat parts)).
        { apply HR. intros t Ht _. rewrite unparse_ad_child_normal. apply HPR, Ht. }
        discriminate.
Qed.
End AttrDef.
