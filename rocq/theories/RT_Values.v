(** RT_Values.v -- the attribute value, spec object and spec relation round trips *)
From Verif Require Import Base Xml Lxml Py LxmlStr Models AttrDef DataType AttrValue SpecObj XmlProofs DictProofs
  SpecEscape EscapeProofs SpecPrint Frag RT RT_Header RT_DataType RT_AttrDef RT_SpecTypes.

(** what parse_xhtml_attribute_value computes from the THE-VALUE element *)
Definition xhtml_pair (tv : node) : result (str * str) :=
  match node_nsmap tv with
  | _ :: _ =>
      let! v := stringify_namespaced_children tv None in
      let! s := convert_children_from_reqif_ns tv in
      Ok (v, reqif_unindent_xhtml_string s)
  | [] =>
      let! v := stringify_children tv in
      Ok (v, reqif_unindent_xhtml_string v)
  end.

Lemma rstrip_gt s : rstrip ((s ++ ">") ++ nl) = s ++ ">".
Proof. unfold rstrip. rewrite !rev_app_distr. cbn [rev app nl lstrip py_space]. cbn. rewrite rev_involutive. reflexivity. Qed.

Lemma ok_ref_tag t : okname (get_spec_type_tag t ++ "-REF") = true. Proof. destruct t; reflexivity. Qed.
Ltac goods3 :=
  repeat first [apply good_app|apply good_ws; reflexivity|apply good_nil
    |apply fref_good; [first [okname_tac|apply ok_ref_tag]|assumption]
    |apply good_em; [okname_tac|okattrs_tac]|apply good_el; [okname_tac|okattrs_tac|]].

(** a block with one reference in it *)
Definition fblock (ind : str) (t : str) (rt : str) (o : option str) : frag :=
  fws ind +++ fel t [] (fws (nl ++ ind ++ "  ") +++ fref rt o +++ fws (nl ++ ind)) +++ fws nl.
Definition nblock (ind t rt : str) (o : option str) (m : nsmap) : node :=
  el t [] (fws (nl ++ ind ++ "  ") +++ fref rt o +++ fws (nl ++ ind)) m.
Lemma fblock_elements ind t r o m : elements (f_n (fblock ind t r o) m) = [nblock ind t r o m].
Proof. unfold fblock. elems. reflexivity. Qed.
Lemma fblock_use ind t r o : f_use (fblock ind t r o) = false.
Proof. reflexivity. Qed.
Lemma fblock_str ind t r o : ref_ok o ->
  f_str (fblock ind t r o)
  = ind ++ "<" ++ t ++ ">" ++ nl ++ ind ++ "  <" ++ r ++ ">" ++ fmt o ++ "</" ++ r ++ ">" ++ nl ++ ind ++ "</" ++ t ++ ">" ++ nl.
Proof. intros H. unfold fblock. frags. rewrite fref_str by exact H. strs. Qed.
Lemma spaces_white k : forallb text_plain (spaces k) = true.
Proof. induction k; [reflexivity|assumption]. Qed.
Lemma fblock_good p u k t r o : okname t = true -> okname r = true -> ref_ok o -> good p u (fblock (spaces k) t r o).
Proof.
  intros H1 H2 H3. unfold fblock. apply good_app; [apply good_ws, spaces_white|]. apply good_app; [|apply good_ws; reflexivity].
  apply good_el; [exact H1|split; [reflexivity|constructor]|]. apply good_app.
  - apply good_ws. rewrite !forallb_app, spaces_white. reflexivity.
  - apply good_app; [apply fref_good; assumption|]. apply good_ws. rewrite forallb_app, spaces_white. reflexivity.
Qed.
Lemma nblock_tag ind t r o m : tag (nblock ind t r o m) = Some t. Proof. reflexivity. Qed.
Lemma nblock_child ind t r o m : children (nblock ind t r o m) = [el r [] (ftxt (ref_str o) (ref_str o)) m].
Proof. unfold nblock. rewrite children_el. elems2. reflexivity. Qed.
Lemma nblock_find ind t r o m : find_child r (nblock ind t r o m) = Some (el r [] (ftxt (ref_str o) (ref_str o)) m).
Proof. rewrite find_child_elements, nblock_child, find_cons, str_eqb_refl. reflexivity. Qed.

Section Values.
Variables (p u : str) (ctx : nsmap -> Prop) (V : str -> Prop) (strip : str -> str) (xuse : str -> bool).
Hypothesis VX : forall v, V v -> exists f, good p u f /\ f_str f = v /\ f_use f = xuse v
  /\ forall m, ctx m -> xhtml_pair (el "THE-VALUE" [] f m) = Ok (v, strip v).

Definition sa_use (a : spec_attr) : bool :=
  match sa_type a, sa_value a with AT_XHTML, VStr v => xuse v | _, _ => false end.
Definition v_ok (g : frag) (a : spec_attr) : Prop :=
  good p u g /\ f_use g = sa_use a /\
  forall v, sa_type a = AT_XHTML -> sa_value a = VStr v ->
    f_str g = v /\ forall m, ctx m -> xhtml_pair (el "THE-VALUE" [] g m) = Ok (v, strip v).
Lemma v_exists a : printable_value V a -> exists g, v_ok g a.
Proof.
  unfold printable_value, v_ok, sa_use. intros [_ H]. destruct (sa_type a); try (exists fnil; split; [apply good_nil|]; split; [reflexivity|discriminate]).
  destruct (sa_value a) as [v|l]; [|destruct H].
  destruct (VX v H) as (f & F1 & F2 & F3 & F4). exists f. split; [exact F1|]. split; [exact F3|].
  intros v' _ E. assert (v = v') by congruence. subst v'. auto.
Qed.

Definition fvdef (t : attr_type) (o : option str) : frag :=
  fblock (spaces 14) "DEFINITION" (get_spec_type_tag t ++ "-REF") o.
Fixpoint fenums (l : list (option str)) : frag :=
  match l with
  | [] => fnil
  | [v] => fws "                " +++ fref "ENUM-VALUE-REF" v
  | v :: l' => fws "                " +++ fref "ENUM-VALUE-REF" v +++ fws nl +++ fenums l'
  end.
Lemma fenums_good l : Forall ref_ok l -> good p u (fenums l).
Proof.
  induction 1 as [|v l Hv Hl IH]; [apply good_nil|]. destruct l as [|w l].
  - cbn [fenums]. goods3.
  - change (fenums (v :: w :: l)) with (fws "                " +++ fref "ENUM-VALUE-REF" v +++ fws nl +++ fenums (w :: l)). goods3. exact IH.
Qed.
Lemma fenums_str l : Forall ref_ok l -> f_str (fenums l) = rstrip (flat_map enum_value_template l).
Proof.
  intros H. destruct l as [|v l]; [reflexivity|].
  assert (E : flat_map enum_value_template (v :: l) = f_str (fenums (v :: l)) ++ nl).
  { revert v H. induction l as [|w l IH]; intros v H; inversion H; subst.
    - cbn [fenums flat_map]. frags. rewrite fref_str by assumption. unfold enum_value_template. rewrite app_nil_r. strs.
    - change (flat_map enum_value_template (v :: w :: l)) with (enum_value_template v ++ flat_map enum_value_template (w :: l)).
      rewrite IH by assumption.
      change (fenums (v :: w :: l)) with (fws "                " +++ fref "ENUM-VALUE-REF" v +++ fws nl +++ fenums (w :: l)).
      cbn [fapp f_str]. rewrite fref_str by assumption. unfold enum_value_template. cbn [fws ftxt f_str]. strs. }
  rewrite E. assert (G : exists x, f_str (fenums (v :: l)) = x ++ ">").
  { clear E. revert v H. induction l as [|w l IH]; intros v H; inversion H; subst.
    - cbn [fenums]. frags. rewrite fref_str by assumption. exists ("                " ++ "<" ++ "ENUM-VALUE-REF" ++ ">" ++ fmt v ++ "</" ++ "ENUM-VALUE-REF"). strs.
    - destruct (IH w) as (x & E); [assumption|].
      change (fenums (v :: w :: l)) with (fws "                " +++ fref "ENUM-VALUE-REF" v +++ fws nl +++ fenums (w :: l)).
      cbn [fapp f_str]. rewrite E. exists ("                " ++ f_str (fref "ENUM-VALUE-REF" v) ++ nl ++ x). cbn [fws ftxt f_str]. strs. }
  destruct G as (x & ->). rewrite rstrip_gt. reflexivity.
Qed.
Lemma fenums_use l : f_use (fenums l) = false.
Proof. induction l as [|v [|w l] IH]; [reflexivity|reflexivity|]. exact IH. Qed.
Lemma fenums_elements l m : elements (f_n (fenums l) m) = map (fun o => el "ENUM-VALUE-REF" [] (ftxt (ref_str o) (ref_str o)) m) l.
Proof.
  induction l as [|v [|w l] IH]; [reflexivity|cbn [fenums]; elems2; reflexivity|].
  change (fenums (v :: w :: l)) with (fws "                " +++ fref "ENUM-VALUE-REF" v +++ fws nl +++ fenums (w :: l)).
  cbn [fapp f_n]. rewrite !elements_app, IH. cbn [fws ftxt f_n]. rewrite !elements_chr, fref_elements. reflexivity.
Qed.
Definition fvvalues (l : list (option str)) : frag :=
  fws "              " +++ fel "VALUES" [] (fws nl +++ fenums l +++ fws (nl ++ "              ")) +++ fws nl.
Definition nvvalues (l : list (option str)) (m : nsmap) : node :=
  el "VALUES" [] (fws nl +++ fenums l +++ fws (nl ++ "              ")) m.

Definition first_values (a : spec_attr) : bool :=
  match values_first_order (sa_xml_node a) with Ok b => b | Raise _ => false end.
Definition value_tag (a : spec_attr) : str := get_attribute_value_tag (sa_type a).
Definition value_attrs (a : spec_attr) : list pattr :=
  match sa_type a, sa_value a with
  | (AT_ENUMERATION | AT_XHTML), _ | _, VList _ => []
  | AT_STRING, VStr v => [PA "THE-VALUE" (html_escape v) v]
  | _, VStr v => [PA "THE-VALUE" v v]
  end.
Definition fvbody (g : frag) (a : spec_attr) : frag :=
  match sa_type a, sa_value a with
  | AT_ENUMERATION, VList l =>
      fws nl +++ (if first_values a then fvvalues l +++ fvdef (sa_type a) (sa_definition_ref a)
                  else fvdef (sa_type a) (sa_definition_ref a) +++ fvvalues l)
      +++ fws "            "
  | AT_XHTML, _ =>
      fws nl +++ fvdef (sa_type a) (sa_definition_ref a)
      +++ fws "              " +++ fel "THE-VALUE" [] g +++ fws (nl ++ "            ")
  | _, _ => fws nl +++ fvdef (sa_type a) (sa_definition_ref a) +++ fws "            "
  end.
Definition fvalue (g : frag) (a : spec_attr) : frag :=
  fws "            " +++ fel (value_tag a) (value_attrs a) (fvbody g a) +++ fws nl.
Definition nvalue (g : frag) (a : spec_attr) (m : nsmap) : node :=
  el (value_tag a) (value_attrs a) (fvbody g a) m.
Lemma fvalue_elements g a m : elements (f_n (fvalue g a) m) = [nvalue g a m].
Proof. unfold fvalue. elems. reflexivity. Qed.

Definition sa_with (n : node) (a : spec_attr) : spec_attr :=
  SpecAttr (sa_type a) (sa_definition_ref a) (sa_value a)
    (match sa_type a, sa_value a with AT_XHTML, VStr v => Some (strip v) | _, _ => None end) (Some n).

Lemma index_In x l : In x l -> exists i, index_of x l = Some i.
Proof.
  induction l as [|y l IH]; [intros []|]. intros H. cbn [index_of]. destruct (ostr_eqb_spec x y) as [E|N]; [eauto|].
  destruct H as [E|H]; [congruence|]. destruct (IH H) as (i & ->). exists (S i). reflexivity.
Qed.
Lemma first_values_ok a : In (Some "VALUES") (value_order a) -> In (Some "DEFINITION") (value_order a) ->
  values_first_order (sa_xml_node a) = Ok (first_values a).
Proof.
  intros H1 H2. unfold first_values, values_first_order. change (tags_or (sa_xml_node a) ["VALUES"; "DEFINITION"]) with (value_order a).
  destruct (index_In _ _ H1) as (i & ->), (index_In _ _ H2) as (j & ->). reflexivity.
Qed.

Lemma fvalue_good g a : printable_value V a -> v_ok g a -> good p u (fvalue g a).
Proof.
  unfold printable_value. intros [HR H] (G1 & G2 & G3). unfold fvalue, value_tag.
  apply good_app; [apply good_ws; reflexivity|]. apply good_app; [|apply good_ws; reflexivity].
  assert (HD : forall t, good p u (fvdef t (sa_definition_ref a))) by (intros t; apply fblock_good; [reflexivity|apply ok_ref_tag|exact HR]).
  apply good_el; [apply ok_value_tag| |].
  - unfold value_attrs. destruct (sa_type a), (sa_value a); try (now destruct H); first [solve [split; [reflexivity|constructor]]|okattrs_tac].
  - unfold fvbody. destruct (sa_type a), (sa_value a) as [v|l]; try (now destruct H);
      try (apply good_app; [apply good_ws; reflexivity|]; apply good_app; [apply HD|apply good_ws; reflexivity]).
    + destruct H as (H1 & _). assert (HV : good p u (fvvalues l)) by (unfold fvvalues; goods3; apply fenums_good, H1).
      apply good_app; [apply good_ws; reflexivity|]. apply good_app; [|apply good_ws; reflexivity].
      destruct (first_values a); apply good_app; auto.
    + goods3. exact G1.
Qed.
Lemma fvdef_str t o : ref_ok o ->
  f_str (fvdef t o) = "              <DEFINITION>" ++ nl ++ "                <" ++ get_spec_type_tag t ++ "-REF>" ++ fmt o
    ++ "</" ++ get_spec_type_tag t ++ "-REF>" ++ nl ++ "              </DEFINITION>" ++ nl.
Proof. intros H. unfold fvdef. rewrite fblock_str by exact H. strs. Qed.
Lemma fvalue_str g a : printable_value V a -> v_ok g a -> unparse_attribute_value a = Ok (f_str (fvalue g a)).
Proof.
  unfold printable_value. intros [HR H] (G1 & G2 & G3). unfold unparse_attribute_value, fvalue, value_tag, value_attrs, fvbody.
  destruct (sa_type a) eqn:ET, (sa_value a) as [v|l] eqn:EV; try (now destruct H);
    try (unfold value_template; cbn [fapp fel f_str fws ftxt]; rewrite fvdef_str, render_one by exact HR; f_equal; strs).
  - destruct H as (H1 & H2 & H3). rewrite first_values_ok by assumption. cbn [bind]. f_equal. unfold enum_template, enum_values_part, enum_definition_part.
    rewrite <- fenums_str by exact H1. unfold fvvalues. destruct (first_values a); cbn [fapp fel f_str fws ftxt]; rewrite fvdef_str by exact HR; strs.
  - destruct (G3 v eq_refl eq_refl) as [E _]. unfold xhtml_template. cbn [fapp fel f_str fws ftxt]. rewrite fvdef_str by exact HR. rewrite E. f_equal. strs.
Qed.
Lemma fvalue_use g a : v_ok g a -> f_use (fvalue g a) = sa_use a.
Proof.
  intros (G1 & G2 & G3). unfold fvalue, fvbody. unfold sa_use in *. destruct (sa_type a), (sa_value a) as [v|l]; try reflexivity.
  - unfold fvvalues. destruct (first_values a); cbn [fapp fel f_use fws ftxt]; rewrite fenums_use; reflexivity.
  - cbn [fapp fel f_use fws ftxt]. unfold fvdef. rewrite fblock_use. cbn [orb]. rewrite !orb_false_r. exact G2.
  - cbn [fapp fel f_use fws ftxt]. unfold fvdef. rewrite fblock_use. cbn [orb]. rewrite !orb_false_r. exact G2.
Qed.

Definition ndef (a : spec_attr) (m : nsmap) : node :=
  nblock (spaces 14) "DEFINITION" (get_spec_type_tag (sa_type a) ++ "-REF") (sa_definition_ref a) m.
Lemma nvalue_children g a m :
  children (nvalue g a m)
  = match sa_type a, sa_value a with
    | AT_ENUMERATION, VList l => if first_values a then [nvvalues l m; ndef a m] else [ndef a m; nvvalues l m]
    | AT_XHTML, _ => [ndef a m; el "THE-VALUE" [] g m]
    | _, _ => [ndef a m]
    end.
Proof.
  unfold nvalue. rewrite children_el. unfold fvbody.
  assert (E1 : forall l, elements (f_n (fvvalues l) m) = [nvvalues l m]) by (intros l; unfold fvvalues; elems; reflexivity).
  assert (E2 : elements (f_n (fvdef (sa_type a) (sa_definition_ref a)) m) = [ndef a m]) by apply fblock_elements.
  destruct (sa_type a) eqn:ET, (sa_value a) as [v|l]; try (cbn [fapp f_n]; rewrite !elements_app, E2; cbn [fws ftxt f_n]; rewrite !elements_chr; reflexivity).
  - cbn [fapp f_n]. rewrite !elements_app. destruct (first_values a); cbn [fapp f_n]; rewrite !elements_app, E1, E2; cbn [fws ftxt f_n]; rewrite !elements_chr; reflexivity.
Qed.
Lemma ndef_text a m : ref_ok (sa_definition_ref a) ->
  find_child (get_spec_type_tag (sa_type a) ++ "-REF") (ndef a m)
    = Some (el (get_spec_type_tag (sa_type a) ++ "-REF") [] (ftxt (ref_str (sa_definition_ref a)) (ref_str (sa_definition_ref a))) m).
Proof. intros H. apply nblock_find. Qed.
Lemma definition_ref_ok n a m : ref_ok (sa_definition_ref a) -> find_list "DEFINITION" (children n) = Some (ndef a m) ->
  definition_ref_text (get_spec_type_tag (sa_type a) ++ "-REF") n = Ok (sa_definition_ref a).
Proof.
  intros H1 H2. unfold definition_ref_text, find_req. rewrite find_child_elements, H2. cbn [bind]. rewrite ndef_text by exact H1.
  cbn [bind]. rewrite text_ref by exact H1. reflexivity.
Qed.
Lemma grandchild_ok n a m l : ref_ok (sa_definition_ref a) -> children n = ndef a m :: l -> first_grandchild_text n = Ok (sa_definition_ref a).
Proof.
  intros H1 H2. unfold first_grandchild_text, child_at. rewrite H2. cbn [nth_error bind]. unfold ndef. rewrite nblock_child. cbn [nth_error bind].
  rewrite text_ref by exact H1. reflexivity.
Qed.
Lemma find_ndef t a m l : find_list t (ndef a m :: l) = if str_eqb "DEFINITION" t then Some (ndef a m) else find_list t l.
Proof. apply find_cons. Qed.
Lemma find_nvvalues t l0 m l : find_list t (nvvalues l0 m :: l) = if str_eqb "VALUES" t then Some (nvvalues l0 m) else find_list t l.
Proof. apply find_cons. Qed.
Lemma nvalue_attr g a m k : attr_opt k (nvalue g a m) = assoc k (map attr_of (value_attrs a)).
Proof. apply attr_el. Qed.
Lemma nvalue_tag t g a m : tag_is t (nvalue g a m) = str_eqb (value_tag a) t.
Proof. reflexivity. Qed.

Lemma xhtml_ok g a m v : printable_value V a -> v_ok g a -> ctx m -> sa_type a = AT_XHTML -> sa_value a = VStr v ->
  parse_xhtml_attribute_value (nvalue g a m) = Ok (sa_with (nvalue g a m) a).
Proof.
  intros [HR H] (G1 & G2 & G3) Hm ET EV. destruct (G3 v ET EV) as [_ GX]. pose proof (nvalue_children g a m) as HC. rewrite ET in HC.
  unfold parse_xhtml_attribute_value, nvalue at 1. rewrite tag_contains_el. unfold value_tag at 1. rewrite ET. lits. cbn [bind py_assert].
  unfold find_req. rewrite find_child_elements, HC, find_ndef, find_cons. lits. cbn [bind].
  pose proof (definition_ref_ok (nvalue g a m) a m HR) as HD. rewrite HC, find_ndef in HD. specialize (HD eq_refl). rewrite ET in HD.
  change (get_spec_type_tag AT_XHTML ++ "-REF") with "ATTRIBUTE-DEFINITION-XHTML-REF" in HD. rewrite HD.
  specialize (GX m Hm). unfold xhtml_pair in GX. rewrite GX. cbn [bind]. unfold sa_with. rewrite ET, EV. reflexivity.
Qed.
Lemma simple_ok g a m v t : printable_value V a -> sa_value a = VStr v -> sa_type a = t ->
  In t [AT_INTEGER; AT_REAL; AT_BOOLEAN; AT_DATE] ->
  parse_simple_value t (nvalue g a m) = Ok (sa_with (nvalue g a m) a).
Proof.
  intros [HR H] EV ET HI. pose proof (nvalue_children g a m) as HC. rewrite ET, EV in HC.
  unfold parse_simple_value, attr_req. rewrite nvalue_attr. unfold value_attrs. rewrite ET, EV.
  pose proof (definition_ref_ok (nvalue g a m) a m HR) as HD.
  assert (HC' : children (nvalue g a m) = [ndef a m]) by (destruct HI as [<-|[<-|[<-|[<-|[]]]]]; exact HC).
  rewrite HC', find_ndef in HD. specialize (HD eq_refl). rewrite ET in HD. rewrite HD.
  unfold sa_with. rewrite ET, EV. destruct HI as [<-|[<-|[<-|[<-|[]]]]]; reflexivity.
Qed.

Lemma parse_nvalue g a m : printable_value V a -> v_ok g a -> ctx m ->
  parse_attribute_value (nvalue g a m) = Ok (Some (sa_with (nvalue g a m) a)).
Proof.
  intros HP G Hm. pose proof HP as [HR H]. pose proof (nvalue_children g a m) as HC.
  unfold parse_attribute_value. rewrite !nvalue_tag. unfold value_tag. change (is_comment (nvalue g a m)) with false. cbv iota.
  destruct (sa_type a) eqn:ET, (sa_value a) as [v|l] eqn:EV; try (now destruct H); lits;
    try (rewrite (simple_ok g a m v _ HP EV ET) by (cbn; tauto); reflexivity);
    try (rewrite (xhtml_ok g a m v HP G Hm ET EV); reflexivity).
  - unfold attr_req. rewrite nvalue_attr. unfold value_attrs. rewrite ET, EV, assoc_one. lits. cbn [bind].
    rewrite (grandchild_ok _ a m [] HR HC). cbn [bind]. unfold sa_with. rewrite ET, EV. reflexivity.
  - destruct H as (H1 & H2 & H3).
    pose proof (definition_ref_ok (nvalue g a m) a m HR) as HD. rewrite HC in HD. rewrite ET in HD.
    change (get_spec_type_tag AT_ENUMERATION ++ "-REF") with "ATTRIBUTE-DEFINITION-ENUMERATION-REF" in HD.
    rewrite HD. 2: { destruct (first_values a); rewrite ?find_nvvalues, ?find_ndef; lits; rewrite ?find_ndef; reflexivity. }
    cbn [bind]. rewrite find_child_elements, HC.
    assert (E : find_list "VALUES" (if first_values a then [nvvalues l m; ndef a m] else [ndef a m; nvvalues l m]) = Some (nvvalues l m))
      by (destruct (first_values a); rewrite ?find_nvvalues, ?find_ndef; lits; rewrite ?find_nvvalues; reflexivity).
    rewrite E. assert (EL : map text (children (nvvalues l m)) = l).
    { unfold nvvalues. rewrite children_el. cbn [fapp f_n]. rewrite !elements_app, fenums_elements. cbn [fws ftxt f_n]. rewrite !elements_chr, app_nil_r, app_nil_l.
      rewrite map_map. clear -H1. induction H1 as [|o l Ho _ IH]; [reflexivity|]. cbn [map]. rewrite IH, text_ref by exact Ho. reflexivity. }
    rewrite EL. unfold sa_with. rewrite ET, EV. reflexivity.
Qed.
Lemma parse_relation_nvalue g a m : printable_value V a -> v_ok g a -> ctx m -> In (sa_type a) [AT_STRING; AT_XHTML; AT_INTEGER] ->
  parse_relation_value (nvalue g a m) = Ok (sa_with (nvalue g a m) a).
Proof.
  intros HP G Hm HI. pose proof HP as [HR H]. pose proof (nvalue_children g a m) as HC.
  unfold parse_relation_value. rewrite !nvalue_tag. unfold value_tag.
  destruct (sa_type a) eqn:ET, (sa_value a) as [v|l] eqn:EV; try (now destruct H); try (exfalso; cbn in HI; intuition discriminate); lits.
  - unfold attr_req. rewrite nvalue_attr. unfold value_attrs. rewrite ET, EV, assoc_one. lits. cbn [bind].
    rewrite (grandchild_ok _ a m [] HR HC). cbn [bind]. unfold sa_with. rewrite ET, EV. reflexivity.
  - unfold attr_req. rewrite nvalue_attr. unfold value_attrs. rewrite ET, EV, assoc_one. lits. cbn [bind].
    rewrite (grandchild_ok _ a m [] HR HC). cbn [bind]. unfold sa_with. rewrite ET, EV. reflexivity.
  - apply (xhtml_ok g a m v HP G Hm ET EV).
Qed.
Lemma unparse_again g a m : printable_value V a -> v_ok g a ->
  unparse_attribute_value (sa_with (nvalue g a m) a) = unparse_attribute_value a.
Proof.
  intros [HR H] G. unfold unparse_attribute_value. cbn [sa_with sa_type sa_value sa_definition_ref sa_xml_node].
  destruct (sa_type a) eqn:ET; try reflexivity. destruct (sa_value a) as [v|l] eqn:EV; [destruct H|]. destruct H as (H1 & H2 & H3).
  rewrite first_values_ok by assumption. unfold values_first_order, tags_or, child_tags. rewrite nvalue_children, ET, EV.
  destruct (first_values a) eqn:EF; reflexivity.
Qed.
Lemma erase_with n a : erase_value (sa_with n a) = normal_value strip a.
Proof. reflexivity. Qed.

Lemma rt_value a : printable_value V a ->
  rt p u ctx unparse_attribute_value (solid parse_attribute_value) erase_value (normal_value strip) sa_use a.
Proof.
  intros H. destruct (v_exists a H) as (g & G). exists (fvalue g a). split; [apply fvalue_good; assumption|].
  split; [apply fvalue_str; assumption|]. split; [apply fvalue_use; assumption|]. intros m Hm.
  exists (nvalue g a m), (sa_with (nvalue g a m) a). split; [apply fvalue_elements|]. split; [|split; [reflexivity|]].
  - unfold solid. rewrite parse_nvalue by assumption. reflexivity.
  - apply (unparse_again g a m); assumption.
Qed.

(** ** The VALUES block *)
Lemma rt_values l : Forall (printable_value V) l ->
  exists f, good p u f /\ unparse_attribute_values (Some l) = Ok (f_str f) /\ f_use f = existsb sa_use l /\
    forall m, ctx m -> exists n l', elements (f_n f m) = [n] /\ tag n = Some "VALUES"
      /\ parse_attribute_values (Some n) = Ok (Some l') /\ map erase_value l' = map (normal_value strip) l
      /\ unparse_attribute_values (Some l') = unparse_attribute_values (Some l).
Proof.
  intros H.
  assert (HL : rts p u ctx unparse_attribute_value (solid parse_attribute_value) erase_value (normal_value strip) sa_use l).
  { apply rt_list. eapply Forall_impl; [|exact H]. intros a Ha. apply rt_value, Ha. }
  destruct HL as (g & G1 & G2 & G3 & G4). destruct l as [|a l].
  - exists (fws "          " +++ fem "VALUES" [] +++ fws nl). split; [goods3|]. split; [reflexivity|]. split; [reflexivity|].
    intros m _. eexists. exists []. split; [elems; reflexivity|]. repeat split.
  - exists (fws "          " +++ fel "VALUES" [] (fws nl +++ g +++ fws "          ") +++ fws nl). split; [|split; [|split]].
    + goods3. exact G1.
    + unfold unparse_attribute_values. destruct (mapM unparse_attribute_value (a :: l)) as [parts|e]; [|discriminate]. cbn [bind] in *.
      apply Ok_inj in G2. rewrite G2. f_equal. frags. strs.
    + cbn [fapp fel f_use fws ftxt]. cbn [orb]. rewrite !orb_false_r. exact G3.
    + intros m Hm. destruct (G4 m Hm) as (l' & L1 & L2 & L3). eexists. exists l'. split; [elems; reflexivity|]. split; [reflexivity|].
      split; [|split; [exact L2|]].
      * unfold parse_attribute_values. rewrite children_el. elems. apply mapM_solid in L1. rewrite L1. cbn [bind]. rewrite catSomes_map. reflexivity.
      * unfold unparse_attribute_values. destruct l' as [|a' l']; [discriminate|]. rewrite L3. reflexivity.
Qed.
Lemma rt_relation_value a : printable_value V a -> In (sa_type a) [AT_STRING; AT_XHTML; AT_INTEGER] ->
  exists f, good p u f /\ unparse_attribute_values (Some [a]) = Ok (f_str f) /\ f_use f = sa_use a /\
    forall m, ctx m -> exists n k a', elements (f_n f m) = [n] /\ tag n = Some "VALUES"
      /\ children n = [k] /\ parse_relation_value k = Ok a' /\ erase_value a' = normal_value strip a
      /\ unparse_attribute_values (Some [a']) = unparse_attribute_values (Some [a]).
Proof.
  intros H HI. destruct (v_exists a H) as (g & G).
  exists (fws "          " +++ fel "VALUES" [] (fws nl +++ fvalue g a +++ fws "          ") +++ fws nl). split; [|split; [|split]].
  - apply good_app; [apply good_ws; reflexivity|]. apply good_app; [|apply good_ws; reflexivity].
    apply good_el; [reflexivity|split; [reflexivity|constructor]|]. apply good_app; [apply good_ws; reflexivity|].
    apply good_app; [|apply good_ws; reflexivity]. apply fvalue_good; assumption.
  - unfold unparse_attribute_values. cbn [mapM]. rewrite (fvalue_str g a H G). cbn [bind concat]. f_equal. cbn [fapp fel f_str fws ftxt]. rewrite app_nil_r. strs.
  - cbn [fapp fel f_use fws ftxt]. cbn [orb]. rewrite !orb_false_r. apply fvalue_use, G.
  - intros m Hm. eexists. exists (nvalue g a m), (sa_with (nvalue g a m) a). split; [elems; reflexivity|]. split; [reflexivity|]. split; [|split; [|split]].
    + rewrite children_el. cbn [fapp f_n]. rewrite !elements_app, fvalue_elements. cbn [fws ftxt f_n]. rewrite !elements_chr. reflexivity.
    + apply parse_relation_nvalue; assumption.
    + reflexivity.
    + unfold unparse_attribute_values. cbn [mapM]. rewrite (unparse_again g a m) by assumption. reflexivity.
Qed.
End Values.
