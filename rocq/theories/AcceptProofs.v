(** AcceptProofs.v -- exactly when each parser succeeds *)
From Verif Require Import Base Xml Utf8 Lxml Py LxmlStr Models AttrDef DataType Header AttrValue SpecObj
  Hierarchy SpecTypes Progress Parser SpecTraversal SpecProgress SpecLookup SpecParse SpecAccept
  DictProofs ProgressProofs TraversalProofs ParserProofs FaithProofs ParserErrors IsolationProofs.

Lemma ok_eq {A} (x y : A) : Ok x = Ok y -> x = y.
Proof. congruence. Qed.
Lemma okb_iff {A} (r : result A) : okb r = true <-> exists a, r = Ok a.
Proof. destruct r; cbn; split; eauto; try discriminate. intros [? H]; discriminate. Qed.
Lemma okb_bind' {A B} (r : result A) (k : A -> result B) :
  okb (bind r k) = match r with Ok a => okb (k a) | Raise _ => false end.
Proof. destruct r; reflexivity. Qed.
Lemma okb_then {A B} (r : result A) (f : A -> B) : okb (let! a := r in Ok (f a)) = okb r.
Proof. destruct r; reflexivity. Qed.
Lemma okb_mapM {A B} (f : A -> result B) l : okb (mapM f l) = forallb (fun x => okb (f x)) l.
Proof.
  induction l as [|x l IH]; [reflexivity|]. cbn [mapM forallb]. destruct (f x) as [y|e]; [|reflexivity].
  cbn [bind okb andb]. rewrite <- IH. destruct (mapM f l); reflexivity.
Qed.
Lemma okb_mapM' {A B} (f : A -> result B) g l :
  (forall x, okb (f x) = g x) -> okb (mapM f l) = forallb g l.
Proof. intros H. rewrite okb_mapM. induction l as [|x l IH]; [reflexivity|]. cbn. rewrite H, IH. reflexivity. Qed.
Lemma okb_attr k n : okb (attr_req k n) = has_attr k n.
Proof. unfold attr_req, has_attr. destruct (attr_opt k n); reflexivity. Qed.
Lemma okb_not_impl {A} (r : result A) : okb (or_not_impl r) = okb r.
Proof. destruct r; reflexivity. Qed.
Lemma okb_assert b : okb (py_assert b) = b.
Proof. destruct b; reflexivity. Qed.

(** case analysis on everything the parsers look at *)
Ltac look :=
  repeat (cbn [bind okb or_not_impl py_assert negb andb orb present attr_req find_req];
    unfold attr_req, find_req;
    match goal with
    | |- context [match attr_opt ?k ?n with _ => _ end] => destruct (attr_opt k n)
    | |- context [match find_child ?k ?n with _ => _ end] => destruct (find_child k n)
    end);
  cbn [bind okb or_not_impl py_assert negb andb orb present].

Lemma tag_is_tag t n : tag_is t n = match tag n with Some t' => str_eqb t' t | None => false end.
Proof. unfold tag_is. destruct (tag n); reflexivity. Qed.

Lemma ok_header n : okb (parse_header n) = (tag_is "THE-HEADER" n && accepted_header n)%bool.
Proof.
  unfold parse_header, accepted_header, at_path, has_attr. cbn [path_node].
  destruct (tag_is "THE-HEADER" n); [|reflexivity]. cbn [py_assert bind andb].
  destruct (find_child "REQ-IF-HEADER" n) as [h|]; [|reflexivity].
  unfold attr_req. destruct (attr_opt "IDENTIFIER" h); reflexivity.
Qed.
Lemma ok_enum_value n : okb (parse_enum_value n) = accepted_enum_value n.
Proof.
  unfold parse_enum_value, accepted_enum_value, at_path, has_attr. cbn [path_node]. unfold attr_req, find_req.
  destruct (attr_opt "IDENTIFIER" n); [|reflexivity]. cbn [bind present andb].
  destruct (find_child "PROPERTIES" n) as [p|]; [|reflexivity]. cbn [bind].
  destruct (find_child "EMBEDDED-VALUE" p) as [e|]; [|reflexivity]. cbn [bind].
  destruct (attr_opt "KEY" e); reflexivity.
Qed.
Lemma tag_in_cons t l n : tag_in (t :: l) n = (tag_is t n || tag_in l n)%bool.
Proof.
  unfold tag_in, tag_is. destruct (tag n) as [x|]; [|reflexivity]. cbn [str_mem existsb].
  reflexivity.
Qed.
Lemma tag_in_nil n : tag_in [] n = false.
Proof. unfold tag_in. destruct (tag n); reflexivity. Qed.
Lemma ok_data_type n : okb (parse_data_type n) = accepted_data_type n.
Proof.
  unfold accepted_data_type, data_type_tags, parse_data_type.
  destruct (tag_in data_type_tags n) eqn:T.
  - (* one of the seven *)
    unfold data_type_tags in T. rewrite T.
    assert (C : tag_contains "DATATYPE-DEFINITION-" n = Ok true).
    { unfold tag_contains, tag_in in *. destruct (tag n) as [t|]; [|discriminate].
      apply str_mem_In in T. cbn [In] in T. repeat (destruct T as [<-|T]; [reflexivity|]). destruct T. }
    rewrite C. cbn [bind py_assert]. unfold has_attr, attr_req.
    destruct (attr_opt "IDENTIFIER" n) as [i|]; [|reflexivity]. cbn [bind present andb].
    destruct (tag_is "DATATYPE-DEFINITION-ENUMERATION" n) eqn:E1.
    { unfold each, section_items. destruct (find_child "SPECIFIED-VALUES" n) as [sv|]; [|reflexivity].
      cbn [option_map]. rewrite okb_then. apply okb_mapM'. exact ok_enum_value. }
    rewrite !tag_in_cons, tag_in_nil, E1 in T.
    destruct (tag_is "DATATYPE-DEFINITION-STRING" n) eqn:E2.
    { destruct (tag_is "DATATYPE-DEFINITION-REAL" n) eqn:E; [|reflexivity].
      apply tag_is_eq in E, E2. congruence. }
    destruct (tag_is "DATATYPE-DEFINITION-INTEGER" n) eqn:E3.
    { destruct (tag_is "DATATYPE-DEFINITION-REAL" n) eqn:E; [|reflexivity].
      apply tag_is_eq in E, E3. congruence. }
    destruct (tag_is "DATATYPE-DEFINITION-REAL" n) eqn:E4.
    { destruct (attr_opt "ACCURACY" n) as [s|]; [|reflexivity]. destruct (py_int s); reflexivity. }
    destruct (tag_is "DATATYPE-DEFINITION-XHTML" n); [reflexivity|].
    destruct (tag_is "DATATYPE-DEFINITION-DATE" n); [reflexivity|].
    destruct (tag_is "DATATYPE-DEFINITION-BOOLEAN" n); [reflexivity|discriminate].
  - unfold data_type_tags in T. rewrite T. cbn [andb].
    rewrite !tag_in_cons, tag_in_nil in T.
    repeat (apply orb_false_iff in T; destruct T as [?E T]). rewrite E, E0, E1, E2, E3, E4, E5.
    destruct (tag_contains _ n) as [[]|]; [|reflexivity..]. cbn [bind py_assert].
    destruct (attr_req "IDENTIFIER" n); reflexivity.
Qed.

(** ** Markup *)
Definition elementb (n : node) : bool := match n with El _ _ _ _ _ _ => true | _ => false end.
Lemma ok_ns_node k f n : okb (stringify_ns_node k f n) = negb (is_chr n) && elements_only n.
Proof.
  induction n as [c|s|s|ns l d i a kids IH] using node_ind'; try reflexivity.
  cbn [stringify_ns_node elements_only is_chr negb andb].
  match goal with |- context [bind (?g kids) _] => set (go := g) end.
  assert (G : okb (go kids) = forallb elements_only kids).
  { clear -IH. induction IH as [|x ks Hx _ IHk]; [reflexivity|]. cbn [forallb].
    destruct (is_chr x) eqn:C.
    - destruct x; try discriminate C. cbn. rewrite <- IHk. destruct (go ks); reflexivity.
    - assert (E : go (x :: ks) = let! s := stringify_ns_node k f x in let! r := go ks in Ok (s ++ r))
        by (destruct x; [discriminate C|reflexivity..]).
      rewrite E, (okb_bind _ _ (okb (go ks))).
      + rewrite IHk, Hx, ?C. reflexivity.
      + intros s _. destruct (go ks); reflexivity. }
  destruct kids as [|x ks]; [cbn [needs_close]; destruct (str_eqb _ _); reflexivity|].
  cbn [needs_close]. rewrite <- G. destruct (go (x :: ks)); reflexivity.
Qed.
Lemma ok_ns_kids k f ks : okb (stringify_ns_kids k f ks) = forallb elements_only ks.
Proof.
  induction ks as [|x ks IH]; [reflexivity|]. cbn [forallb].
  destruct (is_chr x) eqn:C.
  - destruct x as [c| | |]; try discriminate C. cbn [elements_only andb]. rewrite <- IH.
    change (stringify_ns_kids k f (Chr c :: ks))
      with (let! r := stringify_ns_kids k f ks in Ok (lxml_escape_for_html [c] ++ r)).
    apply okb_then.
  - assert (E : stringify_ns_kids k f (x :: ks) = let! s := stringify_ns_node k f x in
                let! r := stringify_ns_kids k f ks in Ok (s ++ r))
      by (destruct x; [discriminate C|reflexivity..]).
    rewrite E, (okb_bind _ _ (okb (stringify_ns_kids k f ks))).
    + rewrite IH, ok_ns_node, C. reflexivity.
    + intros s _. destruct (stringify_ns_kids k f ks); reflexivity.
Qed.
Lemma elements_pi n : elements_only n = true -> pi_free n = true.
Proof.
  induction n as [c|s|s|ns l d i a kids IH] using node_ind'; cbn; auto.
  intros H. induction IH as [|x ks Hx _ IHk]; [reflexivity|]. cbn in *. apply andb_true_iff in H. destruct H as [H1 H2].
  rewrite (Hx H1), (IHk H2). reflexivity.
Qed.
Lemma ok_tails ks :
  forallb (fun kt => okb (stringify_node true (fst kt))) (tails ks) = forallb pi_free ks.
Proof.
  induction ks as [|x ks IH]; [reflexivity|]. destruct x as [c|ns l d i a kk|s|s]; cbn [tails forallb];
    rewrite ?IH; try reflexivity.
  cbn [fst]. rewrite stringify_ok by reflexivity. reflexivity.
Qed.
Lemma ok_stringify_children n : elementb n = true -> okb (stringify_children n) = pi_free n.
Proof.
  intros E. unfold stringify_children. rewrite okb_then, okb_mapM.
  assert (F : forall l : list (node * str), forallb (fun kt => okb (let! s := stringify_node true (fst kt) in
     Ok (s ++ lxml_escape_for_html (snd kt) ++ snd kt))) l = forallb (fun kt => okb (stringify_node true (fst kt))) l).
  { induction l as [|x l IH]; [reflexivity|]. cbn [forallb]. rewrite okb_then, IH. reflexivity. }
  rewrite F, ok_tails. destruct n; [discriminate|reflexivity|discriminate..].
Qed.
Lemma cleanup_pi n : forall inh, pi_free (cleanup inh n) = pi_free n.
Proof.
  induction n as [c|s|s|ns l d i a kids IH] using node_ind'; intros inh; try reflexivity.
  cbn [cleanup pi_free].
  match goal with |- forallb _ (map (cleanup ?m) _) = _ => generalize m; intros m0 end.
  induction IH as [|x ks Hx _ IHk]; [reflexivity|]. cbn [map forallb]. rewrite Hx, IHk. reflexivity.
Qed.
Lemma strip_pi full n : forall m, strip_ns full n = Some m -> pi_free m = true.
Proof.
  induction n as [c|s|s|ns l d i a kids IH] using node_ind'; intros m H; cbn in H;
    try (injection H as <-; reflexivity); [discriminate|].
  destruct (map_opt (strip_ns full) kids) as [ks|] eqn:M; [|discriminate]. injection H as <-. cbn [pi_free].
  revert ks M. induction IH as [|x kids Hx _ IHk]; intros ks M; cbn in M; [injection M as <-; reflexivity|].
  destruct (strip_ns full x) as [y|] eqn:Y; [|discriminate].
  destruct (map_opt (strip_ns full) kids) as [ys|]; [|discriminate]. injection M as <-. cbn.
  rewrite (Hx _ eq_refl), (IHk _ eq_refl). reflexivity.
Qed.
Lemma strip_some full n m : strip_ns full n = Some m -> pi_free n = true.
Proof.
  revert m. induction n as [c|s|s|ns l d i a kids IH] using node_ind'; intros m H; cbn in H; try reflexivity; [discriminate|].
  destruct (map_opt (strip_ns full) kids) as [ks|] eqn:M; [|discriminate]. clear H. cbn [pi_free].
  revert ks M. induction IH as [|x kids Hx _ IHk]; intros ks M; [reflexivity|]. cbn in M.
  destruct (strip_ns full x) as [y|] eqn:Y; [|discriminate].
  destruct (map_opt (strip_ns full) kids) as [ys|]; [|discriminate]. cbn.
  rewrite (Hx _ eq_refl), (IHk _ eq_refl). reflexivity.
Qed.
Lemma ok_convert n : elementb n = true -> okb (convert_children_from_reqif_ns n) = pi_free n.
Proof.
  intros E. destruct n as [c|ns l d i a kids|s|s]; try discriminate. unfold convert_children_from_reqif_ns.
  change (pi_free (El ns l d i a kids)) with (pi_free (deepcopy (El ns l d i a kids))).
  set (x := deepcopy _). destruct (strip_ns true x) as [m|] eqn:S.
  - rewrite (strip_some _ _ _ S), ok_stringify_children.
    + rewrite cleanup_pi. exact (strip_pi _ _ _ S).
    + subst x. cbn in S. destruct (map_opt _ kids); [|discriminate]. injection S as <-. reflexivity.
  - destruct (pi_free x) eqn:P; [|reflexivity]. destruct (strip_total x true P) as [m Hm]. congruence.
Qed.
Lemma find_child_el t n k : find_child t n = Some k -> elementb k = true.
Proof.
  unfold find_child, find_list. intros H. apply find_some in H. destruct H as [_ H].
  destruct k; [discriminate|reflexivity|discriminate..].
Qed.
Lemma elements_kids n : elementb n = true -> forallb elements_only (kids_of n) = elements_only n.
Proof. destruct n; try discriminate. reflexivity. Qed.
Lemma ok_markup_default v : elementb v = true ->
  okb (stringify_namespaced_children v None) = accepted_markup_default v.
Proof.
  intros E. unfold stringify_namespaced_children, accepted_markup_default.
  destruct (node_nsmap v) as [|[k u] m]; [reflexivity|]. rewrite ok_ns_kids, elements_kids by exact E. reflexivity.
Qed.

Lemma ok_definition_ref ref n : okb (definition_ref_text ref n) = has_path ["DEFINITION"; ref] n.
Proof.
  unfold definition_ref_text, has_path, at_path, find_req. cbn [path_node].
  destruct (find_child "DEFINITION" n) as [d|]; [|reflexivity]. cbn [bind].
  destruct (find_child ref d); reflexivity.
Qed.
Lemma ok_grandchild n : okb (first_grandchild_text n) = has_grandchild n.
Proof.
  unfold first_grandchild_text, has_grandchild, child_at. destruct (children n) as [|d m]; [reflexivity|].
  cbn [nth_error bind]. destruct (children d); reflexivity.
Qed.
Lemma ok_xhtml_value n : tag_is "ATTRIBUTE-VALUE-XHTML" n = true ->
  okb (parse_xhtml_attribute_value n) =
  (at_path ["THE-VALUE"] accepted_markup n && has_path ["DEFINITION"; "ATTRIBUTE-DEFINITION-XHTML-REF"] n)%bool.
Proof.
  intros T. apply tag_is_eq in T. unfold parse_xhtml_attribute_value, tag_contains. rewrite T.
  change (contains _ _) with true. cbn [bind py_assert]. rewrite <- ok_definition_ref.
  unfold find_req at 1, at_path. cbn [path_node].
  destruct (find_child "THE-VALUE" n) as [tv|] eqn:F; [|reflexivity]. cbn [bind].
  apply find_child_el in F. unfold accepted_markup.
  destruct (node_nsmap tv) as [|x m] eqn:E.
  - rewrite <- ok_stringify_children by exact F. destruct (stringify_children tv) as [s|e]; [|reflexivity].
    cbn [bind okb andb]. apply okb_then.
  - assert (O : okb (stringify_namespaced_children tv None) = elements_only tv).
    { rewrite ok_markup_default by exact F. unfold accepted_markup_default. rewrite E. reflexivity. }
    rewrite <- O. destruct (stringify_namespaced_children tv None) as [s|e]; [|reflexivity]. cbn [bind okb andb].
    pose proof (ok_convert tv F) as C. rewrite elements_pi in C by (rewrite <- O; reflexivity).
    destruct (convert_children_from_reqif_ns tv) as [z|e]; [|discriminate]. cbn [bind]. apply okb_then.
Qed.
Lemma ok_simple_value t n :
  okb (parse_simple_value t n) = (has_attr "THE-VALUE" n && has_path ["DEFINITION"; "ATTRIBUTE-DEFINITION-" ++ at_name t ++ "-REF"] n)%bool.
Proof.
  unfold parse_simple_value. rewrite okb_bind'. unfold has_attr, attr_req. destruct (attr_opt "THE-VALUE" n); [|reflexivity].
  rewrite okb_then, ok_definition_ref. cbn [present andb]. destruct t; reflexivity.
Qed.
(** the tag decides which entry of [all_types] counts *)
Lemma at_tag_inj t t' n p :
  tag_is (p ++ at_name t) n = true -> tag_is (p ++ at_name t') n = true -> t = t'.
Proof.
  rewrite !tag_is_eq. intros -> H. injection H as H. apply app_inv_head in H. destruct t, t'; try reflexivity; discriminate H.
Qed.
Lemma exists_tag p t (f : attr_type -> bool) n :
  tag_is (p ++ at_name t) n = true ->
  existsb (fun t' => tag_is (p ++ at_name t') n && f t')%bool all_types = f t.
Proof.
  intros T. apply eq_true_iff_eq. rewrite existsb_exists. split.
  - intros (t' & _ & H). apply andb_true_iff in H. destruct H as [H1 H2].
    rewrite (at_tag_inj t t' n p T H1). exact H2.
  - intros H. exists t. split; [destruct t; cbn; tauto|]. rewrite T, H. reflexivity.
Qed.
Lemma exists_no_tag p (f : attr_type -> bool) n :
  (forall t, tag_is (p ++ at_name t) n = false) ->
  existsb (fun t' => tag_is (p ++ at_name t') n && f t')%bool all_types = false.
Proof.
  intros T. apply not_true_iff_false. rewrite existsb_exists. intros (t & _ & H). rewrite T in H. discriminate.
Qed.
Lemma ok_attr_value n : okb (parse_attribute_value n) = accepted_attr_value n.
Proof.
  unfold parse_attribute_value, accepted_attr_value. destruct (is_comment n); [reflexivity|]. cbn [orb].
  destruct (tag_is "ATTRIBUTE-VALUE-STRING" n) eqn:E1.
  { etransitivity; [|symmetry; refine (exists_tag "ATTRIBUTE-VALUE-" AT_STRING _ n E1)]. cbv beta zeta iota.
    unfold has_attr, attr_req. destruct (attr_opt "THE-VALUE" n); [|reflexivity]. cbn [bind present andb].
    rewrite okb_then. apply ok_grandchild. }
  destruct (tag_is "ATTRIBUTE-VALUE-ENUMERATION" n) eqn:E2.
  { etransitivity; [|symmetry; refine (exists_tag "ATTRIBUTE-VALUE-" AT_ENUMERATION _ n E2)]. cbv beta zeta iota.
    change ("ATTRIBUTE-DEFINITION-" ++ at_name AT_ENUMERATION ++ "-REF") with ("ATTRIBUTE-DEFINITION-ENUMERATION-REF" : str).
    rewrite <- ok_definition_ref. rewrite okb_bind'. unfold has_path at 1, at_path at 1. cbn [path_node].
    destruct (definition_ref_text _ n); destruct (find_child "VALUES" n); reflexivity. }
  destruct (tag_is "ATTRIBUTE-VALUE-INTEGER" n) eqn:E3.
  { etransitivity; [|symmetry; refine (exists_tag "ATTRIBUTE-VALUE-" AT_INTEGER _ n E3)]. cbv beta zeta iota. rewrite okb_then. apply ok_simple_value. }
  destruct (tag_is "ATTRIBUTE-VALUE-REAL" n) eqn:E4.
  { etransitivity; [|symmetry; refine (exists_tag "ATTRIBUTE-VALUE-" AT_REAL _ n E4)]. cbv beta zeta iota. rewrite okb_then. apply ok_simple_value. }
  destruct (tag_is "ATTRIBUTE-VALUE-BOOLEAN" n) eqn:E5.
  { etransitivity; [|symmetry; refine (exists_tag "ATTRIBUTE-VALUE-" AT_BOOLEAN _ n E5)]. cbv beta zeta iota. rewrite okb_then. apply ok_simple_value. }
  destruct (tag_is "ATTRIBUTE-VALUE-DATE" n) eqn:E6.
  { etransitivity; [|symmetry; refine (exists_tag "ATTRIBUTE-VALUE-" AT_DATE _ n E6)]. cbv beta zeta iota. rewrite okb_then. apply ok_simple_value. }
  destruct (tag_is "ATTRIBUTE-VALUE-XHTML" n) eqn:E7.
  { etransitivity; [|symmetry; refine (exists_tag "ATTRIBUTE-VALUE-" AT_XHTML _ n E7)]. cbv beta zeta iota. rewrite okb_then. apply ok_xhtml_value, E7. }
  symmetry. refine (exists_no_tag "ATTRIBUTE-VALUE-" _ n _). intros []; assumption.
Qed.
Lemma ok_attr_values n :
  okb (parse_attribute_values (find_child "VALUES" n)) = each "VALUES" accepted_attr_value n.
Proof.
  unfold each, section_items. destruct (find_child "VALUES" n) as [v|]; [|reflexivity].
  cbn [parse_attribute_values option_map]. rewrite okb_then. apply okb_mapM'. exact ok_attr_value.
Qed.

(** ** Attribute definitions *)
Lemma no_content_eq d : is_self_closed_tag d = no_content d.
Proof. unfold is_self_closed_tag, no_content. destruct (children d), (text d); reflexivity. Qed.
Lemma ok_datatype_ref t n :
  okb (parse_datatype_ref t n) = has_path ["TYPE"; "DATATYPE-DEFINITION-" ++ at_name t ++ "-REF"] n.
Proof.
  unfold parse_datatype_ref. rewrite okb_not_impl. unfold has_path, at_path, find_req, get_definition_tag. cbn [path_node].
  destruct (find_child "TYPE" n) as [d|]; [|reflexivity]. cbn [bind].
  destruct (find_child _ d); reflexivity.
Qed.
Lemma ok_default t n : okb (parse_default_value t n) = if_child "DEFAULT-VALUE" (accepted_default t) n.
Proof.
  unfold if_child. destruct (find_child "DEFAULT-VALUE" n) as [d|] eqn:D.
  2:{ destruct t; cbn [parse_default_value]; unfold parse_default_string, parse_default_simple, parse_default_boolean,
        parse_default_xhtml, parse_default_enum; rewrite D; reflexivity. }
  destruct t; cbn [parse_default_value accepted_default]; cbv zeta;
    unfold parse_default_string, parse_default_simple, parse_default_boolean,
        parse_default_xhtml, parse_default_enum; rewrite D, ?no_content_eq; unfold at_path, has_path, at_path; cbn [path_node].
  - destruct (no_content d); [reflexivity|]. cbn [orb].
    change (find_child ("ATTRIBUTE-VALUE-" ++ at_name AT_STRING) d) with (find_child "ATTRIBUTE-VALUE-STRING" d).
    destruct (find_child "ATTRIBUTE-VALUE-STRING" d); [|reflexivity]. rewrite okb_then. apply okb_attr.
  - destruct (no_content d); [reflexivity|]. cbn [orb].
    change (find_child ("ATTRIBUTE-VALUE-" ++ at_name AT_ENUMERATION) d) with (find_child "ATTRIBUTE-VALUE-ENUMERATION" d).
    destruct (find_child "ATTRIBUTE-VALUE-ENUMERATION" d) as [v|]; [|reflexivity]. unfold if_child.
    destruct (find_child "DEFINITION" v) as [df|]; [|reflexivity]. unfold find_req.
    change (find_child ("ATTRIBUTE-DEFINITION-" ++ at_name AT_ENUMERATION ++ "-REF") df)
      with (find_child "ATTRIBUTE-DEFINITION-ENUMERATION-REF" df).
    destruct (find_child "ATTRIBUTE-DEFINITION-ENUMERATION-REF" df); reflexivity.
  - unfold get_attribute_value_tag. destruct (find_child _ d); [|reflexivity]. rewrite okb_then. apply okb_attr.
  - unfold get_attribute_value_tag. destruct (find_child _ d); [|reflexivity]. rewrite okb_then. apply okb_attr.
  - change (find_child ("ATTRIBUTE-VALUE-" ++ at_name AT_BOOLEAN) d) with (find_child "ATTRIBUTE-VALUE-BOOLEAN" d).
    destruct (find_child "ATTRIBUTE-VALUE-BOOLEAN" d); [|reflexivity]. cbv zeta.
    match goal with |- okb (let! s := _ in Ok (@?f s)) = _ => rewrite (okb_then _ f) end. apply okb_attr.
  - unfold get_attribute_value_tag. destruct (find_child _ d); [|reflexivity]. rewrite okb_then. apply okb_attr.
  - destruct (no_content d); [reflexivity|]. cbn [orb].
    change (find_child ("ATTRIBUTE-VALUE-" ++ at_name AT_XHTML) d) with (find_child "ATTRIBUTE-VALUE-XHTML" d).
    destruct (find_child "ATTRIBUTE-VALUE-XHTML" d) as [v|]; [|reflexivity]. unfold if_child, find_req.
    assert (V : forall ref : option str, okb (let! tv := match find_child "THE-VALUE" v with Some x => Ok x | None => Raise EAttributeError end in
                let! s := stringify_namespaced_children tv None in Ok (ref, DVStr s))
                = match find_child "THE-VALUE" v with Some k => accepted_markup_default k | None => false end).
    { intros ref. destruct (find_child "THE-VALUE" v) as [tv|] eqn:F; [|reflexivity]. cbn [bind].
      rewrite okb_then. apply ok_markup_default. exact (find_child_el _ _ _ F). }
    change ("ATTRIBUTE-DEFINITION-" ++ at_name AT_XHTML ++ "-REF") with ("ATTRIBUTE-DEFINITION-XHTML-REF" : str).
    destruct (find_child "DEFINITION" v) as [df|].
    + destruct (find_child "ATTRIBUTE-DEFINITION-XHTML-REF" df); [|reflexivity]. cbn [bind andb]. rewrite V. destruct (find_child "THE-VALUE" v); reflexivity.
    + cbn [bind andb]. rewrite V. destruct (find_child "THE-VALUE" v); reflexivity.
Qed.
Lemma def_tag_of t n :
  tag_is ("ATTRIBUTE-DEFINITION-" ++ at_name t) n = true <-> attr_type_of_def_tag (tag n) = Some t.
Proof.
  rewrite tag_is_eq. split; [intros ->; destruct t; reflexivity|apply def_tag].
Qed.
Lemma ok_attr_def n : okb (parse_attribute_definition n) = accepted_attr_def n.
Proof.
  unfold parse_attribute_definition, accepted_attr_def. cbv zeta. rewrite okb_bind'.
  unfold has_attr, attr_req. destruct (attr_opt "IDENTIFIER" n); [|reflexivity]. cbn [present andb].
  assert (E : forall t, (tag_is ("ATTRIBUTE-DEFINITION-" ++ at_name t) n
                       && has_path ["TYPE"; "DATATYPE-DEFINITION-" ++ at_name t ++ "-REF"] n
                       && if_child "DEFAULT-VALUE" (accepted_default t) n)%bool
          = (tag_is ("ATTRIBUTE-DEFINITION-" ++ at_name t) n
             && (okb (parse_datatype_ref t n) && okb (parse_default_value t n)))%bool).
  { intros t. rewrite ok_datatype_ref, ok_default, andb_assoc. reflexivity. }
  transitivity (existsb (fun t => tag_is ("ATTRIBUTE-DEFINITION-" ++ at_name t) n
             && (okb (parse_datatype_ref t n) && okb (parse_default_value t n)))%bool all_types).
  2:{ unfold all_types. cbn [existsb]. rewrite !E. reflexivity. }
  destruct (attr_type_of_def_tag (tag n)) as [t|] eqn:T.
  - rewrite (exists_tag "ATTRIBUTE-DEFINITION-" t (fun t => (okb (parse_datatype_ref t n) && okb (parse_default_value t n))%bool) n).
    + destruct (parse_datatype_ref t n); [|reflexivity]. cbn [bind okb andb].
      destruct (parse_default_value t n) as [[? ?]|]; reflexivity.
    + apply def_tag_of, T.
  - symmetry. apply (exists_no_tag "ATTRIBUTE-DEFINITION-" (fun t => (okb (parse_datatype_ref t n) && okb (parse_default_value t n))%bool)).
    intros t. apply not_true_iff_false. rewrite def_tag_of. congruence.
Qed.
Lemma ok_attr_defs n : okb (parse_attribute_definitions n) = each "SPEC-ATTRIBUTES" accepted_attr_def n.
Proof.
  unfold parse_attribute_definitions, each, section_items. destruct (find_child "SPEC-ATTRIBUTES" n) as [v|]; [|reflexivity].
  cbn [option_map]. rewrite okb_then. apply okb_mapM'. exact ok_attr_def.
Qed.

(** ** Spec types *)
Lemma ok_attribute_map ks l : mapM parse_attribute_definition ks = Ok l ->
  forall m, okb (fill_attribute_map l m) = forallb (has_attr "LONG-NAME") ks.
Proof.
  intros H. apply mapM_Ok in H. induction H as [|k a ks l H _ IH]; intros m; [reflexivity|].
  cbn [fill_attribute_map forallb]. apply attr_def_faithful in H. destruct H as (_ & (_ & _ & _ & H) & _).
  unfold has_attr at 1. rewrite H. destruct (ad_long_name a); [|reflexivity]. apply IH.
Qed.
Lemma ok_spec_type n : okb (parse_spec_type n) = accepted_spec_type n.
Proof.
  unfold parse_spec_type, accepted_spec_type, spec_type_tags. rewrite !tag_in_cons, tag_in_nil.
  destruct (tag_is "SPEC-OBJECT-TYPE" n) eqn:E1.
  { assert (C : is_comment n = false) by (apply tag_is_eq in E1; exact (tag_comment _ _ E1)).
    assert (F1 : tag_is "SPEC-RELATION-TYPE" n = false) by (apply not_true_iff_false; rewrite tag_is_eq in *; congruence).
    assert (F2 : tag_is "SPECIFICATION-TYPE" n = false) by (apply not_true_iff_false; rewrite tag_is_eq in *; congruence).
    rewrite C, F1, F2, okb_then. cbn [orb andb]. unfold parse_spec_object_type. rewrite E1. cbn [py_assert bind].
    rewrite okb_bind'. unfold has_attr, attr_req. destruct (attr_opt "IDENTIFIER" n); [|reflexivity].
    cbn [or_not_impl present andb]. rewrite okb_then, ok_attr_defs, andb_true_r. reflexivity. }
  destruct (tag_is "SPEC-RELATION-TYPE" n) eqn:E2.
  { assert (C : is_comment n = false) by (apply tag_is_eq in E2; exact (tag_comment _ _ E2)).
    rewrite C, okb_then. cbn [orb andb]. unfold parse_spec_relation_type. rewrite E2. cbn [py_assert bind].
    rewrite okb_bind'. unfold has_attr, attr_req. destruct (attr_opt "IDENTIFIER" n); [|reflexivity].
    cbn [or_not_impl present andb]. rewrite okb_bind'.
    destruct (attr_opt "LONG-NAME" n); [|rewrite andb_false_r; reflexivity]. cbn [or_not_impl present].
    rewrite okb_then, ok_attr_defs, andb_true_r. reflexivity. }
  destruct (tag_is "SPECIFICATION-TYPE" n) eqn:E3.
  { assert (C : is_comment n = false) by (apply tag_is_eq in E3; exact (tag_comment _ _ E3)).
    rewrite C, okb_then. cbn [orb andb]. unfold parse_specification_type. rewrite E3. cbn [py_assert bind].
    rewrite okb_bind'. unfold has_attr at 1, attr_req. destruct (attr_opt "IDENTIFIER" n); [|reflexivity].
    cbn [or_not_impl present andb]. rewrite okb_bind'. unfold has_attr at 1.
    destruct (attr_opt "LAST-CHANGE" n); [|rewrite andb_false_r; reflexivity]. cbn [or_not_impl present andb].
    rewrite <- ok_attr_defs. rewrite okb_bind'.
    destruct (parse_attribute_definitions n) as [ads|] eqn:P; [|reflexivity]. cbn [okb andb]. rewrite okb_then.
    unfold parse_attribute_definitions in P. unfold each, section_items.
    destruct (find_child "SPEC-ATTRIBUTES" n) as [sa|]; cbn [option_map].
    - destruct (mapM parse_attribute_definition (children sa)) as [ads'|] eqn:M; [|discriminate].
      cbn [bind] in P. apply ok_eq in P. subst ads. apply (ok_attribute_map _ _ M).
    - apply ok_eq in P. subst ads. reflexivity. }
  destruct (tag_is "RELATION-GROUP-TYPE" n) eqn:E4.
  { assert (C : is_comment n = false) by (apply tag_is_eq in E4; exact (tag_comment _ _ E4)).
    rewrite C, okb_then. cbn [orb andb]. unfold parse_relation_group_type. rewrite E4. cbn [py_assert bind].
    rewrite okb_bind'. unfold has_attr, attr_req. destruct (attr_opt "IDENTIFIER" n); [|reflexivity].
    cbn [or_not_impl present andb]. rewrite okb_then, ok_attr_defs, andb_true_r. reflexivity. }
  cbn [orb andb]. destruct (is_comment n); reflexivity.
Qed.

(** ** Objects, relations, groups *)
Lemma ok_contains sub n (b : bool) :
  okb (let! b := tag_contains sub n in py_assert b) = tag_has sub n.
Proof. unfold tag_contains, tag_has. destruct (tag n); [apply okb_assert|reflexivity]. Qed.
Lemma ok_object_item n : okb (object_item n) = accepted_spec_object n.
Proof.
  unfold object_item, accepted_spec_object. destruct (is_comment n); [reflexivity|]. cbn [orb]. rewrite okb_then.
  unfold parse_spec_object. unfold tag_contains, tag_has.
  destruct (tag n) as [t|]; [|reflexivity]. cbn [bind]. destruct (contains "SPEC-OBJECT" t); [|reflexivity]. cbn [py_assert bind andb].
  unfold has_attr, attr_req. destruct (attr_opt "IDENTIFIER" n); [|reflexivity]. cbn [or_not_impl bind present andb].
  unfold has_path, at_path, find_req. cbn [path_node].
  destruct (find_child "TYPE" n) as [ty|]; [|reflexivity]. cbn [bind].
  destruct (find_child "SPEC-OBJECT-TYPE-REF" ty); [|reflexivity]. cbn [bind andb].
  rewrite okb_bind'. rewrite <- ok_attr_values. destruct (parse_attribute_values _); reflexivity.
Qed.
Lemma ok_relation_group n : okb (parse_relation_group n) = accepted_relation_group n.
Proof.
  unfold parse_relation_group, accepted_relation_group. unfold tag_contains, tag_has.
  destruct (tag n) as [t|]; [|reflexivity]. cbn [bind]. destruct (contains "RELATION-GROUP" t); [|reflexivity]. cbn [py_assert bind andb].
  unfold has_attr, attr_req. destruct (attr_opt "IDENTIFIER" n); reflexivity.
Qed.
Lemma ok_relation_value n : okb (parse_relation_value n) = accepted_relation_value n.
Proof.
  unfold parse_relation_value, accepted_relation_value. rewrite !tag_in_cons, tag_in_nil, orb_false_r.
  assert (G : forall t, okb (let! v := attr_req "THE-VALUE" n in let! ref := first_grandchild_text n in
                  Ok (SpecAttr t ref (VStr v) None (Some n))) = (has_attr "THE-VALUE" n && has_grandchild n)%bool).
  { intros t. rewrite okb_bind', <- ok_grandchild. unfold has_attr, attr_req.
    destruct (attr_opt "THE-VALUE" n); [|reflexivity]. apply okb_then. }
  destruct (tag_is "ATTRIBUTE-VALUE-STRING" n) eqn:E1.
  { assert (F : tag_is "ATTRIBUTE-VALUE-XHTML" n = false) by (apply not_true_iff_false; rewrite tag_is_eq in *; congruence).
    rewrite F, G. cbn [orb andb]. rewrite orb_false_r. reflexivity. }
  destruct (tag_is "ATTRIBUTE-VALUE-XHTML" n) eqn:E2.
  { assert (F : tag_is "ATTRIBUTE-VALUE-INTEGER" n = false) by (apply not_true_iff_false; rewrite tag_is_eq in *; congruence).
    rewrite F, <- ok_attr_value. cbn [orb andb]. unfold parse_attribute_value.
    assert (C : is_comment n = false) by (apply tag_is_eq in E2; exact (tag_comment _ _ E2)).
    assert (F2 : tag_is "ATTRIBUTE-VALUE-ENUMERATION" n = false) by (apply not_true_iff_false; rewrite tag_is_eq in *; congruence).
    assert (F3 : tag_is "ATTRIBUTE-VALUE-REAL" n = false) by (apply not_true_iff_false; rewrite tag_is_eq in *; congruence).
    assert (F4 : tag_is "ATTRIBUTE-VALUE-BOOLEAN" n = false) by (apply not_true_iff_false; rewrite tag_is_eq in *; congruence).
    assert (F5 : tag_is "ATTRIBUTE-VALUE-DATE" n = false) by (apply not_true_iff_false; rewrite tag_is_eq in *; congruence).
    rewrite C, E1, E2, F, F2, F3, F4, F5, okb_then. reflexivity. }
  cbn [orb andb]. destruct (tag_is "ATTRIBUTE-VALUE-INTEGER" n); [|reflexivity]. rewrite G, orb_false_r. reflexivity.
Qed.
Lemma has_path_child t r n : has_path [t; r] n = true -> has_child t n = true.
Proof. unfold has_path, at_path, has_child. cbn [path_node]. destruct (find_child t n); [reflexivity|discriminate]. Qed.
Lemma ok_relation_item n : okb (relation_item n) = accepted_spec_relation n.
Proof.
  unfold accepted_spec_relation. destruct (faulty n) eqn:F.
  { destruct (faulty_item n F) as (x & -> & _). reflexivity. }
  cbn [orb]. transitivity (okb (parse_spec_relation n)).
  { destruct (relation_item n) as [y|e] eqn:I.
    - destruct (sound_item n y F I) as [r ->]. apply inl_item in I. rewrite I. reflexivity.
    - unfold relation_item in I. destruct (parse_spec_relation n); [discriminate|reflexivity]. }
  unfold parse_spec_relation. rewrite !has_child_tags.
  destruct (tag_is "SPEC-RELATION" n) eqn:T; [|reflexivity]. cbn [py_assert bind andb].
  unfold has_attr, has_path, at_path, find_req, has_child. cbn [path_node].
  destruct (find_child "TYPE" n) as [ty|]; [|rewrite andb_false_r; reflexivity]. cbn [py_assert bind].
  destruct (find_child "SOURCE" n) as [src|]; cbn [negb]; [|rewrite andb_false_r; reflexivity].
  destruct (find_child "TARGET" n) as [tgt|]; cbn [negb]; [|rewrite andb_false_r; reflexivity].
  destruct (attr_opt "IDENTIFIER" n); [|reflexivity]. cbn [bind present andb].
  destruct (find_child "SPEC-RELATION-TYPE-REF" ty); [|reflexivity]. cbn [bind andb].
  destruct (find_child "SPEC-OBJECT-REF" src); [|reflexivity]. cbn [bind andb].
  destruct (find_child "SPEC-OBJECT-REF" tgt); [|reflexivity]. cbn [bind andb].
  unfold section_items. destruct (find_child "VALUES" n) as [vs|]; [|reflexivity]. cbn [option_map].
  destruct (children vs) as [|v m]; [reflexivity|]. rewrite <- ok_relation_value. destruct (parse_relation_value v); reflexivity.
Qed.

(** ** Hierarchies and specifications *)
Lemma ok_hier n : forall level, okb (parse_hier level n) = true <-> accepted_hier n.
Proof.
  induction n as [n IH] using node_strong_ind. intros level.
  destruct n as [c|ns l d i a kids|s|s]; try (split; [discriminate|intros H; inversion H; discriminate]).
  rewrite parse_hier_eq. set (n := El ns l d i a kids) in *.
  assert (B : forall c k, find_child "CHILDREN" n = Some c -> In k (children c) -> nsize k < nsize n).
  { intros c k Hc Hk. apply children_size in Hk. apply find_child_size in Hc. lia. }
  destruct (tag_is "SPEC-HIERARCHY" n) eqn:T.
  2:{ split; [discriminate|]. intros H. inversion H. congruence. }
  destruct (attr_opt "IDENTIFIER" n) eqn:A.
  2:{ split; [unfold attr_req; rewrite A; discriminate|]. intros H. inversion H as [? _ H1]. unfold has_attr in H1.
      rewrite A in H1. discriminate. }
  destruct (has_path ["OBJECT"; "SPEC-OBJECT-REF"] n) eqn:P.
  2:{ split; [|intros H; inversion H; congruence]. unfold attr_req, find_req. rewrite A.
      unfold has_path, at_path in P. cbn [path_node] in P.
      destruct (find_child "OBJECT" n) as [ob|]; [|discriminate].
      cbn [py_assert or_not_impl bind]. destruct (find_child "SPEC-OBJECT-REF" ob); discriminate. }
  assert (E : okb (match find_child "CHILDREN" n with
             | None => Ok None
             | Some c => let! hs := mapM (parse_hier (S level)) (children c) in Ok (Some hs) end) = true
             <-> forall ks k, section_items "CHILDREN" n = Some ks -> In k ks -> accepted_hier k).
  { unfold section_items. destruct (find_child "CHILDREN" n) as [c|] eqn:C; cbn [option_map].
    - rewrite okb_then, okb_mapM, forallb_forall. split.
      + intros H ks k K Hk. injection K as <-. apply (IH k (B _ _ eq_refl Hk) (S level)), H, Hk.
      + intros H k Hk. apply (IH k (B _ _ eq_refl Hk) (S level)). exact (H _ _ eq_refl Hk).
    - split; [discriminate|reflexivity]. }
  unfold attr_req, find_req. rewrite A. unfold has_path, at_path in P. cbn [path_node] in P.
  destruct (find_child "OBJECT" n) as [ob|] eqn:O; [|discriminate].
  destruct (find_child "SPEC-OBJECT-REF" ob) as [r|] eqn:R; [|discriminate].
  cbn [py_assert or_not_impl bind].
  rewrite R. cbn [bind].
  match goal with |- okb (let! ch := ?x in Ok (@?f ch)) = true <-> _ => rewrite (okb_then x f) end.
  rewrite E. split.
  - intros H. constructor; auto; unfold has_attr, has_path, at_path; cbn [path_node]; rewrite ?A, ?O, ?R; reflexivity.
  - intros H. inversion H. assumption.
Qed.
Lemma ok_specification n : okb (parse_specification n) = true <-> accepted_specification n.
Proof.
  unfold parse_specification, accepted_specification, last_section. unfold last_child.
  unfold tag_contains, tag_has.
  destruct (tag n) as [t|]; [|split; [discriminate|intros [H _]; discriminate]]. cbn [bind].
  destruct (contains "SPECIFICATION" t); [|split; [discriminate|intros [H _]; discriminate]]. cbn [py_assert bind].
  unfold has_attr, attr_req. destruct (attr_opt "IDENTIFIER" n); [|split; [discriminate|intros (_ & H & _); discriminate]].
  cbn [or_not_impl bind present]. rewrite <- ok_attr_values.
  assert (E : okb (match find_list "CHILDREN" (rev (kids_of n)) with
             | None => Ok None
             | Some c => let! hs := mapM (parse_hier 1) (children c) in Ok (Some hs)
             end) = true <-> match option_map children (find_list "CHILDREN" (rev (kids_of n))) with
                             | Some ks => Forall accepted_hier ks | None => True end).
  { destruct (find_list "CHILDREN" (rev (kids_of n))) as [c|]; cbn [option_map]; [|split; auto].
    rewrite okb_then, okb_mapM, forallb_forall, Forall_forall. split; intros H k Hk.
    - apply (ok_hier k 1), H, Hk. - apply ok_hier, H, Hk. }
  rewrite <- E.
  destruct (match find_list _ _ with None => _ | Some _ => _ end) as [ch|e].
  - cbn [bind okb]. rewrite okb_then. tauto.
  - cbn [bind okb]. split; [discriminate|intros (_ & _ & _ & H); discriminate].
Qed.

(** ** The content and the document *)
Lemma ok_section {S A} t n (body : node -> S -> result S) s0 (f : node -> result A) (g : list A -> S) :
  (forall ks, foldM body ks s0 = let! l := mapM f ks in Ok (g l)) ->
  okb (pure_section t n body s0) = match section_items t n with
                                   | Some ks => forallb (fun x => okb (f x)) ks | None => true end.
Proof.
  intros H. unfold pure_section, section_items. destruct (find_child t n) as [x|]; cbn [option_map]; [|reflexivity].
  rewrite H. rewrite <- okb_mapM. destruct (mapM f (children x)); reflexivity.
Qed.
Lemma each_ext t f g n : (forall x, f x = g x) ->
  match section_items t n with Some ks => forallb f ks | None => true end = each t g n.
Proof.
  intros H. unfold each. destruct (section_items t n) as [ks|]; [|reflexivity].
  induction ks as [|k ks IH]; [reflexivity|]. cbn. rewrite H, IH. reflexivity.
Qed.
Lemma ok_content rc : tag_is "REQ-IF-CONTENT" rc = true -> okb (pure_content rc) = true <-> accepted_content rc.
Proof.
  intros T. unfold pure_content. rewrite T. cbn [py_assert bind].
  pose proof (ok_section "DATATYPES" rc data_type_body ([], []) parse_data_type _ (fun ks => fold_data_types ks [] [])) as H1.
  rewrite (each_ext _ _ _ _ ok_data_type) in H1.
  pose proof (ok_section "SPEC-TYPES" rc spec_type_body ([], []) parse_spec_type _ (fun ks => fold_spec_types ks [] [])) as H2.
  rewrite (each_ext _ _ _ _ ok_spec_type) in H2.
  pose proof (ok_section "SPECIFICATIONS" rc specification_body [] parse_specification _ (fun ks => fold_specifications ks [])) as H3.
  pose proof (ok_section "SPEC-RELATIONS" rc spec_relation_body ([], [], []) relation_item
                (fun l => ([] ++ lefts l, fill_parents (lefts l) [], [] ++ rights l)) (fun ks => fold_spec_relations ks [] [] [])) as H4.
  rewrite (each_ext _ _ _ _ ok_relation_item) in H4.
  pose proof (ok_section "SPEC-OBJECTS" rc spec_object_body ([], []) object_item _ (fun ks => fold_spec_objects ks [] [])) as H5.
  rewrite (each_ext _ _ _ _ ok_object_item) in H5.
  pose proof (ok_section "SPEC-RELATION-GROUPS" rc relation_group_body [] parse_relation_group _ (fun ks => fold_relation_groups ks [])) as H6.
  rewrite (each_ext _ _ _ _ ok_relation_group) in H6.
  assert (S3 : match section_items "SPECIFICATIONS" rc with
               | Some ks => forallb (fun x => okb (parse_specification x)) ks | None => true end = true
               <-> every "SPECIFICATIONS" accepted_specification rc).
  { unfold every. destruct (section_items "SPECIFICATIONS" rc) as [ks|]; [|split; [discriminate|reflexivity]].
    rewrite forallb_forall. split.
    - intros H ks' k K Hk. injection K as <-. apply ok_specification, H, Hk.
    - intros H k Hk. apply ok_specification, (H _ _ eq_refl Hk). }
  rewrite <- H3 in S3. clear H3.
  destruct (pure_section "DATATYPES" rc _ _) as [[? [? ?]]|]; cbn [bind okb] in *.
  2:{ split; [discriminate|]. intros [? ? ? ? ? ?]. congruence. }
  destruct (pure_section "SPEC-TYPES" rc _ _) as [[? [? ?]]|]; cbn [bind okb] in *.
  2:{ split; [discriminate|]. intros [? ? ? ? ? ?]. congruence. }
  destruct (pure_section "SPECIFICATIONS" rc _ _) as [[? ?]|]; cbn [bind okb] in *.
  2:{ split; [discriminate|]. intros [? ? ? ? ? ?]. apply S3. assumption. }
  destruct (pure_section "SPEC-RELATIONS" rc _ _) as [[? [[? ?] ?]]|]; cbn [bind okb] in *.
  2:{ split; [discriminate|]. intros [? ? ? ? ? ?]. congruence. }
  destruct (pure_section "SPEC-OBJECTS" rc _ _) as [[? [? ?]]|]; cbn [bind okb] in *.
  2:{ split; [discriminate|]. intros [? ? ? ? ? ?]. congruence. }
  destruct (pure_section "SPEC-RELATION-GROUPS" rc _ _) as [[? ?]|]; cbn [bind okb] in *.
  2:{ split; [discriminate|]. intros [? ? ? ? ? ?]. congruence. }
  split; [|reflexivity]. intros _. constructor; auto. apply S3. reflexivity.
Qed.
Lemma find_child_tag t n k : find_child t n = Some k -> tag_is t k = true.
Proof. unfold find_child, find_list. intros H. apply find_some in H. tauto. Qed.
Lemma no_children t n : children n = [] -> find_child t n = None.
Proof.
  unfold find_child, find_list, children. intros H.
  destruct (find (tag_is t) (kids_of n)) as [k|] eqn:F; [|reflexivity].
  apply find_some in F. destruct F as [F1 F2].
  assert (I : In k (filter (fun k => negb (is_chr k)) (kids_of n))).
  { apply filter_In. split; [exact F1|]. destruct k; [discriminate F2|reflexivity..]. }
  rewrite H in I. destruct I.
Qed.
Lemma ok_reqif decl root :
  okb (pure_reqif decl root) = true <->
  exists r, strip_if_namespaced root = Ok r /\ tag_is "REQ-IF" r = true /\ accepted_document r.
Proof.
  unfold pure_reqif. destruct (strip_if_namespaced root) as [r|e].
  2:{ split; [discriminate|]. intros (r & H & _). discriminate. }
  cbn [bind]. destruct (tag_is "REQ-IF" r) eqn:T; cbn [negb].
  2:{ split; [discriminate|]. intros (r' & H & T' & _). apply ok_eq in H. congruence. }
  transitivity (accepted_document r).
  2:{ split; [eauto|]. intros (r' & H & _ & A). apply ok_eq in H. subst r'. exact A. }
  unfold accepted_document, if_child. cbn [path_node].
  destruct (children r) as [|k ks] eqn:C.
  { rewrite !no_children by exact C. split; [|reflexivity]. intros _. split; [reflexivity|discriminate]. }
  clear C. assert (H : okb (match find_child "THE-HEADER" r with
                         | None => Ok None
                         | Some h => let! x := parse_header h in Ok (Some x)
                         end) = match find_child "THE-HEADER" r with Some k => accepted_header k | None => true end).
  { destruct (find_child "THE-HEADER" r) as [h|] eqn:H; [|reflexivity]. apply find_child_tag in H.
    rewrite okb_then, ok_header, H. reflexivity. }
  rewrite <- H. clear H.
  destruct (match find_child "THE-HEADER" r with None => _ | Some _ => _ end) as [h|e]; cbn [bind okb].
  2:{ split; [discriminate|]. intros [H _]. discriminate. }
  destruct (find_child "CORE-CONTENT" r) as [c|]; cbn [bind].
  2:{ split; [|reflexivity]. intros _. split; [reflexivity|discriminate]. }
  destruct (find_child "REQ-IF-CONTENT" c) as [rc|] eqn:RC; cbn [bind].
  2:{ split; [|reflexivity]. intros _. split; [reflexivity|discriminate]. }
  apply find_child_tag in RC. pose proof (ok_content rc RC) as K.
  destruct (pure_content rc) as [[[ct lk] xs]|e]; cbn [bind okb] in *.
  - split; [|reflexivity]. intros _. split; [reflexivity|]. intros rc' E. injection E as <-. apply K. reflexivity.
  - split; [discriminate|]. intros [_ A]. apply K, A. reflexivity.
Qed.
Lemma accepted_iff s :
  (exists b, parse_string s = Ok b) <-> exists r, document_root s = Some r /\ accepted_document r.
Proof.
  rewrite (proj2 (string_traced s)), <- okb_iff. unfold pure_string, document_root.
  destruct s as [|x s].
  { change (lxml_parse []) with (@None (option str * node)). split; [discriminate|]. intros (r & H & _). discriminate. }
  destruct (lxml_parse (x :: s)) as [[decl root]|].
  2:{ split; [discriminate|]. intros (r & H & _). discriminate. }
  rewrite ok_reqif. destruct (strip_if_namespaced root) as [r|e].
  2:{ split; [intros (r & H & _)|intros (r & H & _)]; discriminate. }
  destruct (tag_is "REQ-IF" r) eqn:T.
  - split; intros (r' & H & A); [apply ok_eq in H; subst r'; exists r; tauto|].
    injection H as <-. exists r. auto.
  - split; [intros (r' & H & T' & _); apply ok_eq in H; congruence|intros (r' & H & _); discriminate].
Qed.
Lemma root_iff s : (exists r, document_root s = Some r) <-> reqif_text s.
Proof.
  unfold document_root, reqif_text. destruct (lxml_parse s) as [[decl root]|].
  2:{ split; [intros (r & H); discriminate|intros (? & ? & H & _); discriminate]. }
  destruct (strip_if_namespaced root) as [r|e] eqn:S.
  - pose proof (root_tag root r S) as T.
    assert (P : ns_get (node_nsmap root) None <> None -> pi_free root = true).
    { unfold strip_if_namespaced in S. destruct (ns_get (node_nsmap root) None); [|congruence]. intros _.
      destruct (strip_ns false root) as [m|] eqn:E; [|discriminate]. exact (strip_some _ _ _ E). }
    split.
    + intros (r' & H). destruct (tag_is "REQ-IF" r); [|discriminate]. exists decl, root. split; [reflexivity|].
      split; [apply T; reflexivity|exact P].
    + intros (d & rt & H & R & _). injection H as <- <-. apply T in R. rewrite R. eauto.
  - split; [intros (r & H); discriminate|]. intros (d & rt & H & R & P). injection H as <- <-.
    unfold strip_if_namespaced in S. destruct (ns_get (node_nsmap root) None); [|discriminate].
    destruct (strip_total root false) as [m Hm]; [apply P; discriminate|]. rewrite Hm in S. discriminate.
Qed.
