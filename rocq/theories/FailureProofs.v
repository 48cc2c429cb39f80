(** FailureProofs.v -- which exception each parser raises *)
From Verif Require Import Base Xml Utf8 Lxml Py LxmlStr Models AttrDef DataType Header AttrValue SpecObj
  Hierarchy SpecTypes Progress Parser SpecTraversal SpecProgress SpecLookup SpecParse SpecAccept SpecFailure
  DictProofs ProgressProofs TraversalProofs ParserProofs FaithProofs ParserErrors IsolationProofs AcceptProofs.

Definition failure {A} (r : result A) : option exn := match r with Ok _ => None | Raise e => Some e end.
Lemma failure_bind {A B} (r : result A) (k : A -> result B) :
  failure (bind r k) = match r with Ok a => failure (k a) | Raise e => Some e end.
Proof. destruct r; reflexivity. Qed.
Lemma failure_then {A B} (r : result A) (f : A -> B) : failure (let! a := r in Ok (f a)) = failure r.
Proof. destruct r; reflexivity. Qed.
Lemma unmet_app l l' : first_unmet (l ++ l') = match first_unmet l with Some e => Some e | None => first_unmet l' end.
Proof. induction l as [|[b e] l IH]; [reflexivity|]. cbn [app first_unmet]. destruct b; [exact IH|reflexivity]. Qed.
Lemma failure_mapM {A B} (f : A -> result B) (g : A -> list requirement) l :
  (forall x, In x l -> failure (f x) = first_unmet (g x)) -> failure (mapM f l) = first_unmet (flat_map g l).
Proof.
  induction l as [|x l IH]; intros H; [reflexivity|]. cbn [mapM flat_map]. rewrite unmet_app, <- H by (left; reflexivity).
  destruct (f x) as [y|e]; [|reflexivity]. cbn [bind failure]. rewrite failure_then. apply IH. intros z HZ. apply H. right. exact HZ.
Qed.
Lemma failure_then_mapM {A B C} (f : A -> result B) (g : A -> list requirement) (h : list B -> C) l :
  (forall x, In x l -> failure (f x) = first_unmet (g x)) -> failure (let! a := mapM f l in Ok (h a)) = first_unmet (flat_map g l).
Proof. intros H. rewrite failure_then. apply failure_mapM, H. Qed.
Lemma unmet_true l : Forall (fun x : requirement => fst x = true) l -> first_unmet l = None.
Proof. induction 1 as [|[b e] l H _ IH]; [reflexivity|]. cbn in H. subst b. exact IH. Qed.
Lemma unmet_single b e : first_unmet [(b, e)] = if b then None else Some e.
Proof. destruct b; reflexivity. Qed.
Lemma failure_of_okb {A} (r : result A) b e : okb r = b -> (forall e', r = Raise e' -> e' = e) -> failure r = if b then None else Some e.
Proof. intros <- H. destruct r as [a|e']; [reflexivity|]. cbn. f_equal. apply H. reflexivity. Qed.

Lemma header_failure n : tag_is "THE-HEADER" n = true -> failure (parse_header n) = first_unmet (header_needs n).
Proof.
  intros T. unfold parse_header, header_needs. rewrite T. cbn [py_assert bind]. unfold at_path, has_attr. cbn [path_node].
  destruct (find_child "REQ-IF-HEADER" n) as [h|]; [|reflexivity]. unfold attr_req. destruct (attr_opt "IDENTIFIER" h); reflexivity.
Qed.
Lemma enum_value_failure n : failure (parse_enum_value n) = first_unmet (enum_value_needs n).
Proof.
  unfold parse_enum_value, enum_value_needs, has_path, at_path, has_attr. cbn [path_node]. unfold attr_req, find_req.
  destruct (attr_opt "IDENTIFIER" n); [|reflexivity]. cbn [bind present first_unmet].
  destruct (find_child "PROPERTIES" n) as [p|]; [|reflexivity]. cbn [bind].
  destruct (find_child "EMBEDDED-VALUE" p) as [e|]; [|reflexivity]. cbn [bind first_unmet].
  destruct (attr_opt "KEY" e); reflexivity.
Qed.
Ltac ors := repeat first [progress cbn [orb]|rewrite orb_true_r].
Lemma data_type_failure n : failure (parse_data_type n) = first_unmet (data_type_needs n).
Proof.
  unfold parse_data_type, data_type_needs. rewrite unmet_app. unfold is_element, tag_contains, tag_has.
  destruct (tag n) as [t|] eqn:TN; [|reflexivity]. cbn [present bind first_unmet].
  destruct (contains "DATATYPE-DEFINITION-" t); [|reflexivity]. cbn [py_assert bind]. unfold has_attr, attr_req.
  destruct (attr_opt "IDENTIFIER" n) as [i|]; [|reflexivity]. cbn [bind present first_unmet].
  unfold data_type_tags. rewrite !tag_in_cons, tag_in_nil.
  destruct (tag_is "DATATYPE-DEFINITION-ENUMERATION" n) eqn:E1.
  { ors. unfold items, section_items. destruct (find_child "SPECIFIED-VALUES" n) as [sv|]; [|reflexivity].
    cbn [option_map]. apply failure_then_mapM. intros x _. apply enum_value_failure. }
  destruct (tag_is "DATATYPE-DEFINITION-STRING" n) eqn:E2.
  { ors. destruct (tag_is "DATATYPE-DEFINITION-REAL" n) eqn:E; [|reflexivity]. apply tag_is_eq in E, E2. congruence. }
  destruct (tag_is "DATATYPE-DEFINITION-INTEGER" n) eqn:E3.
  { ors. destruct (tag_is "DATATYPE-DEFINITION-REAL" n) eqn:E; [|reflexivity]. apply tag_is_eq in E, E3. congruence. }
  destruct (tag_is "DATATYPE-DEFINITION-REAL" n) eqn:E4.
  { ors. destruct (attr_opt "ACCURACY" n) as [s|]; [|reflexivity]. destruct (py_int s); reflexivity. }
  cbn [orb].
  destruct (tag_is "DATATYPE-DEFINITION-XHTML" n); [ors; reflexivity|].
  destruct (tag_is "DATATYPE-DEFINITION-DATE" n); [ors; reflexivity|].
  destruct (tag_is "DATATYPE-DEFINITION-BOOLEAN" n); ors; reflexivity.
Qed.

(** ** Markup: only ValueError *)
Lemma ns_node_error k f n : forall e, stringify_ns_node k f n = Raise e -> e = EValueError.
Proof.
  induction n as [c|s|s|ns l d i a kids IH] using node_ind'; try (intros e H; injection H as <-; reflexivity).
  cbn [stringify_ns_node]. match goal with |- context [bind (?g kids) _] => set (go := g) end.
  assert (G : forall e, go kids = Raise e -> e = EValueError).
  { clear -IH. induction IH as [|x ks Hx _ IHk]; [discriminate|]. intros e H. destruct x as [c|ns l d i a kk|s|s].
    - cbn in H. fold go in H. destruct (go ks) as [r|e'] eqn:E; [discriminate|]. injection H as <-. apply IHk. reflexivity.
    - change (go (El ns l d i a kk :: ks)) with (let! s := stringify_ns_node k f (El ns l d i a kk) in let! r := go ks in Ok (s ++ r)) in H.
      destruct (stringify_ns_node k f (El ns l d i a kk)) as [s|e'] eqn:E; [|injection H as <-; apply Hx; reflexivity].
      cbn [bind] in H. destruct (go ks) as [r|e'] eqn:E'; [discriminate|]. injection H as <-. apply IHk. reflexivity.
    - injection H as <-. reflexivity.
    - injection H as <-. reflexivity. }
  intros e H. destruct (needs_close _ kids); [|discriminate]. destruct (go kids) as [r|e'] eqn:E; [discriminate|]. injection H as <-. apply G. reflexivity.
Qed.
Lemma ns_kids_error k f ks : forall e, stringify_ns_kids k f ks = Raise e -> e = EValueError.
Proof.
  induction ks as [|x ks IH]; [discriminate|]. intros e H. destruct x as [c|ns l d i a kk|s|s].
  - change (stringify_ns_kids k f (Chr c :: ks)) with (let! r := stringify_ns_kids k f ks in Ok (lxml_escape_for_html [c] ++ r)) in H.
    destruct (stringify_ns_kids k f ks) as [r|e'] eqn:E; [discriminate|]. injection H as <-. apply IH. reflexivity.
  - change (stringify_ns_kids k f (El ns l d i a kk :: ks)) with
      (let! s := stringify_ns_node k f (El ns l d i a kk) in let! r := stringify_ns_kids k f ks in Ok (s ++ r)) in H.
    destruct (stringify_ns_node k f (El ns l d i a kk)) as [s|e'] eqn:E; [|injection H as <-; apply (ns_node_error _ _ _ _ E)].
    cbn [bind] in H. destruct (stringify_ns_kids k f ks) as [r|e'] eqn:E'; [discriminate|]. injection H as <-. apply IH. reflexivity.
  - injection H as <-. reflexivity.
  - injection H as <-. reflexivity.
Qed.
Lemma node_error r n : forall e, stringify_node r n = Raise e -> e = EValueError.
Proof.
  revert r. induction n as [c|s|s|ns l d i a kids IH] using node_ind'; intros r; try discriminate; try (intros e H; injection H as <-; reflexivity).
  cbn [stringify_node]. match goal with |- context [bind (?g kids) _] => set (go := g) end.
  assert (G : forall e, go kids = Raise e -> e = EValueError).
  { clear -IH. induction IH as [|x ks Hx _ IHk]; [discriminate|]. intros e H. destruct x as [c|ns l d i a kk|s|s].
    - cbn in H. fold go in H. destruct (go ks) as [y|e'] eqn:E; [discriminate|]. injection H as <-. apply IHk. reflexivity.
    - change (go (El ns l d i a kk :: ks)) with (let! s := stringify_node false (El ns l d i a kk) in let! r := go ks in Ok (s ++ r)) in H.
      destruct (stringify_node false (El ns l d i a kk)) as [s|e'] eqn:E; [|injection H as <-; apply (Hx _ _ E)].
      cbn [bind] in H. destruct (go ks) as [y|e'] eqn:E'; [discriminate|]. injection H as <-. apply IHk. reflexivity.
    - change (go (Cmt s :: ks)) with (let! r := go ks in Ok (("<!--" ++ s ++ "-->") ++ r)) in H.
      destruct (go ks) as [y|e'] eqn:E'; [discriminate|]. injection H as <-. apply IHk. reflexivity.
    - injection H as <-. reflexivity. }
  intros e H. destruct (needs_close _ kids); [|discriminate]. destruct (go kids) as [y|e'] eqn:E; [discriminate|]. injection H as <-. apply G. reflexivity.
Qed.
Lemma mapM_error {A B} (f : A -> result B) e0 l : (forall x e, f x = Raise e -> e = e0) -> forall e, mapM f l = Raise e -> e = e0.
Proof.
  intros H. induction l as [|x l IH]; [discriminate|]. intros e. cbn [mapM]. destruct (f x) as [y|e'] eqn:E.
  - cbn [bind]. destruct (mapM f l) as [ys|e'] eqn:E'; [discriminate|]. intros K. injection K as <-. apply IH. reflexivity.
  - intros K. injection K as <-. apply (H _ _ E).
Qed.
Lemma children_error n : forall e, stringify_children n = Raise e -> e = EValueError.
Proof.
  intros e. unfold stringify_children. match goal with |- context [mapM ?f ?l] => destruct (mapM f l) as [ys|e'] eqn:E end; [discriminate|].
  intros K. injection K as <-. eapply (mapM_error _ EValueError); [|exact E]. intros [x t] e2 H.
  cbn [fst] in H. destruct (stringify_node true x) as [s|e3] eqn:E3; [discriminate|]. injection H as <-. apply (node_error _ _ _ E3).
Qed.
Lemma markup_failure v : elementb v = true ->
  failure (stringify_namespaced_children v None) = first_unmet [(some_namespace v, EAssertionError); (elements_only v, EValueError)].
Proof.
  intros E. pose proof (ok_markup_default v E) as O. unfold accepted_markup_default, some_namespace in *. unfold stringify_namespaced_children in *.
  destruct (node_nsmap v) as [|[k u] m]; [reflexivity|]. cbn [negb andb first_unmet] in *.
  rewrite (failure_of_okb _ _ EValueError O (ns_kids_error _ _ _)). destruct (elements_only v); reflexivity.
Qed.
Lemma value_markup_failure v : elementb v = true ->
  failure (match node_nsmap v with
     | _ :: _ =>
         let! x := stringify_namespaced_children v None in
         let! s := convert_children_from_reqif_ns v in
         Ok (x, reqif_unindent_xhtml_string s)
     | [] =>
         let! x := stringify_children v in
         Ok (x, reqif_unindent_xhtml_string x)
     end) = first_unmet (markup_needs v).
Proof.
  intros E. unfold markup_needs. pose proof (markup_failure v E) as M. pose proof (ok_convert v E) as C. unfold some_namespace in *.
  destruct (node_nsmap v) as [|x m] eqn:NS.
  - rewrite failure_then, unmet_single. apply failure_of_okb; [apply ok_stringify_children, E|apply children_error].
  - rewrite failure_bind. destruct (stringify_namespaced_children v None) as [y|e]; cbn [failure first_unmet] in *.
    + destruct (elements_only v) eqn:EO; [|discriminate M]. rewrite (elements_pi _ EO) in C. destruct (convert_children_from_reqif_ns v); [reflexivity|discriminate C].
    + exact M.
Qed.

(** ** Attribute values *)
Lemma definition_ref_failure ref n : failure (definition_ref_text ref n) = first_unmet [(has_path ["DEFINITION"; ref] n, EAttributeError)].
Proof.
  unfold definition_ref_text, has_path, at_path, find_req. cbn [path_node].
  destruct (find_child "DEFINITION" n) as [d|]; [|reflexivity]. cbn [bind].
  destruct (find_child ref d); reflexivity.
Qed.
Lemma grandchild_failure n : failure (first_grandchild_text n) = first_unmet [(has_grandchild n, EIndexError)].
Proof.
  unfold first_grandchild_text, has_grandchild, child_at. destruct (children n) as [|d m]; [reflexivity|].
  cbn [nth_error bind]. destruct (children d); reflexivity.
Qed.
Lemma attr_failure k n : failure (attr_req k n) = first_unmet [(has_attr k n, EKeyError)].
Proof. unfold attr_req, has_attr. destruct (attr_opt k n); reflexivity. Qed.

Lemma unmet_cons b e l : first_unmet ((b, e) :: l) = match first_unmet [(b, e)] with Some x => Some x | None => first_unmet l end.
Proof. destruct b; reflexivity. Qed.
Lemma unmet_two a b l : first_unmet (a :: b :: l) = match first_unmet [a; b] with Some x => Some x | None => first_unmet l end.
Proof. exact (unmet_app [a; b] l). Qed.
Lemma unmet_head e l : first_unmet ((true, e) :: l) = first_unmet l.
Proof. reflexivity. Qed.
Lemma simple_value_failure t n : failure (parse_simple_value t n)
  = first_unmet [(has_attr "THE-VALUE" n, EKeyError); (has_path ["DEFINITION"; "ATTRIBUTE-DEFINITION-" ++ at_name t ++ "-REF"] n, EAttributeError)].
Proof.
  unfold parse_simple_value. rewrite failure_bind, unmet_cons, <- attr_failure. destruct (attr_req "THE-VALUE" n); [|reflexivity]. cbn [failure].
  rewrite failure_then, definition_ref_failure. destruct t; reflexivity.
Qed.
Lemma string_value_failure t n : failure (let! v := attr_req "THE-VALUE" n in let! ref := first_grandchild_text n in Ok (SpecAttr t ref (VStr v) None (Some n)))
  = first_unmet [(has_attr "THE-VALUE" n, EKeyError); (has_grandchild n, EIndexError)].
Proof.
  rewrite failure_bind, unmet_cons, <- attr_failure. destruct (attr_req "THE-VALUE" n); [|reflexivity]. cbn [failure].
  rewrite failure_then. apply grandchild_failure.
Qed.
Lemma xhtml_value_failure n : tag_is "ATTRIBUTE-VALUE-XHTML" n = true ->
  failure (parse_xhtml_attribute_value n)
  = first_unmet ((has_path ["THE-VALUE"] n, EAttributeError) :: below ["THE-VALUE"] markup_needs n
                 ++ [(has_path ["DEFINITION"; "ATTRIBUTE-DEFINITION-XHTML-REF"] n, EAttributeError)]).
Proof.
  intros T. apply tag_is_eq in T. unfold parse_xhtml_attribute_value, tag_contains. rewrite T.
  change (contains _ _) with true. cbn [bind py_assert]. rewrite unmet_cons, unmet_app, <- definition_ref_failure.
  unfold find_req at 1, has_path, at_path, below. cbn [path_node].
  destruct (find_child "THE-VALUE" n) as [tv|] eqn:F; [|reflexivity]. cbn [bind first_unmet].
  apply find_child_el in F. pose proof (value_markup_failure tv F) as V. rewrite failure_bind.
  destruct (match node_nsmap tv with [] => _ | _ => _ end) as [[x y]|e]; cbn [failure] in V; rewrite <- V; [|reflexivity].
  apply failure_then.
Qed.
(** the tag decides which kind counts *)
Lemma by_type_tag p t f n : tag_is (p ++ at_name t) n = true -> by_type p f n = f t.
Proof.
  intros T. unfold by_type. destruct (find _ all_types) as [t'|] eqn:F.
  - apply find_some in F. destruct F as [_ F]. rewrite (at_tag_inj t t' n p T F). reflexivity.
  - exfalso. assert (I : In t all_types) by (destruct t; cbn; tauto). pose proof (List.find_none _ _ F t I) as G. cbv beta in G. congruence.
Qed.
Lemma by_type_none p f n : (forall t, tag_is (p ++ at_name t) n = false) -> by_type p f n = [(false, ENotImplementedError)].
Proof.
  intros T. unfold by_type. destruct (find _ all_types) as [t'|] eqn:F; [|reflexivity]. apply find_some in F. destruct F as [_ F]. rewrite T in F. discriminate F.
Qed.
Lemma attr_value_failure n : failure (parse_attribute_value n) = first_unmet (attr_value_needs n).
Proof.
  unfold parse_attribute_value, attr_value_needs. destruct (is_comment n); [reflexivity|].
  destruct (tag_is "ATTRIBUTE-VALUE-STRING" n) eqn:E1.
  { rewrite (by_type_tag "ATTRIBUTE-VALUE-" AT_STRING _ n E1). cbv beta zeta iota. rewrite <- (string_value_failure AT_STRING).
    destruct (attr_req "THE-VALUE" n); [|reflexivity]. cbn [bind]. destruct (first_grandchild_text n); reflexivity. }
  destruct (tag_is "ATTRIBUTE-VALUE-ENUMERATION" n) eqn:E2.
  { rewrite (by_type_tag "ATTRIBUTE-VALUE-" AT_ENUMERATION _ n E2). cbv beta zeta iota.
    change ("ATTRIBUTE-DEFINITION-" ++ at_name AT_ENUMERATION ++ "-REF") with ("ATTRIBUTE-DEFINITION-ENUMERATION-REF" : str).
    rewrite unmet_cons, <- definition_ref_failure, failure_bind. unfold has_path, at_path. cbn [path_node].
    destruct (definition_ref_text _ n); [|reflexivity]. destruct (find_child "VALUES" n); reflexivity. }
  destruct (tag_is "ATTRIBUTE-VALUE-INTEGER" n) eqn:E3.
  { rewrite (by_type_tag "ATTRIBUTE-VALUE-" AT_INTEGER _ n E3), failure_then. apply simple_value_failure. }
  destruct (tag_is "ATTRIBUTE-VALUE-REAL" n) eqn:E4.
  { rewrite (by_type_tag "ATTRIBUTE-VALUE-" AT_REAL _ n E4), failure_then. apply simple_value_failure. }
  destruct (tag_is "ATTRIBUTE-VALUE-BOOLEAN" n) eqn:E5.
  { rewrite (by_type_tag "ATTRIBUTE-VALUE-" AT_BOOLEAN _ n E5), failure_then. apply simple_value_failure. }
  destruct (tag_is "ATTRIBUTE-VALUE-DATE" n) eqn:E6.
  { rewrite (by_type_tag "ATTRIBUTE-VALUE-" AT_DATE _ n E6), failure_then. apply simple_value_failure. }
  destruct (tag_is "ATTRIBUTE-VALUE-XHTML" n) eqn:E7.
  { rewrite (by_type_tag "ATTRIBUTE-VALUE-" AT_XHTML _ n E7), failure_then. apply xhtml_value_failure, E7. }
  rewrite by_type_none; [reflexivity|]. intros []; assumption.
Qed.
Lemma attr_values_failure n : failure (parse_attribute_values (find_child "VALUES" n)) = first_unmet (flat_map attr_value_needs (items "VALUES" n)).
Proof.
  unfold items, section_items. destruct (find_child "VALUES" n) as [v|]; [|reflexivity].
  cbn [parse_attribute_values option_map]. apply failure_then_mapM. intros x _. apply attr_value_failure.
Qed.

(** ** Attribute definitions and spec types *)
Lemma datatype_ref_failure t n :
  failure (parse_datatype_ref t n) = first_unmet [(has_path ["TYPE"; "DATATYPE-DEFINITION-" ++ at_name t ++ "-REF"] n, ENotImplementedError)].
Proof.
  unfold parse_datatype_ref, has_path, at_path, find_req, get_definition_tag. cbn [path_node].
  destruct (find_child "TYPE" n) as [d|]; [|reflexivity]. cbn [bind].
  destruct (find_child _ d); reflexivity.
Qed.
Lemma the_value_failure {A} d (f : str -> A) v e :
  failure (match find_child v d with Some x => let! s := attr_req "THE-VALUE" x in Ok (f s) | None => Raise e end)
  = first_unmet [(has_path [v] d, e); (at_path [v] (has_attr "THE-VALUE") d, EKeyError)].
Proof.
  unfold has_path, at_path. cbn [path_node]. destruct (find_child v d) as [x|]; [|reflexivity]. cbn [first_unmet].
  rewrite failure_then, attr_failure. reflexivity.
Qed.
Lemma default_failure t n : failure (parse_default_value t n) = first_unmet (below ["DEFAULT-VALUE"] (default_needs t) n).
Proof.
  unfold below. cbn [path_node]. destruct (find_child "DEFAULT-VALUE" n) as [d|] eqn:D.
  2:{ destruct t; cbn [parse_default_value]; unfold parse_default_string, parse_default_simple, parse_default_boolean,
        parse_default_xhtml, parse_default_enum; rewrite D; reflexivity. }
  destruct t; cbn [parse_default_value default_needs]; cbv zeta;
    unfold parse_default_string, parse_default_simple, parse_default_boolean,
        parse_default_xhtml, parse_default_enum; rewrite D, ?no_content_eq.
  - destruct (no_content d); [reflexivity|]. apply the_value_failure.
  - destruct (no_content d); [reflexivity|].
    unfold at_path, has_path, at_path. cbn [path_node].
    change (find_child ("ATTRIBUTE-VALUE-" ++ at_name AT_ENUMERATION) d) with (find_child "ATTRIBUTE-VALUE-ENUMERATION" d).
    destruct (find_child "ATTRIBUTE-VALUE-ENUMERATION" d) as [v|]; [|reflexivity]. unfold if_child.
    destruct (find_child "DEFINITION" v) as [df|]; [|reflexivity]. unfold find_req. cbn [path_node].
    change (find_child ("ATTRIBUTE-DEFINITION-" ++ at_name AT_ENUMERATION ++ "-REF") df)
      with (find_child "ATTRIBUTE-DEFINITION-ENUMERATION-REF" df).
    destruct (find_child "ATTRIBUTE-DEFINITION-ENUMERATION-REF" df); reflexivity.
  - apply the_value_failure.
  - apply the_value_failure.
  - change ("ATTRIBUTE-VALUE-BOOLEAN" : str) with ("ATTRIBUTE-VALUE-" ++ at_name AT_BOOLEAN).
    unfold has_path, at_path. cbn [path_node]. destruct (find_child _ d) as [v|]; [|reflexivity]. cbn [first_unmet]. cbv zeta.
    match goal with |- failure (let! s := _ in Ok (@?f s)) = _ => rewrite (failure_then _ f) end. apply attr_failure.
  - apply the_value_failure.
  - destruct (no_content d); [reflexivity|]. unfold at_path, has_path, at_path. cbn [path_node].
    change (find_child ("ATTRIBUTE-VALUE-" ++ at_name AT_XHTML) d) with (find_child "ATTRIBUTE-VALUE-XHTML" d).
    destruct (find_child "ATTRIBUTE-VALUE-XHTML" d) as [v|]; [|reflexivity]. unfold if_child, find_req. cbn [first_unmet path_node].
    assert (V : forall ref : option str, failure (let! tv := match find_child "THE-VALUE" v with Some x => Ok x | None => Raise EAttributeError end in
                let! s := stringify_namespaced_children tv None in Ok (ref, DVStr s))
                = first_unmet [(match find_child "THE-VALUE" v with Some _ => true | None => false end, EAttributeError);
                    (match find_child "THE-VALUE" v with Some k => some_namespace k | None => false end, EAssertionError);
                    (match find_child "THE-VALUE" v with Some k => elements_only k | None => false end, EValueError)]).
    { intros ref. destruct (find_child "THE-VALUE" v) as [tv|] eqn:F; [|reflexivity]. cbn [bind].
      rewrite failure_then. apply markup_failure. exact (find_child_el _ _ _ F). }
    change ("ATTRIBUTE-DEFINITION-" ++ at_name AT_XHTML ++ "-REF") with ("ATTRIBUTE-DEFINITION-XHTML-REF" : str).
    destruct (find_child "DEFINITION" v) as [df|].
    + destruct (find_child "ATTRIBUTE-DEFINITION-XHTML-REF" df); [|reflexivity]. cbn [bind]. rewrite V. destruct (find_child "THE-VALUE" v); reflexivity.
    + cbn [bind]. rewrite V. destruct (find_child "THE-VALUE" v); reflexivity.
Qed.
Lemma attr_def_failure n : failure (parse_attribute_definition n) = first_unmet (attr_def_needs n).
Proof.
  unfold parse_attribute_definition, attr_def_needs. cbv zeta. rewrite failure_bind, unmet_cons, <- attr_failure.
  destruct (attr_req "IDENTIFIER" n); [|reflexivity]. cbn [failure].
  destruct (attr_type_of_def_tag (tag n)) as [t|] eqn:T.
  - rewrite (by_type_tag "ATTRIBUTE-DEFINITION-" t _ n) by (apply def_tag_of, T).
    rewrite failure_bind, unmet_cons, <- datatype_ref_failure. destruct (parse_datatype_ref t n); [|reflexivity]. cbn [failure].
    rewrite failure_bind, <- default_failure. destruct (parse_default_value t n) as [[? ?]|]; reflexivity.
  - rewrite by_type_none; [reflexivity|]. intros t. apply not_true_iff_false. rewrite def_tag_of. congruence.
Qed.
Lemma attr_defs_failure n : failure (parse_attribute_definitions n) = first_unmet (flat_map attr_def_needs (items "SPEC-ATTRIBUTES" n)).
Proof.
  unfold parse_attribute_definitions, items, section_items. destruct (find_child "SPEC-ATTRIBUTES" n) as [v|]; [|reflexivity].
  cbn [option_map]. apply failure_then_mapM. intros x _. apply attr_def_failure.
Qed.
Lemma attribute_map_failure ks l : mapM parse_attribute_definition ks = Ok l ->
  forall m, failure (fill_attribute_map l m) = first_unmet (map (fun a => (has_attr "LONG-NAME" a, EAssertionError)) ks).
Proof.
  intros H. apply mapM_Ok in H. induction H as [|k a ks l H _ IH]; intros m; [reflexivity|].
  cbn [fill_attribute_map map first_unmet]. apply attr_def_faithful in H. destruct H as (_ & (_ & _ & _ & H) & _).
  unfold has_attr at 1. rewrite H. destruct (ad_long_name a); [|reflexivity]. apply IH.
Qed.
Lemma not_impl_failure k n : failure (or_not_impl (attr_req k n)) = first_unmet [(has_attr k n, ENotImplementedError)].
Proof. unfold attr_req, has_attr. destruct (attr_opt k n); reflexivity. Qed.
Lemma spec_type_failure n : failure (parse_spec_type n) = first_unmet (spec_type_needs n).
Proof.
  unfold parse_spec_type, spec_type_needs, spec_type_tags. rewrite !tag_in_cons, tag_in_nil.
  destruct (tag_is "SPEC-OBJECT-TYPE" n) eqn:E1.
  { assert (C : is_comment n = false) by (apply tag_is_eq in E1; exact (tag_comment _ _ E1)).
    assert (F1 : tag_is "SPEC-RELATION-TYPE" n = false) by (apply not_true_iff_false; rewrite tag_is_eq in *; congruence).
    assert (F2 : tag_is "SPECIFICATION-TYPE" n = false) by (apply not_true_iff_false; rewrite tag_is_eq in *; congruence).
    rewrite C, F1, F2, failure_then. ors. unfold parse_spec_object_type. rewrite E1. cbn [py_assert bind app].
    rewrite failure_bind, unmet_head, unmet_cons, <- not_impl_failure. destruct (or_not_impl _); [|reflexivity]. cbn [failure].
    rewrite failure_then, attr_defs_failure, app_nil_r. reflexivity. }
  destruct (tag_is "SPEC-RELATION-TYPE" n) eqn:E2.
  { assert (C : is_comment n = false) by (apply tag_is_eq in E2; exact (tag_comment _ _ E2)).
    assert (F2 : tag_is "SPECIFICATION-TYPE" n = false) by (apply not_true_iff_false; rewrite tag_is_eq in *; congruence).
    rewrite C, F2, failure_then. ors. unfold parse_spec_relation_type. rewrite E2. cbn [py_assert bind app].
    rewrite failure_bind, unmet_head, unmet_cons, <- not_impl_failure. destruct (or_not_impl (attr_req "IDENTIFIER" n)); [|reflexivity]. cbn [failure].
    rewrite failure_bind. rewrite unmet_cons, <- not_impl_failure. destruct (or_not_impl (attr_req "LONG-NAME" n)); [|reflexivity]. cbn [failure].
    rewrite failure_then, attr_defs_failure, app_nil_r. reflexivity. }
  destruct (tag_is "SPECIFICATION-TYPE" n) eqn:E3.
  { assert (C : is_comment n = false) by (apply tag_is_eq in E3; exact (tag_comment _ _ E3)).
    rewrite C, failure_then. ors. unfold parse_specification_type. rewrite E3. cbn [py_assert bind app].
    rewrite failure_bind, unmet_head, unmet_cons, <- not_impl_failure. destruct (or_not_impl (attr_req "IDENTIFIER" n)); [|reflexivity]. cbn [failure].
    rewrite failure_bind. rewrite unmet_cons, <- not_impl_failure. destruct (or_not_impl (attr_req "LAST-CHANGE" n)); [|reflexivity]. cbn [failure].
    rewrite unmet_app, <- attr_defs_failure, failure_bind.
    destruct (parse_attribute_definitions n) as [ads|] eqn:P; [|reflexivity]. cbn [failure]. rewrite failure_then.
    unfold parse_attribute_definitions in P. unfold items, section_items.
    destruct (find_child "SPEC-ATTRIBUTES" n) as [sa|]; cbn [option_map].
    - destruct (mapM parse_attribute_definition (children sa)) as [ads'|] eqn:M; [|discriminate].
      cbn [bind] in P. apply ok_eq in P. subst ads. apply (attribute_map_failure _ _ M).
    - apply ok_eq in P. subst ads. reflexivity. }
  destruct (tag_is "RELATION-GROUP-TYPE" n) eqn:E4.
  { assert (C : is_comment n = false) by (apply tag_is_eq in E4; exact (tag_comment _ _ E4)).
    rewrite C, failure_then. ors. unfold parse_relation_group_type. rewrite E4. cbn [py_assert bind app].
    rewrite failure_bind, unmet_head, unmet_cons, <- not_impl_failure. destruct (or_not_impl _); [|reflexivity]. cbn [failure].
    rewrite failure_then, attr_defs_failure, app_nil_r. reflexivity. }
  ors. destruct (is_comment n); reflexivity.
Qed.

(** ** Objects, relations, groups *)
Lemma tag_failure {A} sub n (k : result A) :
  failure (let! b := tag_contains sub n in let! _ := py_assert b in k)
  = match first_unmet [(is_element n, ETypeError); (tag_has sub n, EAssertionError)] with Some e => Some e | None => failure k end.
Proof. unfold tag_contains, is_element, tag_has. destruct (tag n) as [t|]; [|reflexivity]. cbn [bind present first_unmet]. destruct (contains sub t); reflexivity. Qed.
Lemma path2_failure {A} a b n (k : node -> A) :
  failure (let! x := find_req a n in let! y := find_req b x in Ok (k y)) = first_unmet [(has_path [a; b] n, EAttributeError)].
Proof.
  unfold has_path, at_path, find_req. cbn [path_node]. destruct (find_child a n) as [x|]; [|reflexivity]. cbn [bind].
  destruct (find_child b x); reflexivity.
Qed.
Lemma object_failure n : failure (object_item n) = first_unmet (spec_object_needs n).
Proof.
  unfold object_item, spec_object_needs. destruct (is_comment n); [reflexivity|]. rewrite failure_then.
  unfold parse_spec_object. rewrite tag_failure. cbn [app].
  rewrite (unmet_two _ _ (_ :: _)). unfold requirement.
  destruct (first_unmet [(is_element n, _); _]); [reflexivity|]. cbv zeta. rewrite failure_bind, unmet_cons, <- not_impl_failure.
  destruct (or_not_impl _); [|reflexivity]. cbn [failure]. unfold has_path, at_path, find_req. cbn [path_node].
  destruct (find_child "TYPE" n) as [ty|]; [|reflexivity]. cbn [bind].
  destruct (find_child "SPEC-OBJECT-TYPE-REF" ty); [|reflexivity]. cbn [bind first_unmet].
  rewrite failure_bind, <- attr_values_failure. destruct (parse_attribute_values _); reflexivity.
Qed.
Lemma relation_group_failure n : failure (parse_relation_group n) = first_unmet (relation_group_needs n).
Proof.
  unfold parse_relation_group, relation_group_needs. rewrite tag_failure.
  rewrite (unmet_two _ _ (_ :: _)). unfold requirement.
  destruct (first_unmet [(is_element n, _); _]); [reflexivity|]. rewrite <- not_impl_failure. cbv zeta. apply failure_then.
Qed.
Lemma relation_value_failure n : failure (parse_relation_value n) = first_unmet (relation_value_needs n).
Proof.
  unfold parse_relation_value, relation_value_needs. rewrite !tag_in_cons, tag_in_nil, orb_false_r.
  destruct (tag_is "ATTRIBUTE-VALUE-STRING" n) eqn:E1.
  { assert (F : tag_is "ATTRIBUTE-VALUE-XHTML" n = false) by (apply not_true_iff_false; rewrite tag_is_eq in *; congruence).
    rewrite F, string_value_failure. reflexivity. }
  destruct (tag_is "ATTRIBUTE-VALUE-XHTML" n) eqn:E2.
  { unfold attr_value_needs. assert (C : is_comment n = false) by (apply tag_is_eq in E2; exact (tag_comment _ _ E2)).
    rewrite C, (by_type_tag "ATTRIBUTE-VALUE-" AT_XHTML _ n E2). apply xhtml_value_failure, E2. }
  cbn [orb]. destruct (tag_is "ATTRIBUTE-VALUE-INTEGER" n); [|reflexivity]. apply string_value_failure.
Qed.
Definition plain_exn (e : exn) : Prop := match e with EMissingTag _ _ => False | _ => True end.
Lemma unmet_plain l e : Forall (fun x : requirement => plain_exn (snd x)) l -> first_unmet l = Some e -> plain_exn e.
Proof. induction 1 as [|[[] x] l H _ IH]; cbn; [discriminate|exact IH|intros E; injection E as <-; exact H]. Qed.
Lemma relation_value_plain v e : first_unmet (relation_value_needs v) = Some e -> plain_exn e.
Proof.
  apply unmet_plain. unfold relation_value_needs, attr_value_needs, by_type, below.
  destruct (tag_is _ v); [|repeat constructor]. destruct (is_comment v); [constructor|].
  destruct (find _ all_types) as [[]|]; repeat constructor. apply Forall_app. split; [|repeat constructor].
  destruct (path_node _ v); repeat constructor.
Qed.
Lemma relation_failure n : failure (relation_item n) = first_unmet (spec_relation_needs n).
Proof.
  unfold relation_item, spec_relation_needs, parse_spec_relation. rewrite !has_child_tags. rewrite unmet_app.
  destruct (tag_is "SPEC-RELATION" n) eqn:T; [|reflexivity]. cbn [py_assert bind first_unmet].
  destruct (has_child "TYPE" n) eqn:HT; [|reflexivity]. cbn [py_assert bind first_unmet].
  unfold incomplete, lacks.
  assert (S : failure (let! _ := stringify_node false n in Ok tt) = first_unmet [(pi_free n, EValueError)]).
  { rewrite failure_then, unmet_single. apply failure_of_okb; [|apply node_error]. apply stringify_ok. apply tag_is_eq in T. destruct n; try discriminate T. reflexivity. }
  destruct (has_child "SOURCE" n) eqn:HS; cbn [negb].
  2:{ rewrite <- S. destruct (stringify_node false n); reflexivity. }
  destruct (has_child "TARGET" n) eqn:HG; cbn [negb].
  2:{ rewrite <- S. destruct (stringify_node false n); reflexivity. }
  clear S. unfold has_child in *. unfold has_attr, has_path, at_path, find_req. cbn [path_node].
  destruct (find_child "TYPE" n) as [ty|]; [|discriminate HT]. destruct (find_child "SOURCE" n) as [src|]; [|discriminate HS].
  destruct (find_child "TARGET" n) as [tgt|]; [|discriminate HG]. clear HT HS HG.
  destruct (attr_opt "IDENTIFIER" n); [|reflexivity]. cbn [bind present app first_unmet].
  destruct (find_child "SPEC-RELATION-TYPE-REF" ty); [|reflexivity]. cbn [bind first_unmet].
  destruct (find_child "SPEC-OBJECT-REF" src); [|reflexivity]. cbn [bind first_unmet].
  destruct (find_child "SPEC-OBJECT-REF" tgt); [|reflexivity]. cbn [bind first_unmet].
  unfold items, section_items. destruct (find_child "VALUES" n) as [vs|]; [|reflexivity]. cbn [option_map].
  destruct (children vs) as [|v m]; [reflexivity|]. pose proof (relation_value_failure v) as V.
  destruct (parse_relation_value v) as [a|e] eqn:PV; [exact V|]. cbn [bind failure] in *. rewrite <- V.
  symmetry in V. apply relation_value_plain in V. destruct e; first [reflexivity|destruct V].
Qed.

(** ** Hierarchies and specifications *)
Lemma height_kid c k : In k (children c) -> height k < height c.
Proof.
  destruct c as [|? ? ? ? ? kids| |]; cbn [children kids_of filter]; try (intros []). unfold children. cbn [kids_of].
  rewrite filter_In. intros [I _]. cbn [height]. pose proof (proj1 (list_max_le (map height kids) (list_max (map height kids))) (le_n _)) as H.
  rewrite Forall_forall in H. specialize (H (height k) (in_map height _ _ I)). lia.
Qed.
Lemma height_in c k : In k (kids_of c) -> height k < height c.
Proof.
  destruct c as [|? ? ? ? ? kids| |]; cbn [kids_of]; try (intros []).
  intros I. cbn [height]. pose proof (proj1 (list_max_le (map height kids) (list_max (map height kids))) (le_n _)) as H.
  rewrite Forall_forall in H. specialize (H (height k) (in_map height _ _ I)). lia.
Qed.
Lemma hier_failure depth : forall n level, height n <= depth -> failure (parse_hier level n) = first_unmet (hierarchy_needs depth n).
Proof.
  induction depth as [|depth IH]; intros n level Hd; destruct n as [c|ns l d i a kids|s|s]; try reflexivity.
  { cbn [height] in Hd. lia. }
  cbn [hierarchy_needs]. rewrite parse_hier_eq. set (n := El ns l d i a kids) in *. rewrite unmet_app.
  destruct (tag_is "SPEC-HIERARCHY" n); [|reflexivity]. cbn [py_assert bind first_unmet]. unfold has_attr, attr_req.
  destruct (attr_opt "IDENTIFIER" n); [|reflexivity]. cbn [or_not_impl bind present]. unfold has_path, at_path, find_req. cbn [path_node].
  destruct (find_child "OBJECT" n) as [ob|]; [|reflexivity]. cbn [bind].
  destruct (find_child "SPEC-OBJECT-REF" ob); [|reflexivity]. cbn [bind].
  match goal with |- failure (let! ch := ?x in Ok (@?f ch)) = _ => rewrite (failure_then x f) end.
  unfold items, section_items. destruct (find_child "CHILDREN" n) as [c|] eqn:C; [|reflexivity]. cbn [option_map].
  apply failure_then_mapM. intros k Hk. apply IH. apply height_kid in Hk.
  unfold find_child, find_list in C. apply find_some in C. destruct C as [C _]. apply height_in in C. lia.
Qed.
Lemma specification_failure n : failure (parse_specification n) = first_unmet (specification_needs n).
Proof.
  unfold parse_specification, specification_needs. rewrite tag_failure. cbn [app].
  rewrite (unmet_two _ _ (_ :: _)). unfold requirement.
  destruct (first_unmet [(is_element n, _); _]); [reflexivity|]. rewrite failure_bind, unmet_cons, <- not_impl_failure.
  destruct (or_not_impl _); [|reflexivity]. cbn [failure]. rewrite failure_bind, unmet_app, <- attr_values_failure.
  assert (E : failure (match last_child "CHILDREN" n with
             | None => Ok None
             | Some c => let! hs := mapM (parse_hier 1) (children c) in Ok (Some hs)
             end) = first_unmet (flat_map (hierarchy_needs (height n)) (match last_section "CHILDREN" n with Some ks => ks | None => [] end))).
  { unfold last_section, last_child. destruct (find_list "CHILDREN" (rev (kids_of n))) as [c|] eqn:C; [|reflexivity]. cbn [option_map].
    apply failure_then_mapM. intros k Hk. apply hier_failure. apply height_kid in Hk. unfold find_list in C. apply find_some in C.
    destruct C as [C _]. rewrite <- in_rev in C. apply height_in in C. lia. }
  unfold requirement in *. rewrite <- E. clear E. destruct (match last_child "CHILDREN" n with None => _ | Some _ => _ end); [|reflexivity]. cbn [failure]. apply failure_then.
Qed.

(** ** The content and the document *)
Lemma section_failure {S A} t n (body : node -> S -> result S) s0 (f : node -> result A) (g : list A -> S) needs :
  (forall ks, foldM body ks s0 = let! l := mapM f ks in Ok (g l)) -> (forall x, failure (f x) = first_unmet (needs x)) ->
  failure (pure_section t n body s0) = first_unmet (flat_map needs (items t n)).
Proof.
  intros H F. unfold pure_section, items, section_items. destruct (find_child t n) as [x|]; cbn [option_map]; [|reflexivity].
  rewrite H. rewrite failure_then, failure_then. apply failure_mapM. intros y _. apply F.
Qed.
Lemma content_failure rc : tag_is "REQ-IF-CONTENT" rc = true -> failure (pure_content rc) = first_unmet (content_needs rc).
Proof.
  intros T. unfold pure_content, content_needs. rewrite T. cbn [py_assert bind].
  rewrite !unmet_app.
  rewrite <- (section_failure "DATATYPES" rc data_type_body ([], []) parse_data_type _ _ (fun ks => fold_data_types ks [] []) data_type_failure).
  destruct (pure_section "DATATYPES" rc _ _) as [[? [? ?]]|]; [|reflexivity]. cbn [bind failure].
  rewrite <- (section_failure "SPEC-TYPES" rc spec_type_body ([], []) parse_spec_type _ _ (fun ks => fold_spec_types ks [] []) spec_type_failure).
  destruct (pure_section "SPEC-TYPES" rc _ _) as [[? [? ?]]|]; [|reflexivity]. cbn [bind failure].
  rewrite <- (section_failure "SPECIFICATIONS" rc specification_body [] parse_specification _ _ (fun ks => fold_specifications ks []) specification_failure).
  destruct (pure_section "SPECIFICATIONS" rc _ _) as [[? ?]|]; [|reflexivity]. cbn [bind failure].
  rewrite <- (section_failure "SPEC-RELATIONS" rc spec_relation_body ([], [], []) relation_item
                (fun l => ([] ++ lefts l, fill_parents (lefts l) [], [] ++ rights l)) _ (fun ks => fold_spec_relations ks [] [] []) relation_failure).
  destruct (pure_section "SPEC-RELATIONS" rc _ _) as [[? [[? ?] ?]]|]; [|reflexivity]. cbn [bind failure].
  rewrite <- (section_failure "SPEC-OBJECTS" rc spec_object_body ([], []) object_item _ _ (fun ks => fold_spec_objects ks [] []) object_failure).
  destruct (pure_section "SPEC-OBJECTS" rc _ _) as [[? [? ?]]|]; [|reflexivity]. cbn [bind failure].
  rewrite <- (section_failure "SPEC-RELATION-GROUPS" rc relation_group_body [] parse_relation_group _ _ (fun ks => fold_relation_groups ks []) relation_group_failure).
  destruct (pure_section "SPEC-RELATION-GROUPS" rc _ _) as [[? ?]|]; reflexivity.
Qed.
Lemma reqif_failure decl root r : strip_if_namespaced root = Ok r -> tag_is "REQ-IF" r = true ->
  failure (pure_reqif decl root) = first_unmet (document_needs r).
Proof.
  intros S T. unfold pure_reqif. rewrite S. cbn [bind]. rewrite T. cbn [negb]. unfold document_needs.
  destruct (children r) as [|k ks] eqn:C.
  { unfold below. cbn [path_node]. rewrite !no_children by exact C. reflexivity. }
  clear C. rewrite unmet_app.
  assert (H : failure (match find_child "THE-HEADER" r with
                         | None => Ok None
                         | Some h => let! x := parse_header h in Ok (Some x)
                         end) = first_unmet (below ["THE-HEADER"] header_needs r)).
  { unfold below. cbn [path_node]. destruct (find_child "THE-HEADER" r) as [h|] eqn:H; [|reflexivity]. apply find_child_tag in H.
    rewrite failure_then. apply header_failure, H. }
  unfold requirement in *. rewrite <- H. clear H. rewrite failure_bind.
  destruct (match find_child "THE-HEADER" r with None => _ | Some _ => _ end) as [h|e]; cbn [failure]; [|reflexivity].
  unfold below. cbn [path_node]. destruct (find_child "CORE-CONTENT" r) as [c|]; cbn [bind]; [|reflexivity].
  destruct (find_child "REQ-IF-CONTENT" c) as [rc|] eqn:RC; cbn [bind]; [|reflexivity].
  apply find_child_tag in RC. pose proof (content_failure rc RC) as K. rewrite <- K.
  destruct (pure_content rc) as [[[ct lk] xs]|e]; reflexivity.
Qed.
Lemma string_failure s : failure (parse_string s) = text_failure s.
Proof.
  rewrite (proj2 (string_traced s)). unfold pure_string, text_failure, document_root.
  destruct s as [|x s]; [reflexivity|]. destruct (lxml_parse (x :: s)) as [[decl root]|]; [|reflexivity].
  destruct (strip_if_namespaced root) as [r|e] eqn:S.
  - assert (P : present (ns_get (node_nsmap root) None) && negb (pi_free root) = false).
    { unfold strip_if_namespaced in S. destruct (ns_get (node_nsmap root) None); [|reflexivity]. cbn [present andb].
      destruct (strip_ns false root) as [m|] eqn:E; [|discriminate]. apply strip_some in E. rewrite E. reflexivity. }
    rewrite P. destruct (tag_is "REQ-IF" r) eqn:T; [apply reqif_failure; assumption|].
    unfold pure_reqif. rewrite S. cbn [bind]. rewrite T. reflexivity.
  - assert (P : e = ETypeError /\ present (ns_get (node_nsmap root) None) && negb (pi_free root) = true).
    { unfold strip_if_namespaced in S. destruct (ns_get (node_nsmap root) None); [|discriminate].
      destruct (strip_ns false root) as [m|] eqn:E; [discriminate|]. split; [congruence|]. cbn [present andb].
      destruct (pi_free root) eqn:P; [|reflexivity]. destruct (strip_total root false P) as [m Hm]. congruence. }
    destruct P as [-> P]. rewrite P. unfold pure_reqif. rewrite S. reflexivity.
Qed.
