(** IsolationProofs.v -- faulty relations do not disturb the rest *)
From Verif Require Import Base Xml Utf8 Lxml Py LxmlStr Models AttrDef DataType Header AttrValue SpecObj
  Hierarchy SpecTypes Progress Parser SpecTraversal SpecProgress SpecLookup SpecParse
  DictProofs ProgressProofs TraversalProofs ParserProofs FaithProofs ParserErrors.

(** ** stringify_node fails exactly on processing instructions *)
Definition okb {A} (r : result A) : bool := match r with Ok _ => true | Raise _ => false end.
Lemma okb_bind {A B} (r : result A) (k : A -> result B) b :
  (forall a, r = Ok a -> okb (k a) = b) -> okb (bind r k) = (okb r && b)%bool.
Proof. destruct r; cbn; auto. Qed.
Lemma okb_ok {A} (a : A) : okb (Ok a) = true. Proof. reflexivity. Qed.
Lemma stringify_ok n r : is_chr n = false -> okb (stringify_node r n) = pi_free n.
Proof.
  revert r. induction n as [c|s|s|ns l d i a kids IH] using node_ind'; intros r C; try discriminate; try reflexivity.
  clear C. cbn [stringify_node pi_free].
  match goal with |- context [bind (?g kids) _] => set (go := g) end.
  assert (G : okb (go kids) = forallb pi_free kids).
  { clear -IH. induction IH as [|x ks Hx _ IHk]; [reflexivity|]. cbn [forallb].
    destruct (is_chr x) eqn:C.
    - destruct x; try discriminate C. cbn. rewrite <- IHk. destruct (go ks); reflexivity.
    - assert (E : go (x :: ks) = let! s := stringify_node false x in let! r := go ks in Ok (s ++ r))
        by (destruct x; [discriminate C|reflexivity..]).
      rewrite E, (okb_bind _ _ (okb (go ks))).
      + rewrite IHk, (Hx false eq_refl). reflexivity.
      + intros s _. destruct (go ks); reflexivity. }
  destruct kids as [|k ks]; [cbn [needs_close]; destruct (str_eqb _ _); reflexivity|].
  cbn [needs_close]. rewrite <- G. destruct (go (k :: ks)); reflexivity.
Qed.

(** ** One relation element *)
Lemma faulty_item n : faulty n = true ->
  exists x, relation_item n = Ok (inr x) /\ report n = [x].
Proof.
  unfold faulty. rewrite !andb_true_iff. intros [[[T Y] L] P].
  unfold relation_item, parse_spec_relation, report, incomplete, lacks in *. rewrite !has_child_tags, T, Y.
  cbn [py_assert bind].
  assert (O : okb (stringify_node false n) = true).
  { rewrite stringify_ok; [exact P|]. destruct n; [discriminate T|reflexivity..]. }
  destruct (stringify_node false n) as [z|e] eqn:EZ; [|discriminate].
  destruct (has_child "SOURCE" n); cbn [negb] in *; [destruct (has_child "TARGET" n); cbn [negb] in *; [discriminate|]|];
    rewrite EZ; cbn [bind]; eauto.
Qed.
Lemma sound_item n y : faulty n = false -> relation_item n = Ok y -> exists r, y = inl r.
Proof.
  intros F. unfold relation_item. destruct (parse_spec_relation n) as [r|e] eqn:E.
  { intros H. injection H as <-. eauto. }
  destruct e; try discriminate.
  destruct (spec_relation_special _ _ E eq_refl) as (T & Y & t & L & EQ). injection EQ as <- <-.
  intros H. destruct (stringify_node false xml_node) as [z|x] eqn:EZ; [|discriminate].
  assert (P : pi_free xml_node = true).
  { rewrite <- (stringify_ok xml_node false); [rewrite EZ; reflexivity|]. destruct xml_node; [discriminate T|reflexivity..]. }
  unfold faulty, incomplete in F. rewrite T, Y, L, P in F. discriminate.
Qed.
Lemma inl_item n r : relation_item n = Ok (inl r) -> parse_spec_relation n = Ok r.
Proof.
  unfold relation_item. destruct (parse_spec_relation n) as [r'|e]; [congruence|].
  destruct e; try discriminate. intros H. destruct (stringify_node false xml_node); discriminate.
Qed.
Lemma items_split ks :
  match mapM relation_item (filter (fun x => negb (faulty x)) ks) with
  | Raise e => mapM relation_item ks = Raise e
  | Ok l' => rights l' = []
             /\ Forall2 (fun n r => parse_spec_relation n = Ok r) (filter (fun x => negb (faulty x)) ks) (lefts l')
             /\ exists l, mapM relation_item ks = Ok l /\ lefts l = lefts l'
                       /\ rights l = flat_map report (filter faulty ks)
  end.
Proof.
  induction ks as [|k ks IH].
  { cbn. split; [reflexivity|]. split; [constructor|]. exists []. auto. }
  cbn [filter mapM]. destruct (faulty k) eqn:F; cbn [negb].
  - destruct (faulty_item k F) as (x & EX & ER). rewrite EX. cbn [bind].
    destruct (mapM relation_item (filter _ ks)) as [l'|e].
    + destruct IH as (R & FF & l & E1 & E2 & E3). split; [exact R|]. split; [exact FF|].
      exists (inr x :: l). rewrite E1. cbn. rewrite E2, E3, ER. auto.
    + rewrite IH. reflexivity.
  - cbn [mapM]. destruct (relation_item k) as [y|e] eqn:E; [|reflexivity].
    destruct (sound_item k y F E) as [r ->]. cbn [bind]. fold (mapM relation_item).
    destruct (mapM relation_item (filter _ ks)) as [l'|e].
    + destruct IH as (R & FF & l & E1 & E2 & E3). cbn [bind lefts rights]. split; [exact R|].
      split; [constructor; [apply inl_item, E|exact FF]|].
      exists (inl r :: l). rewrite E1. cbn. rewrite E2, E3. auto.
    + rewrite IH. reflexivity.
Qed.

(** ** The content element without the faulty relations *)
Lemma drop_from_tag x : tag (drop_from x) = tag x.
Proof. destruct x; reflexivity. Qed.
Lemma find_on_first t f g l :
  (forall x, tag (g x) = tag x) -> (forall x, f x = true -> tag_is t x = false) ->
  find (tag_is t) (on_first f g l) = find (tag_is t) l.
Proof.
  intros HG HF. induction l as [|x l IH]; [reflexivity|]. cbn.
  destruct (f x) eqn:E; cbn.
  - unfold tag_is at 1 3. rewrite HG. reflexivity || (fold (tag_is t x); rewrite (HF x E); reflexivity).
  - rewrite IH. reflexivity.
Qed.
Lemma find_on_first_same t g l :
  (forall x, tag (g x) = tag x) ->
  find (tag_is t) (on_first (tag_is t) g l) = option_map g (find (tag_is t) l).
Proof.
  intros HG. induction l as [|x l IH]; [reflexivity|]. cbn.
  destruct (tag_is t x) eqn:E; cbn.
  - unfold tag_is at 1. rewrite HG. fold (tag_is t x). rewrite E. reflexivity.
  - rewrite E, IH. reflexivity.
Qed.
Lemma find_child_drop t n :
  t <> "SPEC-RELATIONS" -> find_child t (drop_faulty n) = find_child t n.
Proof.
  intros N. destruct n as [c|ns l d i a k|s|s]; try reflexivity. cbn. unfold find_child, find_list. cbn.
  apply find_on_first; [apply drop_from_tag|]. intros x Hx. apply tag_is_eq in Hx.
  destruct (tag_is t x) eqn:E; [|reflexivity]. apply tag_is_eq in E. congruence.
Qed.
Lemma find_child_drop_relations n :
  find_child "SPEC-RELATIONS" (drop_faulty n) = option_map drop_from (find_child "SPEC-RELATIONS" n).
Proof.
  destruct n as [c|ns l d i a k|s|s]; try reflexivity. cbn. unfold find_child, find_list. cbn [kids_of].
  apply find_on_first_same, drop_from_tag.
Qed.
Lemma children_drop x : children (drop_from x) = filter (fun k => negb (faulty k)) (children x).
Proof.
  destruct x as [c|ns l d i a k|s|s]; try reflexivity. cbn. unfold children. cbn [kids_of].
  induction k as [|y k IH]; [reflexivity|]. cbn.
  destruct (faulty y) eqn:F, (is_chr y) eqn:C; cbn; rewrite ?F, ?C; cbn; try exact IH; try (f_equal; exact IH).
Qed.
Lemma tag_drop n : tag (drop_faulty n) = tag n.
Proof. destruct n; reflexivity. Qed.
Lemma section_drop {S} t n (body : node -> S -> result S) s0 :
  t <> "SPEC-RELATIONS" -> pure_section t (drop_faulty n) body s0 = pure_section t n body s0.
Proof. intros N. unfold pure_section. rewrite find_child_drop by exact N. reflexivity. Qed.

Lemma relations_drop n :
  match pure_section "SPEC-RELATIONS" (drop_faulty n) spec_relation_body ([], [], []) with
  | Raise e => pure_section "SPEC-RELATIONS" n spec_relation_body ([], [], []) = Raise e
  | Ok (b, (srs, ps, xs)) =>
      xs = [] /\ pure_section "SPEC-RELATIONS" n spec_relation_body ([], [], [])
                 = Ok (b, (srs, ps, flat_map report (faulty_relations n)))
  end.
Proof.
  unfold pure_section, faulty_relations, section_items. rewrite find_child_drop_relations.
  destruct (find_child "SPEC-RELATIONS" n) as [x|]; cbn [option_map]; [|cbn; auto].
  rewrite children_drop, !fold_spec_relations.
  pose proof (items_split (children x)) as H.
  destruct (mapM relation_item (filter _ (children x))) as [l'|e].
  - destruct H as (R & _ & l & -> & E2 & E3). cbn [bind]. rewrite R, E2, E3. auto.
  - rewrite H. reflexivity.
Qed.
Lemma content_drop n :
  pure_content n =
  match pure_content (drop_faulty n) with
  | Ok (c, lk, _) => Ok (c, lk, flat_map report (faulty_relations n))
  | Raise e => Raise e
  end.
Proof.
  unfold pure_content.
  unfold tag_is at 2. rewrite tag_drop. fold (tag_is "REQ-IF-CONTENT" n).
  destruct (py_assert _) as [u|e]; [|reflexivity]. cbn [bind].
  rewrite section_drop by discriminate. destruct (pure_section "DATATYPES" n _ _) as [[? [? ?]]|e]; [|reflexivity]. cbn [bind].
  rewrite section_drop by discriminate. destruct (pure_section "SPEC-TYPES" n _ _) as [[? [? ?]]|e]; [|reflexivity]. cbn [bind].
  rewrite section_drop by discriminate. destruct (pure_section "SPECIFICATIONS" n _ _) as [[? ?]|e]; [|reflexivity]. cbn [bind].
  pose proof (relations_drop n) as R.
  destruct (pure_section "SPEC-RELATIONS" (drop_faulty n) _ _) as [[? [[? ?] ?]]|e].
  - destruct R as [_ ->]. cbn [bind].
    rewrite section_drop by discriminate. destruct (pure_section "SPEC-OBJECTS" n _ _) as [[? [? ?]]|e]; [|reflexivity]. cbn [bind].
    rewrite section_drop by discriminate. destruct (pure_section "SPEC-RELATION-GROUPS" n _ _) as [[? ?]|e]; reflexivity.
  - rewrite R. reflexivity.
Qed.
Lemma content_drop_quiet n c lk xs :
  pure_content (drop_faulty n) = Ok (c, lk, xs) -> xs = [].
Proof.
  unfold pure_content. intros H.
  destruct (py_assert _) as [u|e]; [|discriminate]. cbn [bind] in H.
  destruct (pure_section "DATATYPES" _ _ _) as [[? [? ?]]|e]; [|discriminate]. cbn [bind] in H.
  destruct (pure_section "SPEC-TYPES" _ _ _) as [[? [? ?]]|e]; [|discriminate]. cbn [bind] in H.
  destruct (pure_section "SPECIFICATIONS" _ _ _) as [[? ?]|e]; [|discriminate]. cbn [bind] in H.
  pose proof (relations_drop n) as R.
  destruct (pure_section "SPEC-RELATIONS" (drop_faulty n) _ _) as [[? [[? ?] ?]]|e]; [|discriminate].
  destruct R as [-> _]. cbn [bind] in H.
  destruct (pure_section "SPEC-OBJECTS" _ _ _) as [[? [? ?]]|e]; [|discriminate]. cbn [bind] in H.
  destruct (pure_section "SPEC-RELATION-GROUPS" _ _ _) as [[? ?]|e]; [|discriminate]. cbn [bind] in H. congruence.
Qed.

(** A successful parse leaves no relation without SOURCE or TARGET unreported *)
Lemma relations_report ks l :
  mapM relation_item ks = Ok l ->
  Forall2 (fun n r => spec_relation_of n r) (filter (fun n => negb (incomplete n)) ks) (lefts l)
  /\ rights l = flat_map report ks.
Proof.
  intros H. apply mapM_Ok in H. induction H as [|n y ks l H _ [IH1 IH2]]; [split; [constructor|reflexivity]|].
  cbn [filter flat_map]. unfold incomplete at 1.
  destruct (faulty n) eqn:F.
  - destruct (faulty_item n F) as (x & E & R). rewrite E in H. injection H as <-.
    unfold report in *. destruct (lacks n); [|discriminate]. injection R as <-. cbn.
    split; [exact IH1|]. rewrite IH2. reflexivity.
  - destruct (sound_item n y F H) as [r ->]. apply inl_item in H.
    destruct (spec_relation_faithful _ _ H) as [L S]. unfold report. rewrite L. cbn.
    split; [constructor; assumption|exact IH2].
Qed.

(** ** The root *)
Lemma strip_total n full : pi_free n = true -> exists m, strip_ns full n = Some m.
Proof.
  induction n as [c|s|s|ns l d i a k IH] using node_ind'; cbn [pi_free]; intros H; try (eexists; reflexivity); [discriminate|].
  cbn [strip_ns]. assert (G : exists ks, map_opt (strip_ns full) k = Some ks).
  { induction IH as [|x k Hx _ IHk]; [eexists; reflexivity|]. cbn [forallb] in H.
    apply andb_true_iff in H. destruct H as [H1 H2]. destruct (Hx H1) as [m Hm]. destruct (IHk H2) as [ks Hks].
    cbn. rewrite Hm, Hks. eexists; reflexivity. }
  destruct G as [ks ->]. eexists; reflexivity.
Qed.
Lemma clark_reqif ns l : clark ns l = "REQ-IF" -> ns = None /\ l = "REQ-IF".
Proof. destruct ns as [[p u]|]; cbn; [discriminate|auto]. Qed.
Lemma root_tag root r :
  strip_if_namespaced root = Ok r -> tag_is "REQ-IF" r = true <-> reqif_root root.
Proof.
  unfold strip_if_namespaced. destruct (ns_get (node_nsmap root) None) as [u|] eqn:EN.
  - destruct (strip_ns false root) as [m|] eqn:ES; [|discriminate]. intros H. injection H as <-.
    destruct root as [c|ns l d i a k|s|s]; cbn in EN; try discriminate.
    cbn in ES. destruct (map_opt _ k) as [ks|]; [|discriminate]. injection ES as <-.
    rewrite tag_is_eq. cbn [cleanup tag reqif_root]. unfold ns_get in EN. rewrite EN. split.
    + intros H. injection H as H. apply clark_reqif in H. destruct H as [H1 ->]. split; [reflexivity|].
      change (contains "http://www.w3.org/1999/xhtml" (clark ns "REQ-IF")) with (contains xhtml_uri (clark ns "REQ-IF")). destruct (contains xhtml_uri (clark ns "REQ-IF")) eqn:C; [left; exact H1|right; split; [discriminate|reflexivity]].
    + intros (-> & [->|[_ C]]); [reflexivity|]. change (contains xhtml_uri (clark ns "REQ-IF") = false) in C. rewrite C. reflexivity.
  - intros H. injection H as <-. rewrite tag_is_eq.
    destruct root as [c|ns l d i a k|s|s]; cbn; try (split; [discriminate|intros []]).
    unfold ns_get, node_nsmap in EN. rewrite EN. split.
    + intros H. injection H as H. apply clark_reqif in H. destruct H as [-> ->]. auto.
    + intros (-> & [->|[H _]]); [reflexivity|congruence].
Qed.
