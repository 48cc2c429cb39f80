(** RT_SpecTypes.v -- the spec type round trips *)
From Verif Require Import Base Xml Lxml Py LxmlStr Models AttrDef DataType AttrValue SpecTypes XmlProofs DictProofs
  SpecEscape EscapeProofs SpecPrint Frag RT RT_Header RT_DataType RT_AttrDef.

(** a parser that may skip a node, seen as one that does not *)
Definition solid {A} (f : node -> result (option A)) (n : node) : result A :=
  match f n with Ok (Some x) => Ok x | Ok None => Raise EAssertionError | Raise e => Raise e end.
Lemma mapM_solid {A} (f : node -> result (option A)) l xs :
  mapM (solid f) l = Ok xs -> mapM f l = Ok (map Some xs).
Proof.
  revert xs. induction l as [|n l IH]; intros xs H; cbn [mapM] in *; fold (mapM (solid f)) (mapM f) in *.
  - apply Ok_inj in H. subst xs. reflexivity.
  - unfold solid in H at 1. destruct (f n) as [[x|]|e]; cbn [bind] in *; try discriminate.
    destruct (mapM (solid f) l) as [ys|e]; cbn [bind] in *; [|discriminate]. apply Ok_inj in H. subst xs.
    rewrite (IH ys eq_refl). reflexivity.
Qed.
Lemma catSomes_map {A} (l : list A) : catSomes (map Some l) = l.
Proof. induction l as [|x l IH]; [reflexivity|]. cbn. rewrite IH. reflexivity. Qed.

Section SpecTypes.
Variables (p u : str) (ctx : nsmap -> Prop) (D : str -> Prop) (xuse : str -> bool).
Hypothesis DX : forall v, D v -> exists f, good p u f /\ f_str f = v /\ f_use f = xuse v
  /\ forall m, ctx m -> stringify_namespaced_children (el "THE-VALUE" [] f m) None = Ok v.

Definition ads_use (o : option (list attr_def)) : bool :=
  match o with None => false | Some l => existsb (ad_use xuse) l end.
Definition st_ads (t : spec_type) : option (list attr_def) :=
  match t with
  | STObject t => sot_attribute_definitions t | STRelation t => srt_attribute_definitions t
  | STSpecification t => spt_spec_attributes t | STGroup t => rgt_attribute_definitions t end.
Definition st_use (t : spec_type) : bool := ads_use (st_ads t).

Lemma rt_ads o : each (printable_attr_def D) o ->
  exists f, good p u f /\ spec_attributes_block o = Ok (f_str f) /\ f_use f = ads_use o /\
    forall m, ctx m -> exists o',
      (forall t as_, let n := el t as_ (fws nl +++ f +++ fws "        ") m in
         parse_attribute_definitions n = Ok o' /\ is_self_closed_tag n = false)
      /\ map_list erase_attr_def o' = map_list normal_attr_def o
      /\ spec_attributes_block o' = spec_attributes_block o.
Proof.
  intros H. destruct o as [l|].
  - cbn [each] in H.
    assert (HL : rts p u ctx unparse_attribute_definition parse_attribute_definition erase_attr_def normal_attr_def (ad_use xuse) l).
    { apply rt_list. eapply Forall_impl; [|exact H]. intros a Ha. eapply rt_attr_def; eassumption. }
    destruct HL as (g & G1 & G2 & G3 & G4).
    exists (fws "          " +++ fel "SPEC-ATTRIBUTES" [] (fws nl +++ g +++ fws "          ") +++ fws nl).
    split; [|split; [|split]].
    + goods2. exact G1.
    + unfold spec_attributes_block, unparse_attribute_definitions. rewrite G2. cbn [bind]. f_equal. frags. strs.
    + frags. cbn [orb ads_use]. rewrite !orb_false_r. exact G3.
    + intros m Hm. destruct (G4 m Hm) as (l' & L1 & L2 & L3). exists (Some l'). split; [|split].
      * intros t as_ n. split.
        -- unfold parse_attribute_definitions, n. find_step. rewrite children_el. elems. rewrite L1. reflexivity.
        -- unfold n. rewrite self_closed_el. elems. reflexivity.
      * cbn [map_list option_map]. rewrite L2. reflexivity.
      * unfold spec_attributes_block, unparse_attribute_definitions. rewrite L3. reflexivity.
  - exists fnil. split; [apply good_nil|]. split; [reflexivity|]. split; [reflexivity|].
    intros m _. exists None. split; [|split; reflexivity]. intros t as_ n. split; [reflexivity|].
    unfold n. rewrite self_closed_el. elems. reflexivity.
Qed.
(** the types with a self-closed form *)
Lemma rt_close o closed t as_ : each (printable_attr_def D) o ->
  okname t = true -> okattrs as_ ->
  exists f, good p u f /\ f_use f = ads_use o /\
    (let! rest := close_type closed o t in Ok ("        <" ++ t ++ render_attrs as_ ++ rest)) = Ok (f_str f) /\
    forall m, ctx m -> exists n o' body,
      elements (f_n f m) = [n] /\ n = el t as_ body m
      /\ parse_attribute_definitions n = Ok o' /\ is_self_closed_tag n = still_closed closed o
      /\ map_list erase_attr_def o' = map_list normal_attr_def (still_there closed o)
      /\ close_type (still_closed closed o) o' t = close_type closed o t.
Proof.
  intros H HN HA.
  assert (HO : closed && negb (has_attributes o) = still_closed closed o).
  { destruct o as [[|x l]|]; cbn; [apply andb_true_r|apply andb_false_r|apply andb_true_r]. }
  destruct (still_closed closed o) eqn:ES.
  - assert (closed = true) as -> by (destruct o as [[|x l]|]; [exact ES|discriminate ES|exact ES]).
    assert (ET : still_there true o = None) by (destruct o as [[|x l]|]; [reflexivity|discriminate ES|reflexivity]).
    exists (fws "        " +++ fem t as_ +++ fws nl). split; [|split; [|split]].
    + apply good_app; [apply good_ws; reflexivity|]. apply good_app; [apply good_em; assumption|apply good_ws; reflexivity].
    + destruct o as [[|x l]|]; [reflexivity|discriminate ES|reflexivity].
    + unfold close_type. rewrite HO. cbn [bind]. f_equal. frags. strs.
    + intros m _. eexists. exists None, fnil. split; [elems; reflexivity|]. split; [reflexivity|]. split; [reflexivity|].
      split; [rewrite self_closed_el; reflexivity|]. split; [rewrite ET; reflexivity|]. unfold close_type. rewrite HO. reflexivity.
  - assert (ET : still_there closed o = o) by (destruct o as [[|x l]|]; [cbn in ES |- *; rewrite ES; reflexivity|reflexivity|reflexivity]).
    rewrite ET. destruct (rt_ads o H) as (f & F1 & F2 & F3 & F4).
    exists (fws "        " +++ fel t as_ (fws nl +++ f +++ fws "        ") +++ fws nl). split; [|split; [|split]].
    + apply good_app; [apply good_ws; reflexivity|]. apply good_app; [|apply good_ws; reflexivity]. apply good_el; [assumption..|]. goods2. exact F1.
    + frags. cbn [orb]. rewrite !orb_false_r. exact F3.
    + unfold close_type. rewrite HO, F2. cbn [bind]. f_equal. frags. strs.
    + intros m Hm. destruct (F4 m Hm) as (o' & O1 & O2 & O3). eexists. exists o'. eexists.
      split; [elems; reflexivity|]. split; [reflexivity|]. destruct (O1 t as_) as [A B]. split; [exact A|]. split; [exact B|].
      split; [exact O2|]. unfold close_type. rewrite HO, O3. reflexivity.
Qed.

Lemma fill_name_map l m : Forall (fun a => ad_long_name a <> None) l ->
  fill_attribute_map l m = Ok (fold_left (fun m a => dict_set m (Some (ad_identifier a)) (fmt (ad_long_name a))) l m).
Proof.
  intros H. revert m. induction H as [|a l Ha _ IH]; intros m; [reflexivity|]. cbn [fill_attribute_map fold_left].
  destruct (ad_long_name a) as [s|]; [|congruence]. apply IH.
Qed.
Lemma name_map_ext l l' m : map erase_attr_def l' = map normal_attr_def l ->
  fold_left (fun m a => dict_set m (Some (ad_identifier a)) (fmt (ad_long_name a))) l' m
  = fold_left (fun m a => dict_set m (Some (ad_identifier a)) (fmt (ad_long_name a))) (map normal_attr_def l) m.
Proof.
  intros H. rewrite <- H. clear H. revert m. induction l' as [|a l' IH]; intros m; [reflexivity|]. cbn [map fold_left]. apply IH.
Qed.
Lemma long_names_ext l l' : map erase_attr_def l' = map normal_attr_def l ->
  Forall (fun a => ad_long_name a <> None) l -> Forall (fun a => ad_long_name a <> None) l'.
Proof.
  revert l'. induction l as [|a l IH]; intros [|a' l'] H F; try discriminate; [constructor|].
  cbn [map] in H. inversion F; subst. inversion H. constructor; [|apply IH; assumption].
  congruence.
Qed.
Ltac rendered := match goal with |- render_attrs ?x = _ => unfold x end.

Lemma rt_spec_type t : printable_spec_type D t ->
  rt p u ctx unparse_spec_type (solid parse_spec_type) erase_spec_type normal_spec_type st_use t.
Proof.
  destruct t as [t|t|t|t]; cbn [printable_spec_type].
  - intros (H1 & H2 & H3 & H4 & H5). destruct (rt_ads _ H5) as (f & F1 & F2 & F3 & F4).
    set (as_ := oa "DESC" lxml_escape_for_html (sot_description t) ++ [PA "IDENTIFIER" (sot_identifier t) (sot_identifier t)]
                ++ oa "LAST-CHANGE" raw (sot_last_change t) ++ oa "LONG-NAME" lxml_escape_for_html (sot_long_name t)).
    exists (fws "        " +++ fel "SPEC-OBJECT-TYPE" as_ (fws nl +++ f +++ fws "        ") +++ fws nl). split; [|split; [|split]].
    + unfold as_, raw. goods2. exact F1.
    + cbn [unparse_spec_type]. unfold unparse_spec_object_type. rewrite F2. cbn [bind]. f_equal. unfold as_. frags. renders. strs.
    + frags. cbn [orb]. rewrite !orb_false_r. exact F3.
    + intros m Hm. destruct (F4 m Hm) as (o' & O1 & O2 & O3).
      eexists. exists (STObject (SpecObjectType (sot_identifier t) (sot_description t) (sot_last_change t) (sot_long_name t) o')).
      split; [elems; reflexivity|]. split; [|split].
      * unfold solid, parse_spec_type. rewrite tag_is_el. lits. unfold parse_spec_object_type. destruct (O1 "SPEC-OBJECT-TYPE" as_) as [-> _].
        rewrite tag_is_el. lits. cbn [py_assert bind]. unfold as_. attrs. reflexivity.
      * cbn [erase_spec_type normal_spec_type map_spec_type settle_spec_type]. unfold erase_spec_type, normal_spec_type, map_spec_type, settle_spec_type.
        cbn [sot_identifier sot_description sot_last_change sot_long_name sot_attribute_definitions]. rewrite O2. reflexivity.
      * cbn [unparse_spec_type]. unfold unparse_spec_object_type.
        cbn [sot_identifier sot_description sot_last_change sot_long_name sot_attribute_definitions]. rewrite O3. reflexivity.
  - intros (H1 & H2 & H3 & (ln & HL & H4) & H5).
    set (as_ := oa "DESC" html_escape (srt_description t) ++ [PA "IDENTIFIER" (srt_identifier t) (srt_identifier t)]
                ++ oa "LAST-CHANGE" raw (srt_last_change t) ++ oa "LONG-NAME" raw (srt_long_name t)).
    assert (HW : when attr_raw (srt_long_name t)) by (rewrite HL; exact H4).
    assert (HA : okattrs as_) by (unfold as_, raw; okattrs_tac).
    destruct (rt_close _ (srt_is_self_closed t) "SPEC-RELATION-TYPE" as_ H5 eq_refl HA) as (f & F1 & F2 & F3 & F4).
    exists f. split; [exact F1|]. split; [|split; [exact F2|]].
    + rewrite <- F3. cbn [unparse_spec_type]. unfold unparse_spec_relation_type. destruct (close_type _ _ _); [|reflexivity].
      cbn [bind]. f_equal. unfold as_. renders. strs.
    + intros m Hm. destruct (F4 m Hm) as (n & o' & body & N1 & N2 & N3 & N4 & N5 & N6). exists n.
      exists (STRelation (SpecRelationType (srt_identifier t) (srt_description t) (srt_last_change t) (srt_long_name t)
                (still_closed (srt_is_self_closed t) (srt_attribute_definitions t)) o')).
      split; [exact N1|]. split; [|split].
      * unfold solid, parse_spec_type, parse_spec_relation_type. rewrite N3, N4. rewrite N2, !tag_is_el. lits. cbn [py_assert bind].
        unfold as_. attrs. rewrite HL. reflexivity.
      * unfold erase_spec_type, normal_spec_type, map_spec_type, settle_spec_type.
        cbn [srt_identifier srt_description srt_last_change srt_long_name srt_is_self_closed srt_attribute_definitions]. rewrite N5.
        unfold map_list. destruct (srt_attribute_definitions t) as [[|]|], (srt_is_self_closed t); reflexivity.
      * cbn [unparse_spec_type]. unfold unparse_spec_relation_type.
        cbn [srt_identifier srt_description srt_last_change srt_long_name srt_is_self_closed srt_attribute_definitions]. rewrite N6. reflexivity.
  - intros (H1 & H2 & (lc & HL & H4) & H3 & H5 & H7).
    set (as_ := oa "DESC" raw (spt_description t) ++ [PA "IDENTIFIER" (spt_identifier t) (spt_identifier t)]
                ++ oa "LAST-CHANGE" raw (spt_last_change t) ++ oa "LONG-NAME" raw (spt_long_name t)).
    assert (HW : when attr_raw (spt_last_change t)) by (rewrite HL; exact H4).
    assert (HA : okattrs as_) by (unfold as_, raw; okattrs_tac).
    destruct (rt_close _ (spt_is_self_closed t) "SPECIFICATION-TYPE" as_ H5 eq_refl HA) as (f & F1 & F2 & F3 & F4).
    exists f. split; [exact F1|]. split; [|split; [exact F2|]].
    + rewrite <- F3. cbn [unparse_spec_type]. unfold unparse_specification_type. destruct (close_type _ _ _); [|reflexivity].
      cbn [bind]. f_equal. unfold as_. renders. strs.
    + intros m Hm. destruct (F4 m Hm) as (n & o' & body & N1 & N2 & N3 & N4 & N5 & N6). exists n.
      exists (STSpecification (SpecificationType (spt_identifier t) (spt_description t) (spt_last_change t) (spt_long_name t)
                o' (Some (name_map (map_list normal_attr_def (spt_spec_attributes t)))) (still_closed (spt_is_self_closed t) (spt_spec_attributes t)))).
      assert (HM : match o' with Some l => fill_attribute_map l [] | None => Ok [] end
                   = Ok (name_map (map_list normal_attr_def (spt_spec_attributes t)))).
      { assert (NM : name_map (map_list normal_attr_def (spt_spec_attributes t)) = name_map (map_list normal_attr_def (still_there (spt_is_self_closed t) (spt_spec_attributes t))))
          by (destruct (spt_spec_attributes t) as [[|]|], (spt_is_self_closed t); reflexivity).
        rewrite NM. clear NM. assert (H8 : each (fun a => ad_long_name a <> None) (still_there (spt_is_self_closed t) (spt_spec_attributes t)))
          by (destruct (spt_spec_attributes t) as [[|]|], (spt_is_self_closed t); cbn; auto).
        clear H7. rename H8 into H7.
        destruct o' as [l'|], (still_there (spt_is_self_closed t) (spt_spec_attributes t)) as [l|]; try discriminate; [|reflexivity].
        cbn [map_list option_map] in N5. assert (N5' : map erase_attr_def l' = map normal_attr_def l) by congruence.
        rewrite fill_name_map by (eapply long_names_ext; [exact N5'|exact H7]). rewrite (name_map_ext _ _ _ N5'). reflexivity. }
      split; [exact N1|]. split; [|split].
      * unfold solid, parse_spec_type, parse_specification_type. rewrite N3, N4. cbn [bind]. rewrite HM. rewrite N2, !tag_is_el. lits. cbn [py_assert bind].
        unfold as_. attrs. rewrite HL. reflexivity.
      * unfold erase_spec_type, normal_spec_type, map_spec_type, settle_spec_type.
        cbn [spt_identifier spt_description spt_last_change spt_long_name spt_is_self_closed spt_spec_attributes spt_spec_attribute_map]. rewrite N5.
        unfold map_list. destruct (spt_spec_attributes t) as [[|]|], (spt_is_self_closed t); reflexivity.
      * cbn [unparse_spec_type]. unfold unparse_specification_type.
        cbn [spt_identifier spt_description spt_last_change spt_long_name spt_is_self_closed spt_spec_attributes]. rewrite N6. reflexivity.
  - intros (H1 & H2 & H3 & H4 & H5).
    set (as_ := oa "DESC" html_escape (rgt_description t) ++ [PA "IDENTIFIER" (rgt_identifier t) (rgt_identifier t)]
                ++ oa "LAST-CHANGE" raw (rgt_last_change t) ++ oa "LONG-NAME" raw (rgt_long_name t)).
    assert (HA : okattrs as_) by (unfold as_, raw; okattrs_tac).
    destruct (rt_close _ (rgt_is_self_closed t) "RELATION-GROUP-TYPE" as_ H5 eq_refl HA) as (f & F1 & F2 & F3 & F4).
    exists f. split; [exact F1|]. split; [|split; [exact F2|]].
    + rewrite <- F3. cbn [unparse_spec_type]. unfold unparse_relation_group_type. destruct (close_type _ _ _); [|reflexivity].
      cbn [bind]. f_equal. unfold as_. renders. strs.
    + intros m Hm. destruct (F4 m Hm) as (n & o' & body & N1 & N2 & N3 & N4 & N5 & N6). exists n.
      exists (STGroup (RelationGroupType (rgt_identifier t) (rgt_description t) (rgt_last_change t) (rgt_long_name t)
                (still_closed (rgt_is_self_closed t) (rgt_attribute_definitions t)) o')).
      split; [exact N1|]. split; [|split].
      * unfold solid, parse_spec_type, parse_relation_group_type. rewrite N3, N4. rewrite N2, !tag_is_el. lits. cbn [py_assert bind].
        unfold as_. attrs. reflexivity.
      * unfold erase_spec_type, normal_spec_type, map_spec_type, settle_spec_type.
        cbn [rgt_identifier rgt_description rgt_last_change rgt_long_name rgt_is_self_closed rgt_attribute_definitions]. rewrite N5.
        unfold map_list. destruct (rgt_attribute_definitions t) as [[|]|], (rgt_is_self_closed t); reflexivity.
      * cbn [unparse_spec_type]. unfold unparse_relation_group_type.
        cbn [rgt_identifier rgt_description rgt_last_change rgt_long_name rgt_is_self_closed rgt_attribute_definitions]. rewrite N6. reflexivity.
Qed.
End SpecTypes.
