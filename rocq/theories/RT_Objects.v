(** RT_Objects.v -- the spec object, spec relation and relation group round trips *)
From Verif Require Import Base Xml Lxml Py LxmlStr Models AttrDef DataType AttrValue SpecObj XmlProofs DictProofs
  SpecEscape EscapeProofs SpecPrint Frag RT RT_Header RT_DataType RT_AttrDef RT_SpecTypes RT_Values.

Ltac good_body := apply good_app; [apply good_ws; reflexivity|]; apply good_app; [|apply good_ws; reflexivity].

Section Objects.
Variables (p u : str) (ctx : nsmap -> Prop) (V : str -> Prop) (strip : str -> str) (xuse : str -> bool).
Hypothesis VX : forall v, V v -> exists f, good p u f /\ f_str f = v /\ f_use f = xuse v
  /\ forall m, ctx m -> xhtml_pair (el "THE-VALUE" [] f m) = Ok (v, strip v).

(** ** An element whose children are written in a remembered order *)
Lemma ordered_good t as_ ind F tags : okname t = true -> okattrs as_ -> forallb text_plain ind = true ->
  (forall x, In x tags -> good p u (F x)) ->
  good p u (fws ind +++ fel t as_ (fws nl +++ fblocks F tags +++ fws ind) +++ fws nl).
Proof.
  intros H1 H2 H3 H4. apply good_app; [apply good_ws; exact H3|]. apply good_app; [|apply good_ws; reflexivity].
  apply good_el; [exact H1|exact H2|]. apply good_app; [apply good_ws; reflexivity|]. apply good_app; [|apply good_ws; exact H3].
  apply good_blocks, H4.
Qed.
Lemma ordered_children t as_ ind F tags m :
  children (el t as_ (fws nl +++ fblocks F tags +++ fws ind) m) = elements (f_n (fblocks F tags) m).
Proof. rewrite children_el. cbn [fapp f_n]. rewrite !elements_app. cbn [fws ftxt f_n]. rewrite !elements_chr, app_nil_r. reflexivity. Qed.
Lemma ordered_elements t as_ ind F tags m :
  elements (f_n (fws ind +++ fel t as_ (fws nl +++ fblocks F tags +++ fws ind) +++ fws nl) m)
  = [el t as_ (fws nl +++ fblocks F tags +++ fws ind) m].
Proof. cbn [fapp f_n]. rewrite !elements_app. cbn [fel fws ftxt f_n]. rewrite !elements_chr, elements_el. reflexivity. Qed.
Lemma ordered_use t as_ ind F tags :
  f_use (fws ind +++ fel t as_ (fws nl +++ fblocks F tags +++ fws ind) +++ fws nl) = existsb (fun x => f_use (F x)) tags.
Proof. cbn [fapp fel f_use fws ftxt]. rewrite blocks_use. cbn [orb]. rewrite !orb_false_r. reflexivity. Qed.
Lemma existsb_one (F : option str -> frag) tags t b : In t tags -> f_use (F t) = b -> (forall x, x <> t -> f_use (F x) = false) ->
  existsb (fun x => f_use (F x)) tags = b.
Proof.
  intros H1 H2 H3. destruct b.
  - apply existsb_exists. exists t. auto.
  - apply not_true_is_false. intros H. apply existsb_exists in H. destruct H as (x & _ & Hx).
    destruct (ostr_eqb_spec x t) as [->|N]; [congruence|]. rewrite H3 in Hx by exact N. discriminate.
Qed.

(** ** Spec objects *)
Definition so_use (o : spec_object) : bool := existsb (sa_use xuse) (so_attributes o).
Definition fso (fv : frag) (o : spec_object) (t : option str) : frag :=
  if ostr_eqb t (Some "VALUES") then fv
  else if ostr_eqb t (Some "TYPE") then fblock (spaces 10) "TYPE" "SPEC-OBJECT-TYPE-REF" (so_spec_object_type o) else fnil.
Definition so_attrs (o : spec_object) : list pattr :=
  oa "DESC" raw (so_description o) ++ [PA "IDENTIFIER" (so_identifier o) (so_identifier o)]
  ++ ta "LAST-CHANGE" (so_last_change o) ++ oa "LONG-NAME" raw (so_long_name o).
Lemma rt_spec_object o : printable_spec_object V o ->
  rt p u ctx unparse_spec_object parse_spec_object erase_spec_object (normal_spec_object strip) so_use o.
Proof.
  intros (H1 & H2 & H3 & H4 & H5 & H6 & H7 & H8).
  destruct (rt_values p u ctx V strip xuse VX _ H6) as (fv & F1 & F2 & F3 & F4).
  assert (HPR : forall t, In t (so_order o) -> unparse_so_child o t = Ok (f_str (fso fv o t))).
  { intros t _. unfold unparse_so_child, fso. destruct (ostr_eqb t (Some "VALUES")); [exact F2|].
    destruct (ostr_eqb t (Some "TYPE")); [|reflexivity]. rewrite fblock_str by exact H2. unfold unparse_spec_object_type_ref. f_equal; strs. }
  exists (fws "        " +++ fel "SPEC-OBJECT" (so_attrs o) (fws nl +++ fblocks (fso fv o) (so_order o) +++ fws "        ") +++ fws nl).
  split; [|split; [|split]].
  - apply ordered_good; [reflexivity|unfold so_attrs, raw; okattrs_tac|reflexivity|]. intros t _. unfold fso.
    destruct (ostr_eqb t (Some "VALUES")); [exact F1|]. destruct (ostr_eqb t (Some "TYPE")); [|apply good_nil].
    apply fblock_good; [reflexivity|reflexivity|exact H2].
  - unfold unparse_spec_object. change (tags_or (so_xml_node o) ["VALUES"; "TYPE"]) with (so_order o).
    apply ostr_mem_In in H7, H8. rewrite H7, H8. cbn [py_assert bind].
    pose proof (blocks_print (fso fv o) (so_order o) _ HPR) as HP. destruct (mapM _ _) as [parts|]; [|discriminate].
    cbn [bind] in HP |- *. apply Ok_inj in HP. f_equal. unfold so_attrs. cbn [fapp fel f_str fws ftxt]. rewrite HP. renders. strs.
  - rewrite ordered_use. apply (existsb_one _ _ (Some "VALUES")); [exact H7|exact F3|]. intros x N. unfold fso.
    destruct (ostr_eqb_spec x (Some "VALUES")); [contradiction|]. destruct (ostr_eqb x (Some "TYPE")); reflexivity.
  - intros m Hm. destruct (F4 m Hm) as (nv & l' & N1 & N2 & N3 & N4 & N5).
    set (n := el "SPEC-OBJECT" (so_attrs o) (fws nl +++ fblocks (fso fv o) (so_order o) +++ fws "        ") m).
    assert (EC : children n = elements (f_n (fblocks (fso fv o) (so_order o)) m)) by apply ordered_children.
    assert (HB : block_ok (fso fv o) (so_order o) m).
    { intros t _. unfold fso. destruct (ostr_eqb_spec t (Some "VALUES")) as [->|].
      - right. exists nv. auto.
      - destruct (ostr_eqb_spec t (Some "TYPE")) as [->|]; [|left; split; reflexivity].
        right. rewrite fblock_elements. eexists. split; reflexivity. }
    set (o' := SpecObject (so_identifier o) l' (so_spec_object_type o) (so_description o) (drop_empty (so_last_change o)) (so_long_name o) (Some n)).
    exists n, o'. split; [apply ordered_elements|]. split; [|split].
    + assert (HA : forall k, attr_opt k n = assoc k (map attr_of (so_attrs o))) by (intros k; apply attr_el).
      assert (HT : tag_contains "SPEC-OBJECT" n = Ok true) by reflexivity.
      assert (HF1 : find_child "TYPE" n = Some (nblock (spaces 10) "TYPE" "SPEC-OBJECT-TYPE-REF" (so_spec_object_type o) m)).
      { rewrite find_child_elements, EC, find_blocks by exact HB. apply ostr_mem_In in H8. rewrite H8. unfold fso. lits. rewrite fblock_elements. reflexivity. }
      assert (HF2 : find_child "VALUES" n = Some nv).
      { rewrite find_child_elements, EC, find_blocks by exact HB. apply ostr_mem_In in H7. rewrite H7. unfold fso. lits. rewrite N1. reflexivity. }
      unfold parse_spec_object, find_req, attr_req. rewrite HT, HF1, HF2, !HA. unfold o'. clearbody n. cbn [bind py_assert].
      unfold so_attrs. attrs. rewrite nblock_find. cbn [bind]. rewrite N3, text_ref by exact H2. reflexivity.
    + unfold o', erase_spec_object, normal_spec_object. cbn [so_identifier so_attributes so_spec_object_type so_description so_last_change so_long_name]. rewrite N4. reflexivity.
    + unfold unparse_spec_object. change (tags_or (so_xml_node o) ["VALUES"; "TYPE"]) with (so_order o).
      change (tags_or (so_xml_node o') ["VALUES"; "TYPE"]) with (map tag (children n)). rewrite EC.
      assert (HM1 : ostr_mem (Some "VALUES") (map tag (elements (f_n (fblocks (fso fv o) (so_order o)) m))) = true).
      { apply ostr_mem_In, blocks_tags; [exact HB|]. split; [exact H7|]. unfold fso. lits. rewrite N1. discriminate. }
      assert (HM2 : ostr_mem (Some "TYPE") (map tag (elements (f_n (fblocks (fso fv o) (so_order o)) m))) = true).
      { apply ostr_mem_In, blocks_tags; [exact HB|]. split; [exact H8|]. unfold fso. lits. rewrite fblock_elements. discriminate. }
      rewrite HM1, HM2. apply ostr_mem_In in H7, H8. rewrite H7, H8. cbn [py_assert bind].
      assert (HR := blocks_reprint (fso fv o) (so_order o) (unparse_so_child o') m HB).
      pose proof (blocks_print (fso fv o) (so_order o) _ HPR) as HP. rewrite <- HP in HR.
      destruct (mapM (unparse_so_child o) _) as [parts|]; [|discriminate].
      assert (HR' : (let! parts0 := mapM (unparse_so_child o') (map tag (elements (f_n (fblocks (fso fv o) (so_order o)) m))) in Ok (concat parts0)) = Ok (concat parts)).
      { apply HR. intros t Ht _. rewrite <- HPR by exact Ht. unfold unparse_so_child. cbn [o' so_attributes]. rewrite N5. reflexivity. }
      destruct (mapM (unparse_so_child o') _) as [parts'|]; [|discriminate]. cbn [bind] in *. apply Ok_inj in HR'. rewrite HR'.
      cbn [o' so_identifier so_description so_last_change so_long_name]. rewrite truthy_drop. reflexivity.
Qed.

(** ** Spec relations *)
Definition sr_use (r : spec_relation) : bool :=
  match sr_values_attribute r with Some a => sa_use xuse a | None => false end.
Definition fsr (fv : frag) (r : spec_relation) (t : option str) : frag :=
  if ostr_eqb t (Some "TYPE") then fblock (spaces 10) "TYPE" "SPEC-RELATION-TYPE-REF" (sr_relation_type_ref r)
  else if ostr_eqb t (Some "SOURCE") then fblock (spaces 10) "SOURCE" "SPEC-OBJECT-REF" (sr_source r)
  else if ostr_eqb t (Some "TARGET") then fblock (spaces 10) "TARGET" "SPEC-OBJECT-REF" (sr_target r)
  else if ostr_eqb t (Some "VALUES") then fv else fnil.
Definition sr_attrs (r : spec_relation) : list pattr :=
  oa "DESC" raw (sr_description r) ++ [PA "IDENTIFIER" (sr_identifier r) (sr_identifier r)]
  ++ oa "LAST-CHANGE" raw (sr_last_change r) ++ oa "LONG-NAME" html_escape (sr_long_name r).
Lemma rt_relation_values r : printable_spec_relation V r ->
  exists f, good p u f
    /\ match sr_values_attribute r with None => Ok [] | Some a => unparse_attribute_values (Some [a]) end = Ok (f_str f)
    /\ f_use f = sr_use r
    /\ forall m, ctx m ->
       exists o', option_map erase_value o' = option_map (normal_value strip) (sr_values_attribute r)
        /\ match o' with None => Ok [] | Some a => unparse_attribute_values (Some [a]) end
           = match sr_values_attribute r with None => Ok [] | Some a => unparse_attribute_values (Some [a]) end
        /\ match sr_values_attribute r with
           | None => elements (f_n f m) = [] /\ f_str f = [] /\ o' = None
           | Some _ => exists nv k a', elements (f_n f m) = [nv] /\ tag nv = Some "VALUES" /\ children nv = [k]
                        /\ parse_relation_value k = Ok a' /\ o' = Some a'
           end.
Proof.
  intros (_ & _ & _ & _ & _ & _ & _ & H & _). unfold sr_use. destruct (sr_values_attribute r) as [a|].
  - destruct (H a eq_refl) as (HV & HI & _). destruct (rt_relation_value p u ctx V strip xuse VX a HV HI) as (f & F1 & F2 & F3 & F4).
    exists f. split; [exact F1|]. split; [exact F2|]. split; [exact F3|]. intros m Hm.
    destruct (F4 m Hm) as (n & k & a' & A1 & A2 & A3 & A4 & A5 & A6). exists (Some a'). cbn [option_map]. split; [rewrite A5; reflexivity|].
    split; [exact A6|]. exists n, k, a'. auto 6.
  - exists fnil. split; [apply good_nil|]. split; [reflexivity|]. split; [reflexivity|]. intros m _. exists None. repeat split.
Qed.
Lemma rt_spec_relation r : printable_spec_relation V r ->
  rt p u ctx unparse_spec_relation parse_spec_relation erase_spec_relation (normal_spec_relation strip) sr_use r.
Proof.
  intros HP0. destruct (rt_relation_values r HP0) as (fv & F1 & F2 & F3 & F4).
  destruct HP0 as (H1 & H2 & H3 & H4 & H5 & H6 & H7 & H8 & H9 & H10 & H11 & H12).
  assert (HPR : forall t, In t (sr_order r) -> unparse_sr_child r t = Ok (f_str (fsr fv r t))).
  { intros t Ht. unfold unparse_sr_child, fsr.
    destruct (ostr_eqb_spec t (Some "TYPE")) as [_|Q0]; [rewrite fblock_str by assumption; unfold unparse_sr_type; f_equal; strs|].
    destruct (ostr_eqb_spec t (Some "SOURCE")) as [_|Q1]; [rewrite fblock_str by assumption; unfold unparse_sr_source; f_equal; strs|].
    destruct (ostr_eqb_spec t (Some "TARGET")) as [_|Q2]; [rewrite fblock_str by assumption; unfold unparse_sr_target; f_equal; strs|].
    destruct (ostr_eqb_spec t (Some "VALUES")) as [_|Q3]; [exact F2|].
    exfalso. rewrite Forall_forall in H9. specialize (H9 t Ht). clear F4. cbn [map In] in H9.
    intuition congruence. }
  assert (HPR2 : forall t, In t (sr_order r) -> In t (map Some ["TYPE"; "SOURCE"; "TARGET"; "VALUES"])).
  { intros t Ht. rewrite Forall_forall in H9. apply H9, Ht. }
  exists (fws "        " +++ fel "SPEC-RELATION" (sr_attrs r) (fws nl +++ fblocks (fsr fv r) (sr_order r) +++ fws "        ") +++ fws nl).
  split; [|split; [|split]].
  - apply ordered_good; [reflexivity|unfold sr_attrs, raw; okattrs_tac|reflexivity|]. intros t _. unfold fsr.
    destruct (ostr_eqb t (Some "TYPE")); [apply fblock_good; [reflexivity|reflexivity|assumption]|].
    destruct (ostr_eqb t (Some "SOURCE")); [apply fblock_good; [reflexivity|reflexivity|assumption]|].
    destruct (ostr_eqb t (Some "TARGET")); [apply fblock_good; [reflexivity|reflexivity|assumption]|].
    destruct (ostr_eqb t (Some "VALUES")); [exact F1|apply good_nil].
  - unfold unparse_spec_relation. change (tags_or (sr_xml_node r) ["TYPE"; "SOURCE"; "TARGET"; "VALUES"]) with (sr_order r).
    pose proof (blocks_print (fsr fv r) (sr_order r) _ HPR) as HP. destruct (mapM _ _) as [parts|]; [|discriminate].
    cbn [bind] in HP |- *. apply Ok_inj in HP. f_equal. unfold sr_attrs. cbn [fapp fel f_str fws ftxt]. rewrite HP. renders. strs.
  - rewrite ordered_use. destruct (sr_values_attribute r) as [a|] eqn:EV.
    + destruct (H8 a eq_refl) as (_ & _ & HI). apply (existsb_one _ _ (Some "VALUES")); [exact HI|exact F3|].
      intros x N. unfold fsr. destruct (ostr_eqb x (Some "TYPE")); [reflexivity|]. destruct (ostr_eqb x (Some "SOURCE")); [reflexivity|].
      destruct (ostr_eqb x (Some "TARGET")); [reflexivity|]. destruct (ostr_eqb_spec x (Some "VALUES")); [contradiction|reflexivity].
    + unfold sr_use in F3 |- *. rewrite EV in F3 |- *. apply not_true_is_false. intros H. apply existsb_exists in H. destruct H as (x & _ & Hx). unfold fsr in Hx.
      destruct (ostr_eqb x (Some "TYPE")); [discriminate|]. destruct (ostr_eqb x (Some "SOURCE")); [discriminate|].
      destruct (ostr_eqb x (Some "TARGET")); [discriminate|]. destruct (ostr_eqb x (Some "VALUES")); [congruence|discriminate].
  - intros m Hm. destruct (F4 m Hm) as (v' & N1 & N2 & N3).
    set (n := el "SPEC-RELATION" (sr_attrs r) (fws nl +++ fblocks (fsr fv r) (sr_order r) +++ fws "        ") m).
    assert (EC : children n = elements (f_n (fblocks (fsr fv r) (sr_order r)) m)) by apply ordered_children.
    assert (HB : block_ok (fsr fv r) (sr_order r) m).
    { intros t Ht. specialize (HPR2 t Ht). cbn [map In] in HPR2. destruct HPR2 as [<-|[<-|[<-|[<-|[]]]]]; unfold fsr; lits;
        try (right; rewrite fblock_elements; eexists; split; reflexivity).
      destruct (sr_values_attribute r).
      - destruct N3 as (nv & k & a' & A1 & A2 & _). right. exists nv. auto.
      - destruct N3 as (A1 & A2 & _). left. auto. }
    set (r' := SpecRelation (sr_identifier r) (sr_relation_type_ref r) (sr_source r) (sr_target r) (Some n)
                 (sr_description r) (sr_last_change r) (sr_long_name r) v').
    exists n, r'. split; [apply ordered_elements|]. split; [|split].
    + assert (HA : forall k, attr_opt k n = assoc k (map attr_of (sr_attrs r))) by (intros k; apply attr_el).
      assert (HT : tag_is "SPEC-RELATION" n = true) by reflexivity.
      assert (HM : forall t, In (Some t) (sr_order r) -> elements (f_n (fsr fv r (Some t)) m) <> [] -> ostr_mem (Some t) (child_tags n) = true).
      { intros t Ht HE. apply ostr_mem_In. unfold child_tags. rewrite EC. apply blocks_tags; [exact HB|]. split; assumption. }
      assert (HM1 : ostr_mem (Some "TYPE") (child_tags n) = true) by (apply HM; [assumption|unfold fsr; lits; rewrite fblock_elements; discriminate]).
      assert (HM2 : ostr_mem (Some "SOURCE") (child_tags n) = true) by (apply HM; [assumption|unfold fsr; lits; rewrite fblock_elements; discriminate]).
      assert (HM3 : ostr_mem (Some "TARGET") (child_tags n) = true) by (apply HM; [assumption|unfold fsr; lits; rewrite fblock_elements; discriminate]).
      assert (HF : forall t, In (Some t) (sr_order r) -> find_child t n = hd_error (elements (f_n (fsr fv r (Some t)) m))).
      { intros t Ht. rewrite find_child_elements, EC, find_blocks by exact HB. apply ostr_mem_In in Ht. rewrite Ht. reflexivity. }
      assert (HF1 : find_child "TYPE" n = Some (nblock (spaces 10) "TYPE" "SPEC-RELATION-TYPE-REF" (sr_relation_type_ref r) m))
        by (rewrite HF by assumption; unfold fsr; lits; rewrite fblock_elements; reflexivity).
      assert (HF2 : find_child "SOURCE" n = Some (nblock (spaces 10) "SOURCE" "SPEC-OBJECT-REF" (sr_source r) m))
        by (rewrite HF by assumption; unfold fsr; lits; rewrite fblock_elements; reflexivity).
      assert (HF3 : find_child "TARGET" n = Some (nblock (spaces 10) "TARGET" "SPEC-OBJECT-REF" (sr_target r) m))
        by (rewrite HF by assumption; unfold fsr; lits; rewrite fblock_elements; reflexivity).
      assert (HF4 : match find_child "VALUES" n with
                    | None => Ok None
                    | Some vs => match children vs with [] => Ok None | v :: _ => let! a := parse_relation_value v in Ok (Some a) end
                    end = Ok v').
      { rewrite find_child_elements, EC, find_blocks by exact HB. unfold fsr at 1. lits. destruct (sr_values_attribute r) as [a|] eqn:EV.
        - destruct (H8 a eq_refl) as (_ & _ & HI). apply ostr_mem_In in HI. rewrite HI. destruct N3 as (nv & k & a' & A1 & A2 & A3 & A4 & A5).
          rewrite A1. cbn [hd_error]. rewrite A3, A4, A5. reflexivity.
        - destruct N3 as (A1 & _ & ->). rewrite A1. cbn [hd_error]. destruct (ostr_mem (Some "VALUES") (sr_order r)); reflexivity. }
      unfold parse_spec_relation, find_req. rewrite HT, HM1, HM2, HM3, HF1, HF2, HF3, HF4, !HA. unfold r'. clearbody n. cbn [bind py_assert negb].
      unfold sr_attrs. attrs. rewrite !nblock_find. cbn [bind]. rewrite !text_ref by assumption. reflexivity.
    + unfold r', erase_spec_relation, normal_spec_relation, map_spec_relation.
      cbn [sr_identifier sr_relation_type_ref sr_source sr_target sr_description sr_last_change sr_long_name sr_values_attribute]. rewrite N1. reflexivity.
    + unfold unparse_spec_relation. change (tags_or (sr_xml_node r) ["TYPE"; "SOURCE"; "TARGET"; "VALUES"]) with (sr_order r).
      change (tags_or (sr_xml_node r') ["TYPE"; "SOURCE"; "TARGET"; "VALUES"]) with (map tag (children n)). rewrite EC.
      assert (HR := blocks_reprint (fsr fv r) (sr_order r) (unparse_sr_child r') m HB).
      pose proof (blocks_print (fsr fv r) (sr_order r) _ HPR) as HP. rewrite <- HP in HR.
      destruct (mapM (unparse_sr_child r) _) as [parts|]; [|discriminate].
      assert (HR' : (let! parts0 := mapM (unparse_sr_child r') (map tag (elements (f_n (fblocks (fsr fv r) (sr_order r)) m))) in Ok (concat parts0)) = Ok (concat parts)).
      { apply HR. intros t Ht _. rewrite <- HPR by exact Ht. unfold unparse_sr_child. cbn [r' sr_values_attribute]. rewrite N2. reflexivity. }
      destruct (mapM (unparse_sr_child r') _) as [parts'|]; [|discriminate]. cbn [bind] in *. apply Ok_inj in HR'. rewrite HR'. reflexivity.
Qed.

(** ** Relation groups *)
Definition foref (t r : str) (o : option str) : frag :=
  match o with None => fnil | Some _ => fblock (spaces 10) t r o end.
Lemma foref_good t r o : okname t = true -> okname r = true -> (o <> None -> ref_ok o) -> good p u (foref t r o).
Proof. intros H1 H2 H3. destruct o; [|apply good_nil]. apply fblock_good; [assumption..|]. apply H3. discriminate. Qed.
Lemma foref_str t r o : (o <> None -> ref_ok o) -> f_str (foref t r o) = ref_block t r o.
Proof. intros H. destruct o as [s|]; [|reflexivity]. unfold foref. rewrite fblock_str by (apply H; discriminate). unfold ref_block. strs. Qed.
Lemma foref_elements t r o m : elements (f_n (foref t r o) m) = match o with None => [] | Some _ => [nblock (spaces 10) t r o m] end.
Proof. destruct o; [apply fblock_elements|reflexivity]. Qed.
Lemma foref_use t r o : f_use (foref t r o) = false.
Proof. destruct o; reflexivity. Qed.
Definition frefs (l : list (option str)) : frag :=
  fcat (map (fun o => fws "            " +++ fref "SPEC-RELATION-REF" o +++ fws nl) l).
Definition fsrs (o : option (list (option str))) : frag :=
  match o with
  | None => fnil
  | Some l => fws "          " +++ fel "SPEC-RELATIONS" [] (fws nl +++ frefs l +++ fws "          ") +++ fws nl
  end.
Lemma frefs_good l : Forall ref_ok l -> good p u (frefs l).
Proof.
  intros H. apply good_cat. apply Forall_map. eapply Forall_impl; [|exact H]. intros o Ho.
  apply good_app; [apply good_ws; reflexivity|]. apply good_app; [|apply good_ws; reflexivity]. apply fref_good; [reflexivity|exact Ho].
Qed.
Lemma frefs_str l : Forall ref_ok l ->
  f_str (frefs l) = flat_map (fun r => "            <SPEC-RELATION-REF>" ++ fmt r ++ "</SPEC-RELATION-REF>" ++ nl) l.
Proof.
  intros H. unfold frefs. rewrite fcat_str, map_map, flat_map_concat_map. f_equal. apply map_ext_in. intros o Ho. rewrite Forall_forall in H.
  cbn [fapp f_str]. rewrite fref_str by (apply H, Ho). cbn [fws ftxt f_str]. strs.
Qed.
Lemma frefs_elements l m : elements (f_n (frefs l) m) = map (fun o => el "SPEC-RELATION-REF" [] (ftxt (ref_str o) (ref_str o)) m) l.
Proof.
  unfold frefs. rewrite fcat_n, elements_concat, !map_map. induction l as [|o l IH]; [reflexivity|]. cbn [map concat]. rewrite IH.
  cbn [fapp f_n]. rewrite !elements_app, fref_elements. cbn [fws ftxt f_n]. rewrite !elements_chr. reflexivity.
Qed.
Lemma frefs_use l : f_use (frefs l) = false.
Proof. unfold frefs. rewrite fcat_use. induction l; [reflexivity|exact IHl]. Qed.
Definition rg_attrs (g : relation_group) : list pattr :=
  oa "DESC" raw (rg_description g) ++ [PA "IDENTIFIER" (rg_identifier g) (rg_identifier g)]
  ++ oa "LAST-CHANGE" raw (rg_last_change g) ++ ta "LONG-NAME" (rg_long_name g).
Definition rg_body (g : relation_group) : frag :=
  fws nl +++ fsrs (rg_spec_relations g)
  +++ foref "TYPE" "RELATION-GROUP-TYPE-REF" (rg_type_ref g)
  +++ foref "SOURCE-SPECIFICATION" "SPECIFICATION-REF" (rg_source_specification_ref g)
  +++ foref "TARGET-SPECIFICATION" "SPECIFICATION-REF" (rg_target_specification_ref g)
  +++ fws "        ".
Definition nsrs (o : option (list (option str))) (m : nsmap) : list node :=
  match o with None => [] | Some l => [el "SPEC-RELATIONS" [] (fws nl +++ frefs l +++ fws "          ") m] end.
Lemma find_nblock t t' r o m l : find_list t (nblock (spaces 10) t' r o m :: l) = if str_eqb t' t then Some (nblock (spaces 10) t' r o m) else find_list t l.
Proof. apply find_cons. Qed.
Lemma find_foref t t' r o m l :
  find_list t (elements (f_n (foref t' r o) m) ++ l)
  = if str_eqb t' t then match o with Some _ => Some (nblock (spaces 10) t' r o m) | None => find_list t l end else find_list t l.
Proof. rewrite foref_elements. destruct o; cbn [app]; [|destruct (str_eqb t' t); reflexivity]. apply find_nblock. Qed.
Lemma rt_relation_group g : printable_relation_group g ->
  rt p u ctx (fun g => Ok (unparse_relation_group g)) parse_relation_group (fun g => g) normal_relation_group (fun _ => false) g.
Proof.
  intros (H1 & H2 & H3 & H4 & H5 & H6 & H7 & H8).
  assert (GS : good p u (fsrs (rg_spec_relations g))).
  { destruct (rg_spec_relations g) as [l|]; [|apply good_nil]. cbn [fsrs each] in *. apply good_app; [apply good_ws; reflexivity|]. apply good_app; [|apply good_ws; reflexivity].
    apply good_el; [reflexivity|split; [reflexivity|constructor]|]. good_body. apply frefs_good, H8. }
  exists (fws "        " +++ fel "RELATION-GROUP" (rg_attrs g) (rg_body g) +++ fws nl). split; [|split; [|split]].
  - apply good_app; [apply good_ws; reflexivity|]. apply good_app; [|apply good_ws; reflexivity]. apply good_el; [reflexivity|unfold rg_attrs, raw; okattrs_tac|].
    unfold rg_body. apply good_app; [apply good_ws; reflexivity|]. apply good_app; [exact GS|].
    repeat (apply good_app; [apply foref_good; [reflexivity|reflexivity|assumption]|]). apply good_ws; reflexivity.
  - f_equal. unfold unparse_relation_group, rg_body, rg_attrs. cbn [fapp fel f_str fws ftxt]. rewrite !foref_str by assumption.
    assert (ES : f_str (fsrs (rg_spec_relations g)) = match rg_spec_relations g with
      | None => []
      | Some l => "          <SPEC-RELATIONS>" ++ nl
                  ++ flat_map (fun r => "            <SPEC-RELATION-REF>" ++ fmt r ++ "</SPEC-RELATION-REF>" ++ nl) l
                  ++ "          </SPEC-RELATIONS>" ++ nl
      end).
    { destruct (rg_spec_relations g) as [l|]; [|reflexivity]. cbn [fsrs each] in *. cbn [fapp fel f_str fws ftxt]. rewrite frefs_str by exact H8. strs. }
    rewrite ES. renders. strs.
  - unfold rg_body. cbn [fapp fel f_use fws ftxt]. rewrite !foref_use. destruct (rg_spec_relations g) as [l|]; [|reflexivity].
    unfold fsrs. cbn [fapp fel f_use fws ftxt]. rewrite frefs_use. reflexivity.
  - intros m _. set (n := el "RELATION-GROUP" (rg_attrs g) (rg_body g) m). exists n, (normal_relation_group g).
    split; [cbn [fapp f_n]; rewrite !elements_app; cbn [fel fws ftxt f_n]; rewrite !elements_chr, elements_el; reflexivity|]. split; [|split; [reflexivity|]].
    + assert (HA : forall k, attr_opt k n = assoc k (map attr_of (rg_attrs g))) by (intros k; apply attr_el).
      assert (HT : tag_contains "RELATION-GROUP" n = Ok true) by reflexivity.
      assert (EC : children n = nsrs (rg_spec_relations g) m
        ++ elements (f_n (foref "TYPE" "RELATION-GROUP-TYPE-REF" (rg_type_ref g)) m)
        ++ elements (f_n (foref "SOURCE-SPECIFICATION" "SPECIFICATION-REF" (rg_source_specification_ref g)) m)
        ++ elements (f_n (foref "TARGET-SPECIFICATION" "SPECIFICATION-REF" (rg_target_specification_ref g)) m) ++ []).
      { unfold n. rewrite children_el. unfold rg_body. cbn [fapp f_n]. rewrite !elements_app. cbn [fws ftxt f_n]. rewrite !elements_chr.
        assert (E : elements (f_n (fsrs (rg_spec_relations g)) m) = nsrs (rg_spec_relations g) m).
        { destruct (rg_spec_relations g); [|reflexivity]. unfold fsrs. cbn [fapp f_n]. rewrite !elements_app. cbn [fel fws ftxt f_n]. rewrite !elements_chr, elements_el. reflexivity. }
        rewrite E. reflexivity. }
      assert (FS : forall t l, find_list t (nsrs (rg_spec_relations g) m ++ l)
        = if str_eqb "SPEC-RELATIONS" t then match rg_spec_relations g with Some l0 => Some (el "SPEC-RELATIONS" [] (fws nl +++ frefs l0 +++ fws "          ") m) | None => find_list t l end else find_list t l).
      { intros t l. destruct (rg_spec_relations g); cbn [nsrs app]; [apply find_cons|]. destruct (str_eqb "SPEC-RELATIONS" t); reflexivity. }
      assert (R : forall t r o, (o <> None -> ref_ok o) -> find_child t n = match o with Some _ => Some (nblock (spaces 10) t r o m) | None => None end -> opt_ref t r n = o).
      { intros t r o HO HF. unfold opt_ref. rewrite HF. destruct o as [s|]; [|reflexivity]. rewrite nblock_find. apply text_ref, HO. discriminate. }
      assert (R1 : opt_ref "TYPE" "RELATION-GROUP-TYPE-REF" n = rg_type_ref g).
      { apply R; [assumption|]. rewrite find_child_elements, EC, FS. lits. rewrite find_foref. lits. rewrite !find_foref. lits. reflexivity. }
      assert (R2 : opt_ref "SOURCE-SPECIFICATION" "SPECIFICATION-REF" n = rg_source_specification_ref g).
      { apply R; [assumption|]. rewrite find_child_elements, EC, FS. lits. rewrite !find_foref. lits. reflexivity. }
      assert (R3 : opt_ref "TARGET-SPECIFICATION" "SPECIFICATION-REF" n = rg_target_specification_ref g).
      { apply R; [assumption|]. rewrite find_child_elements, EC, FS. lits. rewrite !find_foref. lits. reflexivity. }
      assert (R4 : match find_child "SPEC-RELATIONS" n with None => None | Some x => Some (map text (children x)) end = rg_spec_relations g).
      { rewrite find_child_elements, EC, FS. lits. destruct (rg_spec_relations g) as [l|].
        - f_equal. rewrite children_el. cbn [fapp f_n]. rewrite !elements_app, frefs_elements. cbn [fws ftxt f_n]. rewrite !elements_chr, app_nil_r, app_nil_l.
          rewrite map_map. cbn [each] in H8. clear -H8. induction H8 as [|o l Ho _ IH]; [reflexivity|]. cbn [map]. rewrite IH, text_ref by exact Ho. reflexivity.
        - rewrite !find_foref. lits. reflexivity. }
      unfold parse_relation_group, attr_req. rewrite HT, R1, R2, R3, R4, !HA. clearbody n. cbn [bind py_assert]. unfold rg_attrs. attrs. reflexivity.
    + f_equal. unfold unparse_relation_group, normal_relation_group.
      cbn [rg_identifier rg_description rg_last_change rg_long_name rg_type_ref rg_source_specification_ref rg_target_specification_ref rg_spec_relations].
      rewrite truthy_drop. reflexivity.
Qed.
End Objects.
