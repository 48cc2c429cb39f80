(** Prop_Conventional.v -- conditions on the XML tree of a file under which it
    survives being read and written (C78) *)
From Verif Require Import Base Xml Utf8 Lxml Py LxmlStr Models AttrDef DataType Header AttrValue SpecObj Hierarchy SpecTypes
  Parser Unparser BundleModel Commands SpecAccept SpecEscape SpecPrint SpecXhtml SpecDocument SpecTraversal SpecProgress SpecLookup SpecParse SpecSettle SpecKeep SpecConventional
  DictProofs EscapeProofs RT_Xhtml Frag ProgressProofs TraversalProofs ParserProofs FaithProofs IsolationProofs SettleProofs WritesProofs ConventionalProofs
  Utf8Proofs LineProofs XmlChars AcceptProofs ConventionalCheck Prop_Accept Prop_Parser Prop_RoundTrip Prop_Document Prop_Settle Prop_Keep.

Lemma Forall2_in_l {A B} (R : A -> B -> Prop) l l' x : Forall2 R l l' -> In x l -> exists y, In y l' /\ R x y.
Proof.
  induction 1 as [|a y l l' H _ IH]; [contradiction|]. intros [->|HI]; [exists y; split; [left; reflexivity|exact H]|].
  destruct (IH HI) as (z & Z1 & Z2). exists z. split; [right; exact Z1|exact Z2].
Qed.
(** ** From the texts of single values to those of a bundle *)
Section Upgrade.
Variables D V D' V' : str -> Prop.
Lemma up_value a : plain_value V a -> (forall v, In v (value_xhtml a) -> V v -> V' v) -> plain_value V' a.
Proof.
  intros [H1 H2] HV. split; [exact H1|]. unfold value_xhtml in HV. destruct (sa_value a) as [v|l]; [|exact H2].
  destruct (sa_type a); try exact H2. apply HV; [left; reflexivity|exact H2].
Qed.
Lemma up_values l : Forall (plain_value V) l -> (forall v, In v (flat_map value_xhtml l) -> V v -> V' v) -> Forall (plain_value V') l.
Proof.
  intros H HV. rewrite Forall_forall in *. intros a HA. apply up_value; [apply H, HA|]. intros v HI. apply HV, in_flat_map. eauto.
Qed.
Lemma up_definition a : plain_attr_def D a -> (forall v, In v (default_xhtml a) -> D v -> D' v) -> plain_attr_def D' a.
Proof.
  intros (H1 & H2 & H3 & H4 & H5 & H6 & H7) HD. repeat (split; [assumption|]). intros v HV. specialize (H7 v HV). unfold default_xhtml in HD. rewrite HV in HD.
  destruct (ad_type a); try exact H7. apply HD; [left; reflexivity|exact H7].
Qed.
Lemma up_content c : plain_content D V c -> (forall v, In v (content_xhtml c) -> (D v -> D' v) /\ (V v -> V' v)) -> plain_content D' V' c.
Proof.
  intros (H1 & H2 & H3 & H4 & H5 & H6) HU. unfold content_xhtml in HU.
  assert (UD : forall v, In v (flat_map default_xhtml (flat_map type_definitions (items (rc_spec_types c)))) -> D v -> D' v)
    by (intros v HV; apply HU; rewrite !in_app_iff; auto).
  assert (UO : forall v, In v (flat_map value_xhtml (flat_map so_attributes (items (rc_spec_objects c)))) -> V v -> V' v)
    by (intros v HV; apply HU; rewrite !in_app_iff; auto).
  assert (UR : forall v, In v (flat_map value_xhtml (flat_map (fun r => match sr_values_attribute r with Some a => [a] | None => [] end)
                                    (items (rc_spec_relations c)))) -> V v -> V' v)
    by (intros v HV; apply HU; rewrite !in_app_iff; auto).
  assert (US : forall v, In v (flat_map value_xhtml (flat_map (fun s => items (sp_values s)) (items (rc_specifications c)))) -> V v -> V' v)
    by (intros v HV; apply HU; rewrite !in_app_iff; auto).
  clear HU. rewrite !each_items in *. unfold plain_content. rewrite !each_items. rewrite !Forall_forall in *.
  split; [exact H1|]. split; [|split; [|split; [|split; [|exact H6]]]].
  - intros t HT. destruct (H2 t HT) as [G1 G2]. split; [|exact G2]. rewrite Forall_forall in *. intros a HA. apply up_definition; [apply G1, HA|].
    intros v HV. apply UD, in_flat_map. exists a. split; [|exact HV]. apply in_flat_map. eauto.
  - intros o HO. destruct (H3 o HO) as (G1 & G2 & G3 & G4 & G5 & G6). repeat (split; [assumption|]). apply up_values; [exact G6|].
    intros v HV. apply UO. apply in_flat_map in HV. destruct HV as (a & HA & HV). apply in_flat_map. exists a. split; [|exact HV]. apply in_flat_map. eauto.
  - intros x HX. destruct (H4 x HX) as (G1 & G2 & G3 & G4 & G5 & G6 & G7 & G8). repeat (split; [assumption|]). intros a HA. apply up_value; [apply G8, HA|].
    intros v HV. apply UR, in_flat_map. exists a. split; [|exact HV]. apply in_flat_map. exists x. split; [exact HX|]. rewrite HA. left. reflexivity.
  - intros x HX. destruct (H5 x HX) as (G1 & G2 & G3 & G4 & G5 & G6 & G7). repeat (split; [assumption|]). split; [|exact G7]. rewrite each_items in *.
    apply up_values; [exact G6|]. intros v HV. apply US. apply in_flat_map in HV. destruct HV as (a & HA & HV). apply in_flat_map. exists a. split; [|exact HV]. apply in_flat_map. eauto.
Qed.
End Upgrade.
Lemma xhtml_of_plain D V c : plain_content D V c -> forall v, In v (content_xhtml c) -> D v \/ V v.
Proof.
  intros (_ & H2 & H3 & H4 & H5 & _) v HV. rewrite !each_items in *. rewrite !Forall_forall in *.
  assert (VV : forall a, plain_value V a -> In v (value_xhtml a) -> V v).
  { intros a [_ G] HA. unfold value_xhtml in HA. destruct (sa_type a), (sa_value a); try contradiction. destruct HA as [<-|[]]. exact G. }
  unfold content_xhtml in HV. rewrite !in_app_iff in HV. destruct HV as [HV|[HV|[HV|HV]]];
    apply in_flat_map in HV; destruct HV as (a & HA & HV); apply in_flat_map in HA; destruct HA as (x & HX & HA).
  - left. destruct (H2 x HX) as [G _]. rewrite Forall_forall in G. destruct (G a HA) as (_ & _ & _ & _ & _ & _ & K).
    unfold default_xhtml in HV. destruct (ad_type a); try contradiction. destruct (ad_default_value a) as [| |w]; try contradiction. destruct HV as [<-|[]]. apply (K _ eq_refl).
  - right. destruct (H3 x HX) as (_ & _ & _ & _ & _ & G). rewrite Forall_forall in G. apply (VV a); [apply G, HA|exact HV].
  - right. destruct (H4 x HX) as (_ & _ & _ & _ & _ & _ & _ & G). destruct (sr_values_attribute x) as [y|]; [|contradiction]. destruct HA as [->|[]]. apply (VV a); [apply G; reflexivity|exact HV].
  - right. destruct (H5 x HX) as (_ & _ & _ & _ & _ & G & _). rewrite each_items, Forall_forall in G. apply (VV a); [apply G, HA|exact HV].
Qed.

(** ** Which documents can be written *)
Lemma parts s root b : document_root s = Some root -> parse_string s = Ok b -> children root <> [] ->
  match find_child "THE-HEADER" root with
  | Some n => exists h, parse_header n = Ok h /\ b_header b = Some h
  | None => b_header b = None
  end
  /\ document_content s = path_node ["CORE-CONTENT"; "REQ-IF-CONTENT"] root
  /\ (document_content s = None -> bundle_content b = None)
  /\ ni_dump (b_namespace_info b) <> None.
Proof.
  intros HD H HN. rewrite (proj2 (string_traced s)) in H. unfold pure_string in H. unfold document_root in HD. unfold document_content, bundle_content. cbn [path_node].
  destruct s as [|x s]; [discriminate|]. destruct (lxml_parse (x :: s)) as [[decl root0]|]; [|discriminate].
  unfold pure_reqif in H. destruct (strip_if_namespaced root0) as [r|e]; [|discriminate]. cbn [bind] in H.
  destruct (tag_is "REQ-IF" r); [|discriminate]. injection HD as ->. cbn [negb] in H. destruct (children root) as [|k0 ks]; [congruence|].
  destruct (find_child "THE-HEADER" root) as [hn|]; cbn [bind] in H.
  - destruct (parse_header hn) as [h0|e] eqn:EH; [|discriminate]. cbn [bind] in H.
    destruct (find_child "CORE-CONTENT" root) as [cc|]; [destruct (find_child "REQ-IF-CONTENT" cc) as [rc|]; [destruct (pure_content rc) as [[[ct lk] xs]|e]; [|discriminate]|]|];
      cbn [bind] in H; apply Ok_inj' in H; subst b; cbn [b_header b_core_content b_namespace_info ni_dump];
      (split; [eauto|]); (split; [reflexivity|]); (split; [congruence|discriminate]).
  - destruct (find_child "CORE-CONTENT" root) as [cc|]; [destruct (find_child "REQ-IF-CONTENT" cc) as [rc|]; [destruct (pure_content rc) as [[[ct lk] xs]|e]; [|discriminate]|]|];
      cbn [bind] in H; apply Ok_inj' in H; subst b; cbn [b_header b_core_content b_namespace_info ni_dump];
      (split; [eauto|]); (split; [reflexivity|]); (split; [congruence|discriminate]).
Qed.
Lemma header_iff n h : parse_header n = Ok h -> (forall x, find_child "REQ-IF-HEADER" n = Some x -> attr_opt "IDENTIFIER" x <> Some []) <-> writable_header h.
Proof.
  intros H. unfold parse_header in H. destruct (py_assert _); [|discriminate]. cbn [bind] in H.
  destruct (find_child "REQ-IF-HEADER" n) as [x|]; [|discriminate].
  destruct (or_not_impl (attr_req "IDENTIFIER" x)) as [i|] eqn:EI; [|discriminate]. cbn [bind] in H. apply Ok_inj' in H. subst h.
  apply not_impl_ok, attr_req_ok in EI. unfold writable_header. cbn [hd_identifier]. split; [intros G; rewrite <- EI; apply G; reflexivity|].
  intros G y E. injection E as <-. rewrite EI. exact G.
Qed.
(** ** C50, C78: the accepted documents that can be written, read off their XML *)
Theorem C50_writable_exactly_when_the_tree_is :
  forall s root b, document_root s = Some root -> parse_string s = Ok b -> children root <> [] ->
    ((exists t, unparse_string b = Ok t) <-> writes root).
Proof.
  intros s root b HD HP HN. rewrite (C50_writable_exactly_when s b HP). destruct (parts s root b HD HP HN) as (P1 & P2 & P3 & P4).
  pose proof (parse_string_content _ _ HP) as HC. rewrite P2 in HC. unfold writable_bundle.
  assert (I1 : (forall h, path_node ["THE-HEADER"; "REQ-IF-HEADER"] root = Some h -> attr_opt "IDENTIFIER" h <> Some []) <-> (forall h, b_header b = Some h -> writable_header h)).
  { cbn [path_node]. destruct (find_child "THE-HEADER" root) as [n|].
    - destruct P1 as (h & EH & ->). split.
      + intros G y E. assert (y = h) by congruence. subst y. apply (header_iff n h EH). intros x EX. apply G. rewrite EX. reflexivity.
      + intros G x EX. destruct (find_child "REQ-IF-HEADER" n) as [z|] eqn:EZ; [|discriminate]. injection EX as ->.
        apply (proj2 (header_iff n h EH) (G h eq_refl) x EZ).
    - rewrite P1. split; discriminate. }
  assert (I2 : ((forall rc, path_node ["CORE-CONTENT"; "REQ-IF-CONTENT"] root = Some rc -> every "SPEC-TYPES" (every "SPEC-ATTRIBUTES" definition_writes) rc)
     /\ (forall rc, path_node ["CORE-CONTENT"; "REQ-IF-CONTENT"] root = Some rc -> every "SPEC-OBJECTS" (fun o => is_comment o = false -> object_writes o) rc)
     /\ (forall rc, path_node ["CORE-CONTENT"; "REQ-IF-CONTENT"] root = Some rc -> every "SPEC-RELATIONS" (fun x => incomplete x = false -> relation_writes x) rc))
     <-> (forall c, b_core_content b = Some (Some c) -> writable_content c)).
  { rewrite P2 in P3. destruct (path_node ["CORE-CONTENT"; "REQ-IF-CONTENT"] root) as [rc|].
    - destruct HC as (c & EC & F). pose proof (content_iff _ _ _ _ F) as I. split.
      + intros (G1 & G2 & G3) c' E. assert (c' = c) by congruence. subst c'. apply I. auto.
      + intros G. specialize (G c EC). apply I in G. destruct G as (G1 & G2 & G3). split; [|split]; intros x E; assert (x = rc) by congruence; subst x; assumption.
    - split; [intros _ c E|intros _; repeat split; discriminate]. specialize (P3 eq_refl). unfold bundle_content in P3. rewrite E in P3. discriminate. }
  rewrite <- I1, <- I2. split.
  - intros (_ & G1 & G2 & G3 & G4). split; assumption.
  - intros [G1 G2 G3 G4]. split; [left; exact P4|]. auto.
Qed.

(** ** Reading a conventional document *)
Section Reading.
Variables (r : SpecDocument.root_tag) (p u : str) (root : node).
Hypothesis C : conventional r p u root.
Lemma top_here t n : find_child t root = Some n -> t <> "TOOL-EXTENSIONS" -> here root n.
Proof.
  intros H HT. destruct (tag_found _ _ _ H) as [TN IN]. exists "REQ-IF", t. split; [apply placed_top, IN|]. split; [exact TN|].
  unfold deep. cbn. destruct (str_eqb_spec t "TOOL-EXTENSIONS"); [contradiction|reflexivity].
Qed.
Variables (s : str) (b : bundle).
Hypothesis (HR : document_root s = Some root) (HP : parse_string s = Ok b) (HN : children root <> []).
Lemma content_placed rc t ks k : path_node ["CORE-CONTENT"; "REQ-IF-CONTENT"] root = Some rc -> section_items t rc = Some ks -> inner t = true -> In k ks -> placed root t k.
Proof.
  cbn [path_node]. intros H. destruct (find_child "CORE-CONTENT" root) as [cc|] eqn:E; [|discriminate].
  destruct (find_child "REQ-IF-CONTENT" cc) as [x|] eqn:E2; [|discriminate]. injection H as ->.
  apply section_placed. eapply found_here; [|exact E2|reflexivity]. eapply top_here; [exact E|discriminate].
Qed.
Lemma content_read_plain c : b_core_content b = Some (Some c) ->
  plain_content (read_default r p u root) (read_value r p u root) c.
Proof.
  intros HC. destruct (parts s root b HR HP HN) as (_ & P2 & P3 & _). unfold bundle_content in P3. rewrite HC in P3.
  destruct (document_content s) as [rc|] eqn:ED; [|specialize (P3 eq_refl); discriminate].
  destruct (C16_sections_are_images_of_their_elements _ _ _ HP ED) as (c' & EC & H1 & H2 & H3 & H4 & H5 & H6).
  unfold bundle_content in EC. rewrite HC in EC. injection EC as <-.
  assert (PL : forall t ks k, section_items t rc = Some ks -> inner t = true -> In k ks -> placed root t k) by (intros; eapply content_placed; eauto).
  unfold images in *. unfold plain_content, each.
  split; [|split; [|split; [|split; [|split]]]].
  - destruct (section_items "DATATYPES" rc) as [ks|] eqn:E, (rc_data_types c) as [l|]; try contradiction; [|exact I].
    eapply (list_read root); [|exact (data_type_read r p u root C)|exact H1]. intros k HI. eapply PL; [exact E|reflexivity|exact HI].
  - destruct (section_items "SPEC-TYPES" rc) as [ks|] eqn:E, (rc_spec_types c) as [l|]; try contradiction; [|exact I].
    eapply (list_read root); [|exact (spec_type_read r p u root C)|exact H2]. intros k HI. eapply PL; [exact E|reflexivity|apply in_no_comments, HI].
  - destruct (section_items "SPEC-OBJECTS" rc) as [ks|] eqn:E, (rc_spec_objects c) as [l|]; try contradiction; [|exact I].
    eapply (list_read root); [|exact (spec_object_read r p u root C)|exact H3]. intros k HI. eapply PL; [exact E|reflexivity|apply in_no_comments, HI].
  - destruct (section_items "SPEC-RELATIONS" rc) as [ks|] eqn:E, (rc_spec_relations c) as [l|]; try contradiction; [|exact I].
    eapply (list_read root); [|exact (spec_relation_read r p u root C)|exact (proj1 H4)]. intros k HI. eapply PL; [exact E|reflexivity|]. apply filter_In in HI. apply HI.
  - destruct (section_items "SPECIFICATIONS" rc) as [ks|] eqn:E, (rc_specifications c) as [l|]; try contradiction; [|exact I].
    eapply (list_read root); [|exact (specification_read r p u root C)|exact H5]. intros k HI. eapply PL; [exact E|reflexivity|exact HI].
  - destruct (section_items "SPEC-RELATION-GROUPS" rc) as [ks|] eqn:E, (rc_spec_relation_groups c) as [l|]; try contradiction; [|exact I].
    eapply (list_read root); [|exact (relation_group_read r p u root C)|exact H6]. intros k HI. eapply PL; [exact E|reflexivity|exact HI].
Qed.
(** an element in a value of an object is seen in the bundle *)
Lemma marked_uses : marked root -> uses_markup b = true.
Proof.
  intros (rc & ks & o & vs & v & tv & k & H1 & H2 & H3 & H4 & H5 & H6 & H7 & H8).
  destruct (parts s root b HR HP HN) as (_ & P2 & _ & _). rewrite H1 in P2.
  destruct (C16_sections_are_images_of_their_elements _ _ _ HP P2) as (c & EC & _ & _ & G & _).
  rewrite H2 in G. destruct (rc_spec_objects c) as [l|] eqn:EO; [|contradiction].
  assert (NC : forall x, tag x <> None -> is_comment x = false) by (intros [| | |]; cbn; congruence).
  assert (IO : In o (no_comments ks)).
  { apply filter_In. split; [exact H3|]. destruct o; try reflexivity. discriminate H4. }
  destruct (Forall2_in_l _ _ _ _ G IO) as (x & IX & (_ & _ & GV)). rewrite H4 in GV.
  assert (IV : In v (no_comments vs)) by (apply filter_In; split; [exact H5|]; rewrite NC; [reflexivity|rewrite H6; discriminate]).
  destruct (Forall2_in_l _ _ _ _ GV IV) as (a & IA & GA).
  assert (PO : placed root "SPEC-OBJECTS" o) by (eapply content_placed; [exact H1|exact H2|reflexivity|exact H3]).
  destruct GA as (GT & _ & GW). rewrite H6 in GT.
  assert (ET : sa_type a = AT_XHTML) by (destruct (sa_type a); cbn in GT; congruence).
  rewrite ET in GW. destruct GW as (w & tv' & EW & ETV & ST). assert (tv' = tv) by congruence. subst tv'.
  assert (HO : here root o).
  { destruct o as [|ns l0 d i at_ kd| |]; try discriminate H4. eapply (item_here root "SPEC-OBJECTS"); [exact PO|reflexivity|reflexivity]. }
  assert (PV : placed root "VALUES" v) by (eapply section_placed; [exact HO|exact H4|reflexivity|exact H5]).
  assert (HV : here root v) by (eapply (item_here root "VALUES"); [exact PV|exact H6|reflexivity]).
  destruct (found_placed root v _ _ tv HV H6 H7) as [PT TT].
  destruct (value_read r p u root C tv w PT TT ST) as [_ LT].
  unfold uses_markup, bundle_xhtml. unfold bundle_content in EC. destruct (b_core_content b) as [[c0|]|]; try discriminate. injection EC as ->.
  apply existsb_exists. exists w. split; [|apply LT; intros E; rewrite E in H8; contradiction].
  unfold content_xhtml. rewrite !in_app_iff. right. left. rewrite EO. cbn [items]. apply in_flat_map. exists a. split; [apply in_flat_map; eauto|].
  unfold value_xhtml. rewrite ET, EW. left. reflexivity.
Qed.
Lemma stays_seen : stays_visible r p root -> visible r p (uses_markup b) <> [].
Proof.
  intros [H|[HM H]]; [|rewrite (marked_uses HM); exact H]. intros E. apply H. destruct (uses_markup b); [|exact E].
  unfold visible in *. destruct (existsb is_default (rt_decls r)); [|exact E].
  revert E. generalize (rt_decls r) as l. induction l as [|d l IH]; [reflexivity|]. cbn [filter]. rewrite !andb_false_l, !orb_false_r.
  destruct (attr_uses r (fst d)); cbn [orb]; [discriminate|]. destruct (_ && _); [discriminate|exact IH].
Qed.
Lemma value_upgraded v : In v (bundle_xhtml b) -> read_value r p u root v -> xhtml_value (visible r p (uses_markup b)) p u v.
Proof.
  intros HI (f & F1 & F2 & F3 & F4). exists f. split; [exact F1|]. split; [exact F2|]. split.
  - intros HM. rewrite <- (F3 HM). f_equal. f_equal. apply existsb_exists. exists v. split; [exact HI|]. rewrite F2, show_markup. exact HM.
  - intros EM. destruct (has_markup f) eqn:HM.
    + exfalso. assert (EU : uses_markup b = true) by (apply existsb_exists; exists v; split; [exact HI|]; rewrite F2, show_markup; exact HM).
      rewrite EU in EM. specialize (F3 eq_refl). rewrite EM in F3. discriminate.
    + destruct (F4 eq_refl) as [SV|E]; [|exact E]. exfalso. apply (stays_seen SV EM).
Qed.
Lemma default_upgraded v : In v (bundle_xhtml b) -> read_default r p u root v -> xhtml_default (visible r p (uses_markup b)) p u v.
Proof.
  intros HI [H1 H2]. split; [apply value_upgraded; assumption|]. destruct H2 as [H2|H2]; [|apply stays_seen, H2].
  assert (EU : uses_markup b = true) by (apply existsb_exists; exists v; split; [exact HI|exact H2]). rewrite EU.
  destruct H1 as (f & _ & F2 & F3 & _). intros E. rewrite E in F3. cbn in F3. assert (HM : has_markup f = true) by (rewrite <- (show_markup p f), <- F2; exact H2).
  specialize (F3 HM). discriminate.
Qed.
Lemma uses_declared : uses_markup b = true -> In (Some p, u) (rt_decls r).
Proof.
  intros EU. assert (EU' := EU). apply existsb_exists in EU. destruct EU as (v & HI & HL). unfold bundle_xhtml in HI.
  destruct (b_core_content b) as [[c|]|] eqn:EC; try contradiction. pose proof (content_read_plain c EC) as HC.
  assert (RV : read_value r p u root v).
  { apply (xhtml_of_plain _ _ _ HC) in HI. destruct HI as [[HI _]|HI]; exact HI. }
  destruct RV as (f & _ & F2 & F3 & _). assert (HM : has_markup f = true) by (rewrite <- (show_markup p f), <- F2; exact HL).
  specialize (F3 HM). unfold visible in F3. destruct (existsb is_default (rt_decls r)).
  - assert (IN : In (Some p, u) (filter (fun d => attr_uses r (fst d) || (true && ostr_eqb (fst d) (Some p))) (rt_decls r))) by (destruct (filter _ _); [discriminate|injection F3 as ->; left; reflexivity]).
    apply filter_In in IN. apply IN.
  - destruct (rt_decls r); [discriminate|]. injection F3 as ->. left. reflexivity.
Qed.
End Reading.

(** ** C78: conventional files survive passthrough *)
(** What is read from one can be written and read again, *)
Theorem C78_conventional_documents_can_be_read_back :
  forall r p u s root b, conventional_text r p u s root -> parse_string s = Ok b -> plain_bundle r p u b.
Proof.
  intros r p u s root b [(d & o & HL & HO) HR [H1 H2] H3 HD (t & HT & HK) HC] HP.
  assert (HN : children root <> []) by (destruct (find_child t root) as [k|] eqn:E; [apply (find_child_children _ _ _ E)|congruence]).
  assert (NE : b_header b <> None \/ b_core_content b <> None \/ b_tool_extensions b = true).
  { pose proof HP as HQ. rewrite (proj2 (string_traced s)) in HQ. unfold pure_string in HQ. unfold document_root in HD. rewrite HL in HD, HQ. destruct s as [|x s]; [discriminate|].
    unfold pure_reqif in HQ. destruct (strip_if_namespaced o) as [r0|e]; [|discriminate]. cbn [bind] in HQ. destruct (tag_is "REQ-IF" r0); [|discriminate].
    injection HD as ->. cbn [negb] in HQ. destruct (children root) as [|k0 ks]; [congruence|]. clear HN.
    destruct (find_child "THE-HEADER" root) as [hn|] eqn:E1; cbn [bind] in HQ.
    - destruct (parse_header hn) as [h0|e] eqn:EH; [|discriminate]. cbn [bind] in HQ.
      destruct (find_child "CORE-CONTENT" root) as [cc|]; [destruct (find_child "REQ-IF-CONTENT" cc) as [rc|]; [destruct (pure_content rc) as [[[ct lk] xs]|e]; [|discriminate]|]|];
        cbn [bind] in HQ; apply Ok_inj' in HQ; subst b; cbn [b_header]; left; discriminate.
    - destruct (find_child "CORE-CONTENT" root) as [cc|] eqn:E2; [destruct (find_child "REQ-IF-CONTENT" cc) as [rc|]; [destruct (pure_content rc) as [[[ct lk] xs]|e]; [|discriminate]|]|];
        cbn [bind] in HQ; apply Ok_inj' in HQ; subst b; cbn [b_header b_core_content b_tool_extensions]; try (right; left; discriminate).
      right. right. destruct HT as [<-|[<-|[<-|[]]]]; try congruence. destruct (find_child "TOOL-EXTENSIONS" root); [reflexivity|congruence]. }
  unfold plain_bundle. cbv zeta. split; [exact HR|]. split.
  { pose proof (proj1 (C32_declarations_and_attributes_kept r s d o b HR HL HO HP NE)) as E. apply (f_equal ni_dump) in E. exact E. }
  split; [exact H1|]. split; [exact H2|]. split; [exact H3|]. split; [apply (uses_declared r p u root HC s b HD HP HN)|]. split; [|split; [|exact NE]].
  - intros h EH. destruct (parts s root b HD HP HN) as (P1 & _). destruct (find_child "THE-HEADER" root) as [n|] eqn:E; [|congruence].
    destruct P1 as (h' & PH & EH'). assert (h' = h) by congruence. subst h'. apply (header_read r p u root HC n); [|exact PH]. eapply top_here; [exact E|discriminate].
  - intros c EC. eapply up_content; [exact (content_read_plain r p u root HC s b HD HP HN c EC)|].
    intros v HV. assert (HI : In v (bundle_xhtml b)) by (unfold bundle_xhtml; rewrite EC; exact HV).
    split; [apply (default_upgraded r p u root HC s b HD HP HN v HI)|apply (value_upgraded r p u root HC s b HD HP HN v HI)].
Qed.
Lemma parsed_encodes t b : parse_string t = Ok b -> exists raw, utf8_encode t = Some raw.
Proof.
  intros H. rewrite (proj2 (string_traced t)) in H. unfold pure_string in H. destruct t as [|x t]; [discriminate|].
  unfold lxml_parse in H. destruct (etree_parse (x :: t)) as [d|] eqn:E; [|discriminate]. apply (etree_parse_xml _ _ E).
Qed.
(** ... so passthrough succeeds for all of them that are accepted (C52) and can
    be written, its output is left as it is by another pass, and it is the same
    document. *)
Theorem C78_conventional_files_pass_through :
  forall r p u raw s root,
    utf8_decode raw = Some s -> conventional_text r p u s root -> accepted_document root -> writes root ->
    exists out t root', passthrough_reqif raw = Ok out /\ passthrough_reqif out = Ok out
      /\ utf8_decode out = Some t /\ document_root t = Some root' /\ document_kept root root'.
Proof.
  intros r p u raw s root HU HC HA HW. assert (HD : document_root s = Some root) by apply HC.
  destruct (proj2 (C52_accepted_exactly_when s) (ex_intro _ root (conj HD HA))) as (b & HP).
  pose proof (C78_conventional_documents_can_be_read_back r p u s root b HC HP) as HB.
  assert (HN : children root <> []).
  { destruct (ct_known _ _ _ _ _ HC) as (t & _ & HK). destruct (find_child t root) as [k|] eqn:E; [apply (find_child_children _ _ _ E)|congruence]. }
  destruct (proj2 (C50_writable_exactly_when_the_tree_is s root b HD HP HN) HW) as (t & HT).
  destruct (C49_second_pass_changes_nothing r p u s b t HP HB HT) as (strip & b' & _ & HP' & _ & _).
  destruct (parsed_encodes _ _ HP') as (out & HE).
  assert (EU : forall x, parse_string (universal_newlines x) = parse_string x)
    by (intros x; unfold parse_string; rewrite parse_from_string_un; reflexivity).
  assert (HO : passthrough_reqif raw = Ok out) by (unfold passthrough_reqif; rewrite HU, EU, HP; cbn [bind]; rewrite HT; cbn [bind]; rewrite HE; reflexivity).
  destruct (C67_unparse_keeps_the_document r p u s b t HP HB HT) as (root0 & root' & K1 & K2 & K3). assert (root0 = root) by congruence. subst root0.
  exists out, t, root'. split; [exact HO|]. split; [apply (C49_passthrough_output_is_stable r p u raw s b out HU HP HB HO)|].
  split; [exact (decode_encode _ _ HE)|]. auto.
Qed.
(** The others fail: passthrough succeeds for a conventional file exactly when
    it is accepted and can be written. *)
Theorem C78_passthrough_succeeds_exactly_when :
  forall r p u raw s root, utf8_decode raw = Some s -> conventional_text r p u s root ->
    ((exists out, passthrough_reqif raw = Ok out) <-> accepted_document root /\ writes root).
Proof.
  intros r p u raw s root HU HC. split.
  - intros (out & H). unfold passthrough_reqif in H. rewrite HU in H.
    assert (EU : parse_string (universal_newlines s) = parse_string s) by (unfold parse_string; rewrite parse_from_string_un; reflexivity).
    rewrite EU in H. destruct (parse_string s) as [b|e] eqn:HP; [|discriminate]. cbn [bind] in H. destruct (unparse_string b) as [t|e] eqn:HT; [|discriminate].
    assert (HD : document_root s = Some root) by apply HC.
    destruct (proj1 (C52_accepted_exactly_when s) (ex_intro _ b HP)) as (root0 & D0 & A0). assert (root0 = root) by congruence. subst root0.
    split; [exact A0|]. apply (C50_writable_exactly_when_the_tree_is s root b HD HP); [|eauto].
    destruct (ct_known _ _ _ _ _ HC) as (y & _ & HK). destruct (find_child y root) as [k|] eqn:E; [apply (find_child_children _ _ _ E)|congruence].
  - intros [HA HW]. destruct (C78_conventional_files_pass_through r p u raw s root HU HC HA HW) as (out & t & root' & H & _). eauto.
Qed.

(** ** Examples *)
(** a file as tools write it: a default namespace, XHTML values with elements, a
    default value, escaped attributes, white space and comments between elements *)
Definition conventional_root : SpecDocument.root_tag :=
  RootTag [(None, "http://www.omg.org/spec/ReqIF/20110401/reqif.xsd"); (Some "reqif-xhtml", "http://www.w3.org/1999/xhtml")] [].
Definition conventional_example : str :=
  "<?xml version='1.0' encoding='UTF-8'?>" ++ nl ++ "<REQ-IF xmlns='http://www.omg.org/spec/ReqIF/20110401/reqif.xsd' xmlns:reqif-xhtml='http://www.w3.org/1999/xhtml'>" ++ nl
  ++ "<THE-HEADER><REQ-IF-HEADER IDENTIFIER='h'><TITLE>t &amp; u</TITLE></REQ-IF-HEADER></THE-HEADER>" ++ nl
  ++ "<CORE-CONTENT><REQ-IF-CONTENT>" ++ nl
  ++ "<SPEC-TYPES><!-- types --><SPEC-OBJECT-TYPE IDENTIFIER='ot' LONG-NAME='a &lt; b'><SPEC-ATTRIBUTES><ATTRIBUTE-DEFINITION-XHTML IDENTIFIER='a'><TYPE><DATATYPE-DEFINITION-XHTML-REF>d</DATATYPE-DEFINITION-XHTML-REF></TYPE>"
  ++ "<DEFAULT-VALUE><ATTRIBUTE-VALUE-XHTML><DEFINITION><ATTRIBUTE-DEFINITION-XHTML-REF>a</ATTRIBUTE-DEFINITION-XHTML-REF></DEFINITION><THE-VALUE>a &lt; b</THE-VALUE></ATTRIBUTE-VALUE-XHTML></DEFAULT-VALUE></ATTRIBUTE-DEFINITION-XHTML></SPEC-ATTRIBUTES></SPEC-OBJECT-TYPE></SPEC-TYPES>" ++ nl
  ++ "<SPEC-OBJECTS><SPEC-OBJECT IDENTIFIER='o'><VALUES><ATTRIBUTE-VALUE-XHTML><DEFINITION><ATTRIBUTE-DEFINITION-XHTML-REF>a</ATTRIBUTE-DEFINITION-XHTML-REF></DEFINITION>"
  ++ "<THE-VALUE><reqif-xhtml:div class='c'>1 &lt; 2<reqif-xhtml:br/>more</reqif-xhtml:div></THE-VALUE></ATTRIBUTE-VALUE-XHTML>"
  ++ "<ATTRIBUTE-VALUE-STRING THE-VALUE='x &amp; &quot;y&quot;'><DEFINITION><ATTRIBUTE-DEFINITION-STRING-REF>b</ATTRIBUTE-DEFINITION-STRING-REF></DEFINITION></ATTRIBUTE-VALUE-STRING></VALUES>"
  ++ "<TYPE><SPEC-OBJECT-TYPE-REF>ot</SPEC-OBJECT-TYPE-REF></TYPE></SPEC-OBJECT></SPEC-OBJECTS>" ++ nl
  ++ "</REQ-IF-CONTENT></CORE-CONTENT></REQ-IF>".
Definition tree_of (s : str) : node := match document_root s with Some n => n | None => Chr 0 end.
Definition opened_of (s : str) : option str * node := match lxml_parse s with Some x => x | None => (None, Chr 0) end.
Example C78_example : let s := conventional_example in
  conventional_text conventional_root "reqif-xhtml" "http://www.w3.org/1999/xhtml" s (tree_of s)
  /\ accepted_document (tree_of s) /\ writes (tree_of s).
Proof.
  cbv zeta. assert (HD : document_root conventional_example = Some (tree_of conventional_example)) by (vm_compute; reflexivity).
  split; [|apply and_comm; split].
  - split.
    + exists (fst (opened_of conventional_example)), (snd (opened_of conventional_example)). split; [vm_compute; reflexivity|].
      exists [], (kids_of (snd (opened_of conventional_example))). split; [vm_compute; reflexivity|constructor].
    + apply root_okb_ok. vm_compute. reflexivity.
    + split; [reflexivity|discriminate].
    + vm_compute. reflexivity.
    + exact HD.
    + exists "THE-HEADER". split; [left; reflexivity|vm_compute; discriminate].
    + apply conventionalb_ok. vm_compute. reflexivity.
  - apply (C50_writable_exactly_when_the_tree_is _ _ (or_empty (parse_string conventional_example)) HD); [vm_compute; reflexivity|vm_compute; discriminate|].
    exists (match unparse_string (or_empty (parse_string conventional_example)) with Ok t => t | Raise _ => [] end). vm_compute. reflexivity.
  - assert (HE : exists b, parse_string conventional_example = Ok b) by (exists (or_empty (parse_string conventional_example)); vm_compute; reflexivity).
    apply C52_accepted_exactly_when in HE. destruct HE as (r0 & E & H). assert (E2 : r0 = tree_of conventional_example) by congruence. rewrite <- E2. exact H.
Qed.
(** the documents of the examples for C49 and C67 are conventional, too *)
Example C78_further_examples :
  conventional settle_root "xhtml" xhtml_uri (tree_of settle_text) /\ conventional settle_root "xhtml" xhtml_uri (tree_of keep_text).
Proof. split; apply conventionalb_ok; vm_compute; reflexivity. Qed.

(** ** What happens otherwise
    Without one of the conditions the output need not be XML any more: a name or
    a reference with an ampersand, an attribute of an XHTML element in a
    namespace. *)
Definition unreadable_output (s : str) : Prop :=
  exists b t, parse_string s = Ok b /\ unparse_string b = Ok t /\ parse_string t = Raise EReqIFXMLParsingError.
Definition one_object (name value ref : str) : str :=
  "<REQ-IF xmlns:x='http://www.w3.org/1999/xhtml'><CORE-CONTENT><REQ-IF-CONTENT><SPEC-OBJECTS><SPEC-OBJECT IDENTIFIER='o' LONG-NAME='" ++ name
  ++ "'><VALUES><ATTRIBUTE-VALUE-XHTML><DEFINITION><ATTRIBUTE-DEFINITION-XHTML-REF>d</ATTRIBUTE-DEFINITION-XHTML-REF></DEFINITION><THE-VALUE>" ++ value
  ++ "</THE-VALUE></ATTRIBUTE-VALUE-XHTML></VALUES><TYPE><SPEC-OBJECT-TYPE-REF>" ++ ref
  ++ "</SPEC-OBJECT-TYPE-REF></TYPE></SPEC-OBJECT></SPEC-OBJECTS></REQ-IF-CONTENT></CORE-CONTENT></REQ-IF>".
Definition one_root : SpecDocument.root_tag := RootTag [(Some "x", "http://www.w3.org/1999/xhtml")] [].
Ltac unreadable s := exists (or_empty (parse_string s)), (match unparse_string (or_empty (parse_string s)) with Ok t => t | Raise _ => [] end); vm_compute; auto.
Theorem C78_unconventional_documents_refuted :
  conventional one_root "x" "http://www.w3.org/1999/xhtml" (tree_of (one_object "n" "<x:br a='1'/>" "t"))
  /\ unreadable_output (one_object "n &amp; m" "<x:br a='1'/>" "t")
  /\ unreadable_output (one_object "n" "<x:br a='1'/>" "t &amp; u")
  /\ unreadable_output (one_object "n" "<x:br x:a='1'/>" "t").
Proof.
  split; [apply conventionalb_ok; vm_compute; reflexivity|]. split; [|split].
  - unreadable (one_object "n &amp; m" "<x:br a='1'/>" "t").
  - unreadable (one_object "n" "<x:br a='1'/>" "t &amp; u").
  - unreadable (one_object "n" "<x:br x:a='1'/>" "t").
Qed.

Print Assumptions C50_writable_exactly_when_the_tree_is.
Print Assumptions C78_conventional_documents_can_be_read_back.
Print Assumptions C78_conventional_files_pass_through.
Print Assumptions C78_passthrough_succeeds_exactly_when.
Print Assumptions C78_unconventional_documents_refuted.
