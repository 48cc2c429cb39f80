(** Prop_SamePage.v -- C81: the page of a file that another command wrote *)
From Verif Require Import Base Xml Utf8 Lxml Py LxmlStr Models AttrDef Header Progress Parser Unparser Serialise Validate Zip Anonymize Dump Commands BundleModel
  SpecCommands SpecXml SpecFormat SpecTraversal SpecProgress SpecPrint SpecDocument SpecSettle SpecAnonymize SpecLayout SpecHidden SpecLookup SpecValidate SpecVerdict SpecDump SpecSamePage
  DictProofs ProgressProofs TraversalProofs ParserProofs Utf8Proofs LineProofs
  IntProofs Prop_Progress Prop_Document Prop_Settle Prop_Commands Prop_Validate Prop_Format Prop_Reformat Prop_AnonymizeFile Prop_AnonymizeBundle Prop_Dump Prop_Verdict.

Lemma Forall2_mono {A B} (P Q : A -> B -> Prop) l l' : (forall x y, In x l -> In y l' -> P x y -> Q x y) -> Forall2 P l l' -> Forall2 Q l l'.
Proof.
  intros H F. induction F as [|x y l l' HP _ IH]; [constructor|]. constructor; [apply H; [left; reflexivity|left; reflexivity|exact HP]|].
  apply IH. intros a c Ha Hc. apply H; right; assumption.
Qed.
Lemma map_eq_Forall2 {A B C} (f : A -> C) (g : B -> C) l l' : map f l = map g l' -> Forall2 (fun x y => f x = g y) l l'.
Proof.
  revert l'. induction l as [|x l IH]; intros [|y l'] H; try discriminate; [constructor|]. cbn [map] in H.
  constructor; [congruence|apply IH; congruence].
Qed.
Lemma Forall2_map_eq {A B C} (f : A -> C) (g : B -> C) l l' : Forall2 (fun x y => g y = f x) l l' -> map g l' = map f l.
Proof. intros F. induction F as [|x y l l' E _ IH]; [reflexivity|]. cbn [map]. rewrite E, IH. reflexivity. Qed.

(** ** Bundles with similar pages *)
Section Agree.
Variables (repr_list : list (option str) -> str) (T N : str -> str -> Prop) (R : str * str -> str * str -> Prop).
Definition agree_object (o o' : spec_object) : Prop :=
  so_identifier o' = so_identifier o /\ fmt (so_spec_object_type o') = fmt (so_spec_object_type o)
  /\ Forall2 (fun a a' => R (value_row repr_list a) (value_row repr_list a')) (so_attributes o) (so_attributes o').
Definition agree_specification (s s' : specification) : Prop :=
  N (fmt (sp_long_name s)) (fmt (sp_long_name s')) /\ (Forall (fun r => r <> None) (sp_nodes s) -> sp_nodes s' = sp_nodes s).
Definition agree_content (c c' : Models.content) : Prop :=
  both (fun l l' => map dt_id l' = map dt_id l) (rc_data_types c) (rc_data_types c')
  /\ both (fun l l' => map st_identifier l' = map st_identifier l) (rc_spec_types c) (rc_spec_types c')
  /\ both (Forall2 agree_object) (rc_spec_objects c) (rc_spec_objects c')
  /\ both (Forall2 agree_specification) (rc_specifications c) (rc_specifications c').
Definition agree (b b' : bundle) : Prop :=
  both (fun h h' => T (fmt (hd_title h)) (fmt (hd_title h')) /\ fmt (hd_creation_time h') = fmt (hd_creation_time h)) (b_header b) (b_header b')
  /\ both (both agree_content) (b_core_content b) (b_core_content b').

Lemma agree_table o o' : agree_object o o' -> similar_table R (table_of repr_list o) (table_of repr_list o').
Proof.
  intros (E1 & E2 & F). split; [exact E2|]. split; [exact E1|]. cbn [table_of tb_values].
  induction F as [|a a' l l' H _ IH]; [constructor|]. cbn [map]. constructor; [exact H|exact IH].
Qed.
Lemma agree_last l l' k o : Forall2 agree_object l l' -> is_last_with (fun x => Some (so_identifier x)) l k o ->
  exists o', is_last_with (fun x => Some (so_identifier x)) l' k o' /\ agree_object o o'.
Proof.
  intros F (l1 & l2 & -> & E & L). apply Forall2_app_inv_l in F. destruct F as (m1 & m & F1 & F2 & ->). inversion F2 as [|? o' ? m2 H F3]; subst.
  exists o'. split; [|exact H]. exists m1, m2. split; [reflexivity|]. split; [rewrite (proj1 H); reflexivity|].
  intros y Hy E. clear - F3 L Hy E. cbn beta in E. induction F3 as [|x z l l' HR _ IH]; [destruct Hy|]. destruct Hy as [->|Hy].
  - apply (L x); [left; reflexivity|]. rewrite <- (proj1 HR). exact E.
  - apply IH; [intros u Hu; apply L; right; exact Hu|exact Hy].
Qed.
Lemma agree_targets b b' ns os ns' : Forall2 agree_object (spec_objects_of b) (spec_objects_of b') ->
  Forall2 (target b) ns os -> map h_spec_object ns' = map h_spec_object ns ->
  exists os', Forall2 (target b') ns' os' /\ Forall2 agree_object os os'.
Proof.
  intros HO F. revert ns'. induction F as [|n o ns os H _ IH]; intros [|n' ns'] E; try discriminate; [exists []; split; constructor|].
  cbn [map] in E. destruct (IH ns') as (os' & F1 & F2); [congruence|].
  destruct (agree_last _ _ _ _ HO H) as (o' & H1 & H2). exists (o' :: os'). split; [|constructor; assumption].
  constructor; [|exact F1]. unfold target. replace (h_spec_object n') with (h_spec_object n) by congruence. exact H1.
Qed.
Lemma agree_section b b' s s' x : Forall2 agree_object (spec_objects_of b) (spec_objects_of b') -> agree_specification s s' ->
  shows_specification repr_list b s x -> exists x', shows_specification repr_list b' s' x'
    /\ N (fst x) (fst x') /\ Forall2 (similar_table R) (snd x) (snd x').
Proof.
  intros HO (HN & HS) (ns & os & DO & F & ->). pose proof (document_order_unique _ _ _ DO (fpreorder_document_order _)) as E. subst ns.
  assert (HF : Forall (fun r => r <> None) (sp_nodes s)).
  { unfold sp_nodes. clear - F. induction F as [|n o ns os (l1 & l2 & _ & E & _) _ IH]; [constructor|]. cbn [map]. constructor; [rewrite <- E; discriminate|exact IH]. }
  destruct (agree_targets b b' _ _ (fpreorder (olist (sp_children s'))) HO F) as (os' & F1 & F2); [exact (HS HF)|].
  eexists. split; [exists (fpreorder (olist (sp_children s'))), os'; split; [apply fpreorder_document_order|]; split; [exact F1|reflexivity]|].
  cbn [fst snd]. split; [exact HN|]. clear - F2. induction F2 as [|o o' l l' H _ IH]; [constructor|]. cbn [map]. constructor; [apply agree_table, H|exact IH].
Qed.
Theorem agree_shows b b' p : agree b b' -> shows repr_list b p -> exists p', shows repr_list b' p' /\ similar_page T N R p p'.
Proof.
  intros (HH & HC) (EH & SC). destruct p as [ph pc]. cbn [pg_header pg_content] in EH, SC. subst ph.
  assert (X : exists pc', match b_core_content b' with
     | None => pc' = None
     | Some None => pc' = Some None
     | Some (Some c) =>
         exists ds ss sps l,
           rc_data_types c = Some ds /\ rc_spec_types c = Some ss /\ rc_specifications c = Some sps
           /\ Forall2 (shows_specification repr_list b') sps l
           /\ pc' = Some (Some (map dt_id ds, map st_identifier ss, l))
     end /\ match pc, pc' with
     | Some (Some (data_types, types, l)), Some (Some (data_types', types', l')) =>
         data_types' = data_types /\ types' = types
         /\ Forall2 (fun s s' => N (fst s) (fst s') /\ Forall2 (similar_table R) (snd s) (snd s')) l l'
     | Some None, Some None | None, None => True
     | _, _ => False
     end).
  { destruct (b_core_content b) as [[c|]|] eqn:EC, (b_core_content b') as [[c'|]|] eqn:EC'; cbn [both] in HC; try contradiction.
    - destruct SC as (ds & ss & sps & l & E1 & E2 & E3 & F & ->). destruct HC as (H1 & H2 & H3 & H4). rewrite E1 in H1. rewrite E2 in H2. rewrite E3 in H4.
      destruct (rc_data_types c') as [ds'|]; [|contradiction]. destruct (rc_spec_types c') as [ss'|]; [|contradiction].
      destruct (rc_specifications c') as [sps'|]; [|contradiction]. cbn [both] in H1, H2, H4.
      assert (HO : Forall2 agree_object (spec_objects_of b) (spec_objects_of b')).
      { unfold spec_objects_of, b_list, bundle_content. rewrite EC, EC'. destruct (rc_spec_objects c), (rc_spec_objects c'); try contradiction; [exact H3|constructor]. }
      assert (L : exists l', Forall2 (shows_specification repr_list b') sps' l'
                  /\ Forall2 (fun s s' => N (fst s) (fst s') /\ Forall2 (similar_table R) (snd s) (snd s')) l l').
      { clear - H4 F HO. revert sps' H4. induction F as [|s x sps l HS _ IH]; intros sps' H4; inversion H4 as [|? s' ? sps2 HA H5]; subst; [exists []; split; constructor|].
        destruct (IH _ H5) as (l' & F1 & F2). destruct (agree_section b b' s s' x HO HA HS) as (x' & S1 & S2).
        exists (x' :: l'). split; constructor; assumption. }
      destruct L as (l' & F1 & F2). exists (Some (Some (map dt_id ds', map st_identifier ss', l'))).
      split; [exists ds', ss', sps', l'; repeat split; try reflexivity; exact F1|]. split; [exact H1|]. split; [exact H2|exact F2].
    - subst pc. exists (Some None). split; [reflexivity|exact I].
    - subst pc. exists None. split; [reflexivity|exact I]. }
  destruct X as (pc' & X1 & X2).
  exists (Page (option_map (fun h => (fmt (hd_title h), fmt (hd_creation_time h))) (b_header b')) pc').
  split; [split; [reflexivity|exact X1]|]. split; [|exact X2]. cbn [pg_header].
  destruct (b_header b), (b_header b'); cbn [both option_map] in *; try contradiction; [exact HH|exact I].
Qed.
End Agree.
Lemma agree_dump repr_list T N R z z' b b' html : parse_string z = Ok b -> parse_string z' = Ok b' -> agree repr_list T N R b b' ->
  dump_html repr_list b = Ok html ->
  exists p p', html = show_page p /\ shows repr_list b p /\ dump_html repr_list b' = Ok (show_page p') /\ similar_page T N R p p'.
Proof.
  intros P P' A D. apply (C48_page_shows_the_document repr_list z b html P) in D. destruct D as (p & S & ->).
  destruct (agree_shows repr_list T N R b b' p A S) as (p' & S' & M). exists p, p'. split; [reflexivity|]. split; [exact S|]. split; [|exact M].
  apply (C48_page_shows_the_document repr_list z' b' _ P'). eauto.
Qed.
Lemma similar_eq p p' : similar_page eq eq eq p p' -> p' = p.
Proof.
  assert (FE : forall A (l l' : list A), Forall2 eq l l' -> l' = l).
  { intros A l l' F. induction F as [|x y l l' -> _ ->]; reflexivity. }
  assert (TE : forall t t', similar_table eq t t' -> t' = t).
  { intros [a1 a2 a3] [b1 b2 b3] (E1 & E2 & F). cbn in E1, E2, F. rewrite (FE _ _ _ F), E1, E2. reflexivity. }
  destruct p as [h c], p' as [h' c']. unfold similar_page. cbn [pg_header pg_content]. intros (H & C). f_equal.
  - destruct h as [[? ?]|], h' as [[? ?]|]; try contradiction; [|reflexivity]. destruct H as (-> & ->). reflexivity.
  - destruct c as [[[[? ?] l]|]|], c' as [[[[? ?] l']|]|]; try contradiction; try reflexivity. destruct C as (-> & -> & F). do 3 f_equal.
    apply FE. revert F. apply Forall2_mono. intros [n ts] [n' ts'] _ _ (E & F). cbn [fst snd] in E, F. subst n'. f_equal. symmetry. apply FE.
    revert F. apply Forall2_mono. intros t t' _ _ HT. symmetry. apply TE, HT.
Qed.

(** ** Three commands *)
Lemma both_lists {A B} (f g : A -> B) (P : A -> A -> Prop) o o' :
  option_map (map f) o = option_map (map g) o' -> (forall x y, In x (olist o) -> f x = g y -> P x y) -> both (Forall2 P) o o'.
Proof.
  intros E H. destruct o as [l|], o' as [l'|]; try discriminate; [|exact I]. cbn [option_map] in E. cbn [both].
  apply (Forall2_mono (fun x y => f x = g y)); [intros x y Hx _; apply H, Hx|]. apply map_eq_Forall2. congruence.
Qed.
Lemma both_keys {A K} (k : A -> K) o o' : both (Forall2 (fun x y => k y = k x)) o o' -> both (fun l l' => map k l' = map k l) o o'.
Proof. destruct o, o'; cbn [both]; try contradiction; [apply Forall2_map_eq|auto]. Qed.
Lemma fmt_spelled o : fmt (spelled o) = fmt o.
Proof. destruct o; reflexivity. Qed.
Lemma normal_type_identifier t : st_identifier (normal_spec_type t) = st_identifier t.
Proof. destruct t; reflexivity. Qed.
Lemma normal_data_identifier d : dt_id (normal_data_type d) = dt_id d.
Proof. destruct d; reflexivity. Qed.
Lemma erase_type_identifier t : st_identifier (erase_spec_type t) = st_identifier t.
Proof. destruct t; reflexivity. Qed.
Lemma squeeze_type_identifier t : st_identifier (squeeze_spec_type t) = st_identifier t.
Proof. destruct t; reflexivity. Qed.
Lemma spell_type_identifier t : st_identifier (spell_spec_type t) = st_identifier t.
Proof. destruct t; reflexivity. Qed.
Lemma child_text_full t n : child_text t n <> Some [].
Proof.
  unfold child_text. destruct (find_child t n) as [x|] eqn:F; [|discriminate]. unfold find_child, find_list in F. apply find_some in F. destruct F as [_ F].
  destruct x as [c|ns l d i a k|s|s]; try discriminate F. cbn [text]. unfold opt_text. destruct (lead k); discriminate.
Qed.
Lemma parsed_header_texts s b h : parse_string s = Ok b -> b_header b = Some h -> hd_title h <> Some [] /\ hd_creation_time h <> Some [].
Proof.
  intros H Hh. rewrite (proj2 (string_traced s)) in H. unfold pure_string in H.
  assert (K : forall hn h0, parse_header hn = Ok h0 -> hd_title h0 <> Some [] /\ hd_creation_time h0 <> Some []).
  { intros hn h0. unfold parse_header. destruct (py_assert _); [|discriminate]. cbn [bind]. destruct (find_child _ hn) as [n|]; [|discriminate].
    destruct (or_not_impl _) as [i|]; [|discriminate]. cbn [bind]. intros E. apply Ok_inj in E. subst h0. cbn [hd_title hd_creation_time].
    split; apply child_text_full. }
  destruct s as [|x s]; [discriminate|]. destruct (lxml_parse (x :: s)) as [[decl root]|]; [|discriminate].
  unfold pure_reqif in H. destruct (strip_if_namespaced root) as [r|e]; [|discriminate]. cbn [bind] in H.
  destruct (tag_is "REQ-IF" r); [|discriminate]. cbn [negb] in H. destruct (children r) as [|k0 ks].
  { apply Ok_inj in H. subst b. discriminate Hh. }
  destruct (find_child "THE-HEADER" r) as [hn|]; cbn [bind] in H.
  - destruct (parse_header hn) as [h0|e] eqn:EH; [|discriminate]. cbn [bind] in H.
    assert (h0 = h); [|subst h0; apply (K _ _ EH)].
    destruct (find_child "CORE-CONTENT" r) as [cc|]; [destruct (find_child "REQ-IF-CONTENT" cc) as [rc|]; [destruct (pure_content rc) as [[[ct lk] xs]|e]; [|discriminate]|]|];
      cbn [bind] in H; apply Ok_inj in H; subst b; cbn [b_header] in Hh; congruence.
  - exfalso. destruct (find_child "CORE-CONTENT" r) as [cc|]; [destruct (find_child "REQ-IF-CONTENT" cc) as [rc|]; [destruct (pure_content rc) as [[[ct lk] xs]|e]; [|discriminate]|]|];
      cbn [bind] in H; apply Ok_inj in H; subst b; cbn [b_header] in Hh; congruence.
Qed.
Lemma fmt_drop o : o <> Some [] -> fmt (drop_empty o) = fmt o.
Proof. destruct o as [[|c s]|]; [congruence|reflexivity..]. Qed.
Lemma spelled_filled l : Forall (fun r : option str => r <> None) l -> map spelled l = l.
Proof. intros F. induction F as [|[x|] l H _ IH]; [reflexivity| |congruence]. cbn [map]. rewrite IH. reflexivity. Qed.
Lemma in_content {A} (f : Models.content -> option (list A)) b c x : b_core_content b = Some (Some c) -> In x (olist (f c)) -> In x (b_list f b).
Proof. unfold b_list, bundle_content. intros ->. auto. Qed.

Lemma rewritten_agree repr_list z strip tg b b' : parse_string z = Ok b -> enumerations_filled b -> reads_back_as strip tg (spell_bundle b) b' ->
  agree repr_list eq eq eq b b'.
Proof.
  intros P EF (_ & HH & HC & _). split.
  - rewrite HH. change (b_header (spell_bundle b)) with (b_header b). destruct (b_header b) as [h|] eqn:E; [|exact I]. cbn [option_map both normal_header hd_title hd_creation_time].
    destruct (parsed_header_texts z b h P E) as (H1 & H2). rewrite !fmt_drop by assumption. auto.
  - unfold spell_bundle in HC. cbn [b_core_content] in HC.
    destruct (b_core_content b) as [[c|]|] eqn:EC, (b_core_content b') as [[c'|]|]; try discriminate; try exact I.
    cbn [option_map] in HC. assert (E : normal_content strip (spell_content c) = erase_content c') by congruence. cbn [both].
    assert (ML : forall A (f g : A -> A) o, map_list f (map_list g o) = map_list (fun x => f (g x)) o).
    { intros A f g [l|]; cbn; [rewrite map_map|]; reflexivity. }
    split; [|split; [|split]].
    + apply both_keys. apply (f_equal rc_data_types) in E. cbn in E. rewrite ML in E. apply (both_lists _ _ _ _ _ E).
      intros x y _ EX. rewrite <- EX. apply normal_data_identifier.
    + apply both_keys. apply (f_equal rc_spec_types) in E. cbn in E. rewrite ML in E. apply (both_lists _ _ _ _ _ E).
      intros x y _ EX. rewrite <- (erase_type_identifier y), <- EX. rewrite normal_type_identifier. apply spell_type_identifier.
    + apply (f_equal rc_spec_objects) in E. cbn in E. rewrite ML in E. apply (both_lists _ _ _ _ _ E).
      intros o o' Ho EX. assert (IO : In o (spec_objects_of b)) by (apply (in_content rc_spec_objects b c); assumption).
      pose proof (f_equal so_identifier EX) as E1. pose proof (f_equal so_spec_object_type EX) as E2. pose proof (f_equal so_attributes EX) as E3.
      cbn [normal_spec_object erase_spec_object spell_spec_object so_identifier so_spec_object_type so_attributes] in E1, E2, E3.
      split; [congruence|]. split; [rewrite <- E2; apply fmt_spelled|]. rewrite map_map in E3. apply map_eq_Forall2 in E3.
      revert E3. apply Forall2_mono. intros a a' Ha _ EA.
      pose proof (f_equal sa_definition_ref EA) as A1. pose proof (f_equal sa_value EA) as A2.
      cbn [normal_value erase_value spell_value sa_definition_ref sa_value] in A1, A2. unfold value_row. rewrite <- A1, <- A2, fmt_spelled. f_equal.
      destruct (sa_value a) as [v|l] eqn:EV; [reflexivity|]. rewrite spelled_filled; [reflexivity|]. apply Forall_forall. intros r Hr ->.
      apply (EF a l); [exists o; split; assumption|exact EV|exact Hr].
    + apply (f_equal rc_specifications) in E. cbn in E. rewrite ML in E. apply (both_lists _ _ _ _ _ E).
      intros s s' _ EX. split; [pose proof (f_equal sp_long_name EX) as E1; cbn in E1; congruence|].
      intros F. rewrite <- (erase_sp_nodes s'), <- EX, normal_sp_nodes, spell_sp_nodes. apply spelled_filled, F.
Qed.

Lemma formatted_agree repr_list b b' : same_bundle (squeeze_bundle (SpecLayout.declared b)) (squeeze_bundle b') ->
  agree repr_list eq eq (formatted_row repr_list b) b b'.
Proof.
  intros (_ & HH & HC & _). split.
  - change (b_header b = b_header b') in HH. rewrite <- HH. destruct (b_header b); [cbn [both]; auto|exact I].
  - unfold squeeze_bundle, SpecLayout.declared in HC. cbn [b_core_content] in HC.
    destruct (b_core_content b) as [[c|]|] eqn:EC, (b_core_content b') as [[c'|]|]; try discriminate; try exact I.
    cbn [option_map] in HC. assert (E : erase_content (squeeze_content c) = erase_content (squeeze_content c')) by congruence. cbn [both].
    assert (ML : forall A (f g : A -> A) o, map_list f (map_list g o) = map_list (fun x => f (g x)) o).
    { intros A f g [l|]; cbn; [rewrite map_map|]; reflexivity. }
    split; [|split; [|split]].
    + apply both_keys. apply (f_equal rc_data_types) in E. cbn in E. rewrite !ML in E. apply (both_lists _ _ _ _ _ E). congruence.
    + apply both_keys. apply (f_equal rc_spec_types) in E. cbn in E. rewrite !ML in E. apply (both_lists _ _ _ _ _ E).
      intros x y _ EX. apply (f_equal st_identifier) in EX. cbv beta in EX. rewrite !erase_type_identifier, !squeeze_type_identifier in EX. congruence.
    + apply (f_equal rc_spec_objects) in E. cbn in E. rewrite !ML in E. apply (both_lists _ _ _ _ _ E).
      intros o o' Ho EX. assert (IO : In o (spec_objects_of b)) by (apply (in_content rc_spec_objects b c); assumption).
      pose proof (f_equal so_identifier EX) as E1. pose proof (f_equal so_spec_object_type EX) as E2. pose proof (f_equal so_attributes EX) as E3.
      cbn [squeeze_spec_object erase_spec_object so_identifier so_spec_object_type so_attributes] in E1, E2, E3.
      split; [congruence|]. split; [congruence|]. rewrite !map_map in E3. apply map_eq_Forall2 in E3.
      revert E3. apply Forall2_mono. intros a a' Ha _ EA.
      pose proof (f_equal sa_type EA) as A0. pose proof (f_equal sa_definition_ref EA) as A1. pose proof (f_equal sa_value EA) as A2.
      cbn [erase_value sa_definition_ref sa_value sa_type] in A0, A1, A2.
      assert (ST : forall x, sa_type (squeeze_value x) = sa_type x) by (intros x; unfold squeeze_value; destruct (sa_type x) eqn:EE; cbn; congruence).
      assert (SD : forall x, sa_definition_ref (squeeze_value x) = sa_definition_ref x) by (intros x; unfold squeeze_value; destruct (sa_type x); reflexivity).
      rewrite !ST in A0. rewrite !SD in A1. exists a. split; [exists o; split; assumption|]. split; [reflexivity|]. cbn [value_row fst snd].
      split; [rewrite A1; reflexivity|]. unfold squeeze_value in A2. rewrite <- A0 in A2.
      destruct (sa_type a); cbn [sa_value] in A2; try (rewrite A2; reflexivity).
      destruct (sa_value a), (sa_value a'); congruence.
    + apply (f_equal rc_specifications) in E. cbn in E. rewrite !ML in E. apply (both_lists _ _ _ _ _ E).
      intros s s' _ EX. split; [pose proof (f_equal sp_long_name EX) as E1; cbn in E1; congruence|].
      intros _. apply (f_equal sp_nodes) in EX. cbv beta in EX. rewrite !erase_sp_nodes in EX. symmetry. exact EX.
Qed.

Lemma both_mono {A} (P Q : A -> A -> Prop) o o' : (forall x y, P x y -> Q x y) -> both P o o' -> both Q o o'.
Proof. destruct o, o'; cbn; auto. Qed.
Lemma both_in {A} (P Q : A -> A -> Prop) o o' : (forall x y, In x (olist o) -> P x y -> Q x y) -> both (Forall2 P) o o' -> both (Forall2 Q) o o'.
Proof. destruct o as [l|], o' as [l'|]; cbn [both olist]; auto. intros H. apply Forall2_mono. intros x y Hx _. apply H, Hx. Qed.
Lemma both_hidden sha o o' : both (digest sha) o o' -> hidden_text sha o (fmt o').
Proof. destruct o, o'; cbn [both hidden_text fmt]; try contradiction; auto. Qed.
Lemma hidden_agree repr_list sha b b' : hidden_bundle sha (SpecLayout.declared b) b' ->
  agree repr_list (hidden_title b sha) (hidden_name b sha) (hidden_row repr_list b sha) b b'.
Proof.
  intros (_ & HH & HC & _). change (b_header (SpecLayout.declared b)) with (b_header b) in HH. change (b_core_content (SpecLayout.declared b)) with (b_core_content b) in HC.
  split.
  - destruct (b_header b) as [h|] eqn:E, (b_header b') as [h'|]; try contradiction; [|exact I]. destruct HH as (_ & _ & E1 & _ & _ & _ & _ & E2).
    cbn [both]. split; [|congruence]. exists h. split; [exact E|]. split; [reflexivity|]. apply both_hidden, E2.
  - destruct (b_core_content b) as [[c|]|] eqn:EC, (b_core_content b') as [[c'|]|]; try contradiction; try exact I.
    destruct HC as (H1 & H2 & H3 & _ & H4 & _). cbn [both]. split; [|split; [|split]].
    + rewrite H1. destruct (rc_data_types c); [reflexivity|exact I].
    + apply both_keys. revert H2. apply both_in. intros x y _ HT. destruct x, y; try contradiction; destruct HT as (E & _); exact E.
    + revert H3. apply both_in. intros o o' Ho (E1 & E2 & _ & _ & _ & F). assert (IO : In o (spec_objects_of b)) by (apply (in_content rc_spec_objects b c); assumption).
      split; [exact E1|]. split; [rewrite E2; reflexivity|]. revert F. apply Forall2_mono. intros a a' Ha _ (A0 & A1 & A2).
      exists a. split; [exists o; split; assumption|]. split; [reflexivity|]. cbn [value_row fst snd]. split; [rewrite A1; reflexivity|].
      destruct (sa_type a); try (destruct A2 as (-> & _); reflexivity).
      * destruct A2 as (u & v & -> & -> & D & _). exact D.
      * destruct A2 as (u & v & -> & _ & D). exists u. exact D.
    + revert H4. apply both_in. intros s s' Hs (_ & _ & _ & N1 & N2 & _ & _ & E). split.
      * exists s. split; [apply (in_content rc_specifications b c); assumption|]. split; [reflexivity|]. split.
        -- intros K. apply both_hidden, N1, K.
        -- intros K. rewrite (N2 K). reflexivity.
      * intros _. rewrite <- (erase_sp_nodes s'), <- (erase_sp_nodes s). unfold sp_nodes. cbn [sp_children erase_specification]. rewrite E. reflexivity.
Qed.

(** ** Texts that can be written in UTF-8 *)
Definition ok (s : str) : Prop := forallb is_scalar s = true.
Lemma ok_app a b : ok (a ++ b) <-> ok a /\ ok b.
Proof. unfold ok. rewrite forallb_app. apply andb_true_iff. Qed.
Lemma ok_flat_map {A} (f : A -> str) l : ok (flat_map f l) <-> Forall (fun x => ok (f x)) l.
Proof.
  induction l as [|x l IH]; [split; [constructor|reflexivity]|]. cbn [flat_map]. rewrite ok_app, IH. split.
  - intros [H1 H2]. constructor; assumption.
  - intros H. inversion H; subst. auto.
Qed.
Lemma ok_encode s : ok s <-> exists d, utf8_encode s = Some d.
Proof. unfold ok, utf8_encode. destruct (forallb is_scalar s); split; eauto; [discriminate|]. intros (d & H). discriminate. Qed.
Lemma space_scalar c : py_space c = true -> is_scalar c = true.
Proof.
  unfold py_space, is_scalar. rewrite !orb_true_iff, !andb_true_iff, !N.eqb_eq, !N.leb_le, N.ltb_lt. lia.
Qed.
Lemma untab_ok k s : ok (untab k s) <-> ok (skipn k s).
Proof.
  unfold ok. assert (E : forall n s k, length s < n -> forallb is_scalar (untab k s) = forallb is_scalar (skipn k s)).
  { intros n. induction n as [|n IH]; [lia|]. intros u j L. destruct u as [|c u], j as [|j]; try reflexivity.
    - cbn [untab skipn]. cbn [length] in L. destruct (starts_with "&#9;" (c :: u)) eqn:S.
      + rewrite IH by lia. destruct u as [|c1 [|c2 [|c3 u]]]; cbn -[N.eqb] in S; repeat (apply andb_true_iff in S; destruct S as [? S]); try discriminate.
        repeat match goal with H : N.eqb _ _ = true |- _ => apply N.eqb_eq in H end. subst. reflexivity.
      + cbn [forallb]. rewrite (IH u 0) by lia. reflexivity.
    - cbn [untab skipn]. apply IH. cbn [length] in L. lia. }
  rewrite (E (S (length s)) s k) by lia. reflexivity.
Qed.
Lemma squeeze_ok s : ok (squeeze s) <-> ok s.
Proof.
  unfold squeeze. rewrite untab_ok. cbn [skipn]. unfold ok. induction s as [|c s IH]; [reflexivity|]. cbn [filter forallb].
  destruct (py_space c) eqn:E; cbn [negb forallb]; rewrite ?andb_true_iff, <- IH, ?andb_true_iff; [|reflexivity].
  pose proof (space_scalar c E). tauto.
Qed.
Lemma digest_ok sha s s' : digest sha s s' -> ok s'.
Proof.
  intros (x & _ & ->). rewrite !ok_app. split; [reflexivity|]. split; [|reflexivity].
  destruct (IntProofs.str_of_N_digits (sha x mod 10000000000)) as (w & -> & _ & D & _). unfold ok. clear - D. induction w as [|c w IH]; [reflexivity|].
  cbn [forallb] in *. apply andb_true_iff in D. destruct D as [D1 D2]. rewrite IH by exact D2. rewrite andb_true_r.
  unfold is_digit in D1. unfold is_scalar. rewrite andb_true_iff, !N.leb_le in D1. rewrite orb_true_iff, N.ltb_lt. lia.
Qed.
Section Preserve.
Variables (T N : str -> str -> Prop) (R : str * str -> str * str -> Prop).
Hypothesis HT : forall s s', T s s' -> ok s -> ok s'.
Hypothesis HN : forall s s', N s s' -> ok s -> ok s'.
Hypothesis HR : forall r r', R r r' -> ok (fst r) /\ ok (snd r) -> ok (fst r') /\ ok (snd r').
Lemma Forall_along {A} (P Q : A -> Prop) (S : A -> A -> Prop) l l' :
  (forall x y, S x y -> P x -> Q y) -> Forall2 S l l' -> Forall P l -> Forall Q l'.
Proof. intros H F. induction F as [|x y l l' HS _ IH]; intros HF; [constructor|]. inversion HF; subst. constructor; eauto. Qed.
Lemma table_ok t t' : similar_table R t t' -> ok (show_table t) -> ok (show_table t').
Proof.
  intros (E1 & E2 & F). unfold show_table. rewrite !ok_app, !ok_flat_map, E1, E2. intros H. decompose [and] H. repeat split; try assumption.
  match goal with X : Forall _ _ |- _ => refine (Forall_along _ _ _ _ _ _ F X) end. intros r r' HRr. rewrite !ok_app. pose proof (HR r r' HRr). tauto.
Qed.
Lemma section_ok s s' : N (fst s) (fst s') /\ Forall2 (similar_table R) (snd s) (snd s') -> ok (show_specification s) -> ok (show_specification s').
Proof.
  intros (E & F). unfold show_specification. rewrite !ok_app, !ok_flat_map. intros H. decompose [and] H. repeat split; try assumption; [eapply HN; [exact E|assumption]|].
  match goal with X : Forall _ _ |- _ => refine (Forall_along _ _ _ _ _ _ F X) end. apply table_ok.
Qed.
Lemma page_ok p p' : similar_page T N R p p' -> ok (show_page p) -> ok (show_page p').
Proof.
  destruct p as [h c], p' as [h' c']. unfold similar_page, show_page. cbn [pg_header pg_content]. intros (H & C).
  destruct h as [[a1 a2]|], h' as [[b1 b2]|]; try contradiction; [destruct H as (H & ->); pose proof (HT _ _ H) as HTT|];
  destruct c as [[[[? ?] l]|]|], c' as [[[[? ?] l']|]|]; try contradiction; try (destruct C as (-> & -> & F));
    rewrite ?ok_app, ?ok_flat_map; try tauto; intros X; decompose [and] X; repeat split; try assumption; try (apply HTT; assumption);
    (eapply Forall_along; [apply section_ok|exact F|assumption]).
Qed.
End Preserve.

(** ** The commands *)
Lemma dump_run t s cwd i h : ended (perform t s cwd (RDump i h)) = Exit 0 <->
  fs_can_write s h = true /\ exists b html d, snd (parse_file None (fs_file s i) []) = Ok b /\ dump_html (t_repr_list t) b = Ok html /\ utf8_encode html = Some d.
Proof.
  cbn [perform]. unfold dump, write_text. destruct (snd (parse_file None (fs_file s i) [])) as [b|e]; cbn [bind].
  - destruct (dump_html (t_repr_list t) b) as [html|e] eqn:D.
    + destruct (fs_can_write s h); [|split; [discriminate|intros (X & _); discriminate]].
      destruct (utf8_encode html) as [d|] eqn:E.
      * split; [|reflexivity]. intros _. split; [reflexivity|]. exists b, html, d. auto.
      * split; [discriminate|]. intros (_ & b0 & h0 & d & E1 & E2 & E3). assert (b0 = b) by congruence. subst b0. assert (h0 = html) by congruence. congruence.
    + split; [discriminate|]. intros (_ & b0 & h0 & d & E1 & E2 & E3). assert (b0 = b) by congruence. subst b0. congruence.
  - split; [discriminate|]. intros (_ & b0 & h0 & d & E1 & _). congruence.
Qed.
Lemma file_bundle o b : snd (parse_file None o []) = Ok b -> exists z, parse_string z = Ok b.
Proof.
  destruct o as [raw|]; [|discriminate]. cbn [parse_file]. destruct (utf8_decode raw) as [z|]; [|discriminate]. intros H. exists (universal_newlines z). exact H.
Qed.
Lemma dump_pair t (T N : str -> str -> Prop) (R : str * str -> str * str -> Prop) s1 cwd1 s2 cwd2 i o h h' b b' :
  (forall s s', T s s' -> ok s -> ok s') -> (forall s s', N s s' -> ok s -> ok s') ->
  (forall r r', R r r' -> ok (fst r) /\ ok (snd r) -> ok (fst r') /\ ok (snd r')) ->
  snd (parse_file None (fs_file s1 i) []) = Ok b -> snd (parse_file None (fs_file s2 o) []) = Ok b' ->
  agree (t_repr_list t) T N R b b' ->
  let d := perform t s1 cwd1 (RDump i h) in let d' := perform t s2 cwd2 (RDump o h') in
  ended d = Exit 0 -> fs_can_write s2 h' = true ->
  ended d' = Exit 0 /\ exists p p', fs_file (final s1 d) h = utf8_encode (show_page p) /\ fs_file (final s2 d') h' = utf8_encode (show_page p')
    /\ shows (t_repr_list t) b p /\ similar_page T N R p p'.
Proof.
  intros HT HN HR P1 P2 A d d' EN W. pose proof EN as EN1. apply dump_run in EN1. destruct EN1 as (_ & b0 & html & x & Q1 & Q2 & Q3).
  assert (b0 = b) by congruence. subst b0.
  destruct (file_bundle _ _ P1) as (z & Z1). destruct (file_bundle _ _ P2) as (z' & Z2).
  destruct (agree_dump (t_repr_list t) T N R z z' b b' html Z1 Z2 A Q2) as (p & p' & -> & S & D' & M).
  assert (K : ok (show_page p')) by (eapply page_ok; [exact HT|exact HN|exact HR|exact M|]; apply ok_encode; eauto).
  apply ok_encode in K. destruct K as (x' & K). assert (EN' : ended d' = Exit 0) by (apply dump_run; split; [exact W|]; exists b', (show_page p'), x'; auto).
  split; [exact EN'|]. exists p, p'.
  destruct (C41_output_file t s1 cwd1 (RDump i h) h eq_refl EN) as (y & N1 & F1 & _).
  destruct (C41_output_file t s2 cwd2 (RDump o h') h' eq_refl EN') as (y' & N2 & F2 & _).
  fold d in F1. fold d' in F2. cbn [new_content] in N1, N2. rewrite P1, Q2 in N1. rewrite P2, D' in N2.
  split; [congruence|]. split; [congruence|]. split; [exact S|exact M].
Qed.

(** The page of a file that passthrough wrote is the page of its input. *)
Theorem C81_after_passthrough :
  forall t s cwd i o raw text b tg p u s1 cwd1 s2 cwd2 h h',
    fs_file s i = Some raw -> ends_with ".reqifz" i = false -> utf8_decode raw = Some text -> parse_string text = Ok b ->
    plain_bundle tg p u b -> enumerations_filled b ->
    let r := perform t s cwd (RPassthrough i o) in
    ended r = Exit 0 -> fs_file s1 i = fs_file s i -> fs_file s2 o = fs_file (final s r) o ->
    let d := perform t s1 cwd1 (RDump i h) in let d' := perform t s2 cwd2 (RDump o h') in
    ended d = Exit 0 -> fs_can_write s2 h' = true ->
    ended d' = Exit 0 /\ fs_file (final s2 d') h' = fs_file (final s1 d) h.
Proof.
  intros t s cwd i o raw text b tg p u s1 cwd1 s2 cwd2 h h' HF HZ HD HB HP EF r EN FI FO d d' EN1 W.
  assert (EU : forall x, parse_string (universal_newlines x) = parse_string x) by (intros x; unfold parse_string; rewrite parse_from_string_un; reflexivity).
  destruct (C41_output_file t s cwd (RPassthrough i o) o eq_refl EN) as (out & N & F & _). fold r in F. cbn [new_content] in N. rewrite HF, HZ in N.
  unfold passthrough_reqif in N. rewrite HD, EU, HB in N. cbn [bind] in N. destruct (unparse_string b) as [tx|] eqn:ET; [|discriminate]. cbn [bind] in N.
  destruct (utf8_encode tx) as [x|] eqn:EE; [|discriminate]. assert (x = out) by congruence. subst x.
  destruct (C49_second_pass_changes_nothing tg p u text b tx HB HP ET) as (strip & b' & _ & PO & RB & _).
  assert (P1 : snd (parse_file None (fs_file s1 i) []) = Ok b).
  { rewrite FI, HF. cbn [parse_file]. rewrite HD. fold (parse_string (universal_newlines text)). rewrite EU. exact HB. }
  assert (P2 : snd (parse_file None (fs_file s2 o) []) = Ok b').
  { rewrite FO, F. cbn [parse_file]. rewrite (decode_encode _ _ EE). fold (parse_string (universal_newlines tx)). rewrite EU. exact PO. }
  destruct (dump_pair t eq eq eq s1 cwd1 s2 cwd2 i o h h' b b') as (EN2 & q & q' & E1 & E2 & _ & M); try assumption; try congruence.
  - exact (rewritten_agree (t_repr_list t) text strip tg b b' HB EF RB).
  - fold d' in EN2, E2. fold d in E1. split; [exact EN2|]. rewrite E1, E2, (similar_eq _ _ M). reflexivity.
Qed.
(** The page of a formatted file, and of an anonymised file. *)
Theorem C81_after_format :
  forall t s cwd i o raw text decl root s1 cwd1 s2 cwd2 h h' b,
    fs_file s i = Some raw -> utf8_decode raw = Some text -> read_document text = Some (decl, root) -> in_utf8 decl ->
    portable true root -> Forall (portable true) (fst (surroundings text)) -> Forall (portable true) (snd (surroundings text)) ->
    tidy_root true root -> fs_can_write s o = true -> parse_string text = Ok b ->
    let r := perform t s cwd (RFormat i o) in
    fs_file s1 i = fs_file s i -> fs_file s2 o = fs_file (final s r) o ->
    let d := perform t s1 cwd1 (RDump i h) in let d' := perform t s2 cwd2 (RDump o h') in
    ended d = Exit 0 -> fs_can_write s2 h' = true ->
    ended d' = Exit 0
    /\ (exists p p', fs_file (final s1 d) h = utf8_encode (show_page p) /\ fs_file (final s2 d') h' = utf8_encode (show_page p')
          /\ shows (t_repr_list t) b p /\ similar_page eq eq (formatted_row (t_repr_list t) b) p p')
    /\ ((forall a, attribute_of b a -> sa_type a <> AT_XHTML) -> fs_file (final s2 d') h' = fs_file (final s1 d) h).
Proof.
  intros t s cwd i o raw text decl root s1 cwd1 s2 cwd2 h h' b HF HD HR HE P1 P2 P3 HT HW HB r FI FO d d' EN1 W.
  destruct (C62_format_command t s cwd i o raw text decl root None [] HF HD HR HE P1 P2 P3 HT HW) as (EN & _ & SR). fold r in EN, SR.
  assert (EU : forall x, parse_string (universal_newlines x) = parse_string x) by (intros x; unfold parse_string; rewrite parse_from_string_un; reflexivity).
  assert (Q1 : snd (parse_file None (fs_file s i) []) = Ok b).
  { rewrite HF. cbn [parse_file]. rewrite HD. fold (parse_string (universal_newlines text)). rewrite EU. exact HB. }
  rewrite Q1 in SR. destruct (snd (parse_file None (fs_file (final s r) o) [])) as [b'|e] eqn:Q2; [|contradiction]. cbn [same_result] in SR.
  rewrite <- FI in Q1. rewrite <- FO in Q2. pose proof (formatted_agree (t_repr_list t) b b' SR) as A.
  destruct (dump_pair t eq eq (formatted_row (t_repr_list t) b) s1 cwd1 s2 cwd2 i o h h' b b') as (EN2 & q & q' & E1 & E2 & S & M); try assumption; try congruence.
  { intros [x v] [x' v'] (a & _ & _ & F & V) (O1 & O2). cbn [fst snd] in *. subst x'. split; [exact O1|].
    destruct (sa_type a); try (rewrite V; exact O2). apply squeeze_ok. rewrite V. apply squeeze_ok, O2. }
  fold d' in EN2, E2. fold d in E1. split; [exact EN2|]. split; [exists q, q'; auto|]. intros NX.
  rewrite E1, E2. f_equal. f_equal. apply similar_eq. destruct M as (M1 & M2). split; [exact M1|].
  destruct (pg_content q) as [[[[x1 x2] l]|]|], (pg_content q') as [[[[y1 y2] l']|]|]; try contradiction; try exact I.
  destruct M2 as (M2 & M3 & F). split; [exact M2|]. split; [exact M3|]. revert F. apply Forall2_mono. intros x y _ _ (H1 & H2). split; [exact H1|].
  revert H2. apply Forall2_mono. intros v w _ _ (T1 & T2 & T3). split; [exact T1|]. split; [exact T2|]. revert T3. apply Forall2_mono.
  intros [k k2] [m m2] _ _ (a & IA & _ & F1 & F2). cbn [fst snd] in *. specialize (NX a IA). destruct (sa_type a); congruence.
Qed.
Theorem C81_after_anonymize :
  forall t s cwd i o raw text decl root uri b s1 cwd1 s2 cwd2 h h',
    fs_file s i = Some raw -> utf8_decode raw = Some text -> lxml_parse text = Some (decl, root) -> portable false root ->
    ns_get (node_nsmap root) None = Some uri -> one_namespace uri root -> orderly_root true root ->
    prefix_in_use root \/ no_xhtml_default root -> parse_string text = Ok b ->
    let r := perform t s cwd (RAnonymize i o) in
    ended r = Exit 0 -> fs_file s1 i = fs_file s i -> fs_file s2 o = fs_file (final s r) o ->
    let d := perform t s1 cwd1 (RDump i h) in let d' := perform t s2 cwd2 (RDump o h') in
    ended d = Exit 0 -> fs_can_write s2 h' = true ->
    ended d' = Exit 0
    /\ exists p p', fs_file (final s1 d) h = utf8_encode (show_page p) /\ fs_file (final s2 d') h' = utf8_encode (show_page p')
         /\ shows (t_repr_list t) b p
         /\ similar_page (hidden_title b (t_sha t)) (hidden_name b (t_sha t)) (hidden_row (t_repr_list t) b (t_sha t)) p p'.
Proof.
  intros t s cwd i o raw text decl root uri b s1 cwd1 s2 cwd2 h h' HF HD HL HP NS ON OR HU HB r EN FI FO d d' EN1 W.
  assert (EU : parse_from_string None (universal_newlines text) [] = parse_from_string None text []) by (rewrite parse_from_string_un; reflexivity).
  assert (EP : parse_file None (fs_file s i) [] = (fst (parse_file None (fs_file s i) []), Ok b)).
  { rewrite HF. cbn [parse_file]. rewrite HD, EU. unfold parse_string in HB. destruct (parse_from_string None text []); cbn in *; congruence. }
  destruct (C64_anonymize_command t s cwd i o None raw text decl root uri [] _ b HF HD HL HP NS ON OR HU EP EN) as (b' & EP' & HH). fold r in EP'.
  assert (HX : forall u u', hidden_text (t_sha t) u u' -> ok u').
  { intros [u|] u'; cbn [hidden_text]; [apply digest_ok|intros ->; reflexivity]. }
  apply (dump_pair t _ _ _ s1 cwd1 s2 cwd2 i o h h' b b'); try assumption.
  - intros x x' (hd & _ & _ & X) _. exact (HX _ _ X).
  - intros x x' (sp & _ & _ & X1 & X2) OX. destruct (sp_xml_node sp) as [n|] eqn:ES.
    + destruct (tag n) as [g|] eqn:EG; [destruct (str_eqb g "SPECIFICATION") eqn:EQ|].
      * apply HX with (u := sp_long_name sp), X1. exists n. split; [exact ES|]. apply str_eqb_eq in EQ. congruence.
      * rewrite X2; [exact OX|]. intros (n' & E1 & E2). assert (n' = n) by congruence. subst n'. assert (g = "SPECIFICATION") by congruence. subst g.
        rewrite str_eqb_refl in EQ. discriminate.
      * rewrite X2; [exact OX|]. intros (n' & E1 & E2). congruence.
    + rewrite X2; [exact OX|]. intros (n' & E1 & E2). congruence.
  - intros [x v] [x' v'] (a & _ & _ & F & V) (O1 & O2). cbn [fst snd] in *. subst x'. split; [exact O1|].
    destruct (sa_type a); try (rewrite V; exact O2); [exact (digest_ok _ _ _ V)|destruct V as (z & V); exact (digest_ok _ _ _ V)].
  - rewrite FI, EP. reflexivity.
  - rewrite FO, EP'. reflexivity.
  - apply hidden_agree, HH.
Qed.
Print Assumptions C81_after_passthrough.
Print Assumptions C81_after_format.
Print Assumptions C81_after_anonymize.
(** Examples, and cases where the page does change: Prop_SamePageCases.v *)
