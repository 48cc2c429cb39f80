(** Prop_Log.v -- C65: passthrough announces the children of a SPEC-OBJECT that it
    does not write *)
From Verif Require Import Base Xml Utf8 Lxml Py LxmlStr Models AttrDef DataType Header AttrValue SpecObj Hierarchy
  SpecTypes Progress Parser Unparser Log Validate Zip Commands SpecTraversal SpecProgress SpecLookup SpecParse SpecLog SpecCommands
  DictProofs ProgressProofs ParserProofs FaithProofs ParserErrors LineProofs Prop_Lookup Prop_Parser Prop_Commands Prop_Zip.

(** ** The objects of a bundle *)
Definition unwritten (t : option str) : bool := negb (ostr_eqb t (Some "VALUES") || ostr_eqb t (Some "TYPE")).
Lemma lost_tags n : lost_children n = filter unwritten (child_tags n).
Proof.
  unfold lost_children, child_tags. induction (children n) as [|k l IH]; [reflexivity|]. cbn [map filter].
  unfold written_child at 1, unwritten at 1, ostr_eqb at 1 2. destruct (tag k) as [t|] eqn:E.
  - destruct (str_eqb t "VALUES" || str_eqb t "TYPE"); cbn [negb map]; rewrite ?E, IH; reflexivity.
  - cbn [negb orb map]. rewrite E, IH. reflexivity.
Qed.
Lemma log_children_spec o l :
  match mapM (unparse_so_child o) l with
  | Ok _ => log_children o l = filter unwritten l
  | Raise _ => starts (log_children o l) (filter unwritten l)
  end.
Proof.
  induction l as [|t l IH]; [reflexivity|]. cbn [mapM log_children filter].
  assert (U : unwritten t = negb (ostr_eqb t (Some "VALUES") || ostr_eqb t (Some "TYPE"))) by reflexivity. rewrite U.
  destruct (ostr_eqb t (Some "VALUES") || ostr_eqb t (Some "TYPE")) eqn:E; cbn [negb].
  - destruct (unparse_so_child o t) as [x|e]; cbn [bind].
    + destruct (mapM (unparse_so_child o) l); exact IH.
    + eexists; reflexivity.
  - apply Bool.orb_false_iff in E as [E1 E2]. unfold unparse_so_child at 1. rewrite E1, E2. cbn [bind].
    destruct (mapM (unparse_so_child o) l); cbn [bind]; [rewrite IH; reflexivity|].
    destruct IH as (r & ->). exists r. reflexivity.
Qed.
Lemma tags_or_lost o :
  filter unwritten (tags_or (so_xml_node o) ["VALUES"; "TYPE"]) = lost_of_object o.
Proof. unfold lost_of_object, tags_or. destruct (so_xml_node o) as [n|]; [symmetry; apply lost_tags|reflexivity]. Qed.
Lemma log_object o :
  match unparse_spec_object o with
  | Ok _ => log_spec_object o = lost_of_object o
  | Raise _ => starts (log_spec_object o) (lost_of_object o)
  end.
Proof.
  unfold unparse_spec_object, log_spec_object. rewrite <- (tags_or_lost o).
  set (l := tags_or (so_xml_node o) ["VALUES"; "TYPE"]).
  destruct (ostr_mem (Some "VALUES") l); cbn [py_assert bind andb]; [|eexists; reflexivity].
  destruct (ostr_mem (Some "TYPE") l); cbn [py_assert bind andb]; [|eexists; reflexivity].
  pose proof (log_children_spec o l) as H. destruct (mapM (unparse_so_child o) l); exact H.
Qed.
Lemma log_objects l :
  match mapM unparse_spec_object l with
  | Ok _ => log_spec_objects l = flat_map lost_of_object l
  | Raise _ => starts (log_spec_objects l) (flat_map lost_of_object l)
  end.
Proof.
  induction l as [|o l IH]; [reflexivity|]. cbn [mapM log_spec_objects flat_map]. pose proof (log_object o) as H.
  destruct (unparse_spec_object o) as [x|e]; cbn [bind].
  - rewrite H. destruct (mapM unparse_spec_object l); cbn [bind]; [rewrite IH; reflexivity|].
    destruct IH as (r & ->). exists r. rewrite app_assoc. reflexivity.
  - destruct H as (r & ->). rewrite app_nil_r. exists (r ++ flat_map lost_of_object l). rewrite app_assoc. reflexivity.
Qed.
Lemma starts_nil {A} (l : list A) : starts [] l.
Proof. exists l. reflexivity. Qed.
Lemma starts_refl {A} (l : list A) : starts l l.
Proof. exists []. symmetry. apply app_nil_r. Qed.
Lemma section_mapM {A} t (f : A -> result str) l s :
  pure_unparse_section t f l = Ok s -> match l with Some l => exists x, mapM f l = Ok x | None => True end.
Proof.
  unfold pure_unparse_section. destruct l as [l|]; [|trivial]. destruct (mapM f l) as [x|]; [eauto|discriminate].
Qed.
Lemma log_starts b : starts (unparse_log b) (lost_of_bundle b).
Proof.
  unfold unparse_log, lost_of_bundle, b_list, bundle_content. destruct (b_core_content b) as [[c|]|]; try apply starts_nil.
  match goal with |- starts (if ?x then _ else _) _ => destruct x; [|apply starts_nil] end.
  unfold olist. destruct (rc_spec_objects c) as [l|]; [|apply starts_nil].
  pose proof (log_objects l) as H. destruct (mapM unparse_spec_object l); [rewrite H; apply starts_refl|exact H].
Qed.
Lemma log_complete b t : unparse_string b = Ok t -> unparse_log b = lost_of_bundle b.
Proof.
  intros H. rewrite (proj2 (unparse_traced b)) in H. unfold pure_unparse in H.
  unfold unparse_log, lost_of_bundle, b_list, bundle_content.
  destruct (unparse_namespace_info (b_namespace_info b)); [|discriminate]. cbn [bind goes_well andb] in *.
  destruct (match b_header b with None => Ok [] | Some h => unparse_header h end) as [hd|] eqn:EH; [|discriminate]. cbn [bind] in H.
  replace (match b_header b with None => true | Some h => goes_well (unparse_header h) end) with true
    by (destruct (b_header b) as [h|]; [rewrite EH|]; reflexivity). cbn [andb].
  destruct (b_core_content b) as [[c|]|]; [|reflexivity|reflexivity]. unfold pure_unparse_content in H.
  destruct (pure_unparse_section "DATATYPES" (fun d => Ok (unparse_data_type d)) (rc_data_types c)); [|discriminate]. cbn [bind] in H.
  destruct (pure_unparse_section "SPEC-TYPES" unparse_spec_type (rc_spec_types c)) eqn:E2; [|discriminate]. cbn [bind] in H.
  destruct (pure_unparse_section "SPEC-OBJECTS" unparse_spec_object (rc_spec_objects c)) eqn:E3; [|discriminate]. clear H.
  apply section_mapM in E2. apply section_mapM in E3.
  replace (match rc_spec_types c with None => true | Some l => goes_well (mapM unparse_spec_type l) end) with true
    by (destruct (rc_spec_types c); [destruct E2 as (x & ->)|]; reflexivity).
  unfold olist. destruct (rc_spec_objects c) as [l|]; [|reflexivity].
  pose proof (log_objects l) as H. destruct E3 as (x & E3). rewrite E3 in H. exact H.
Qed.

(** Whatever the bundle: writing it announces exactly the lost children, object by
    object, each in the order of the document; when it fails, the first ones. *)
Theorem C65_writing_announces_the_lost_children :
  forall b, match unparse_string b with
            | Ok _ => unparse_log b = lost_of_bundle b
            | Raise _ => starts (unparse_log b) (lost_of_bundle b)
            end.
Proof. intros b. destruct (unparse_string b) eqn:E; [exact (log_complete _ _ E)|apply log_starts]. Qed.

(** When writing fails: nothing is announced if something before the objects
    cannot be written; otherwise the lost children of all objects before the one
    that cannot be written, and possibly some of its own. *)
Lemma front_goes_well b c : b_core_content b = Some (Some c) ->
  goes_well (unparse_string (cut_before_objects b))
  = goes_well (unparse_namespace_info (b_namespace_info b))
    && match b_header b with None => true | Some h => goes_well (unparse_header h) end
    && match rc_spec_types c with None => true | Some l => goes_well (mapM unparse_spec_type l) end.
Proof.
  intros HC. rewrite (proj2 (unparse_traced _)). unfold pure_unparse. cbn [cut_before_objects b_namespace_info b_header b_core_content b_tool_extensions].
  rewrite HC. cbn [option_map]. destruct (unparse_namespace_info (b_namespace_info b)); [|reflexivity]. cbn [bind goes_well andb].
  assert (D : exists x, pure_unparse_section "DATATYPES" (fun d => Ok (unparse_data_type d)) (rc_data_types c) = Ok x).
  { unfold pure_unparse_section. destruct (rc_data_types c) as [l|]; [|eauto].
    assert (M : exists x, mapM (fun d => Ok (unparse_data_type d)) l = Ok x)
      by (induction l as [|d l (x & IH)]; [exists []; reflexivity|]; cbn [mapM bind]; rewrite IH; cbn [bind]; eauto).
    destruct M as (x & ->). cbn [bind]. eauto. }
  destruct D as (x & D).
  assert (B : goes_well (pure_unparse_content (Content (rc_data_types c) (rc_spec_types c) None None None None))
              = match rc_spec_types c with None => true | Some l => goes_well (mapM unparse_spec_type l) end).
  { unfold pure_unparse_content. cbn [rc_data_types rc_spec_types rc_spec_objects rc_spec_relations rc_specifications rc_spec_relation_groups].
    rewrite D. cbn [bind]. unfold pure_unparse_section at 1. destruct (rc_spec_types c) as [l|]; [|reflexivity].
    destruct (mapM unparse_spec_type l); reflexivity. }
  destruct (b_header b) as [h|]; [destruct (unparse_header h); [|reflexivity]|]; cbn [bind goes_well andb]; rewrite <- B;
    destruct (pure_unparse_content _); reflexivity.
Qed.
Theorem C65_nothing_is_announced_before_the_objects :
  forall b e, unparse_string (cut_before_objects b) = Raise e -> unparse_log b = [].
Proof.
  intros b e H. unfold unparse_log. destruct (b_core_content b) as [[c|]|] eqn:HC; [|reflexivity|reflexivity].
  rewrite <- (front_goes_well b c HC), H. reflexivity.
Qed.
Theorem C65_announcements_stop_at_the_object_that_fails :
  forall b c before o after t e,
    unparse_string (cut_before_objects b) = Ok t ->
    b_core_content b = Some (Some c) -> rc_spec_objects c = Some (before ++ o :: after) ->
    Forall (fun x => exists s, unparse_spec_object x = Ok s) before -> unparse_spec_object o = Raise e ->
    exists some, starts some (lost_of_object o) /\ unparse_log b = flat_map lost_of_object before ++ some.
Proof.
  intros b c before o after t e HF HC HO HB HE. unfold unparse_log. rewrite HC. rewrite <- (front_goes_well b c HC), HF, HO. cbn [goes_well].
  exists (log_spec_object o). split; [pose proof (log_object o) as H; rewrite HE in H; exact H|].
  clear HF HC HO. induction HB as [|x l (s & Hx) _ IH]; cbn [app flat_map log_spec_objects].
  - rewrite HE. apply app_nil_r.
  - rewrite Hx, IH. pose proof (log_object x) as H. rewrite Hx in H. rewrite H, app_assoc. reflexivity.
Qed.

(** They are what the written text does not depend on: another element with the
    same VALUES and TYPE children, in their order, gives the same text. *)
Theorem C65_lost_children_leave_no_trace :
  forall o n n', so_xml_node o = Some n ->
    map tag (filter written_child (children n)) = map tag (filter written_child (children n')) ->
    unparse_spec_object (SpecObject (so_identifier o) (so_attributes o) (so_spec_object_type o) (so_description o)
                           (so_last_change o) (so_long_name o) (Some n'))
    = unparse_spec_object o.
Proof.
  intros [i a ty d lc ln x] n n' E H. cbn in E. subst x. unfold unparse_spec_object.
  cbn [so_identifier so_attributes so_spec_object_type so_description so_last_change so_long_name so_xml_node tags_or].
  set (o1 := SpecObject i a ty d lc ln (Some n')). set (o2 := SpecObject i a ty d lc ln (Some n)).
  pose (kept := fun t => negb (unwritten t)).
  assert (K : forall x, map tag (filter written_child (children x)) = filter kept (child_tags x)).
  { intros x. unfold child_tags. induction (children x) as [|k l IH]; [reflexivity|]. cbn [map filter].
    unfold written_child at 1, kept at 1, unwritten at 1, ostr_eqb at 1 2. destruct (tag k) as [t|] eqn:ET; cbn [negb].
    - rewrite Bool.negb_involutive. destruct (str_eqb t "VALUES" || str_eqb t "TYPE"); cbn [map]; rewrite ?ET, IH; reflexivity.
    - exact IH. }
  rewrite !K in H.
  assert (M : forall t l, unwritten t = false -> ostr_mem t l = ostr_mem t (filter kept l)).
  { intros t l Ht. induction l as [|y l IH]; [reflexivity|]. cbn [filter]. unfold kept at 1.
    destruct (unwritten y) eqn:Y; cbn [negb].
    - cbn [ostr_mem existsb]. fold (ostr_mem t l). unfold ostr_mem in *. cbn [existsb]. rewrite IH.
      destruct (ostr_eqb_spec t y) as [Q|Q]; [|reflexivity]. exfalso. subst y. congruence.
    - unfold ostr_mem in *. cbn [existsb]. rewrite IH. reflexivity. }
  assert (B : forall l, match mapM (unparse_so_child o1) l, mapM (unparse_so_child o2) (filter kept l) with
                        | Ok x, Ok y => concat x = concat y | Raise x, Raise y => x = y | _, _ => False end).
  { intros l. induction l as [|t l IH]; [reflexivity|]. cbn [mapM filter]. assert (KT : kept t = negb (unwritten t)) by reflexivity. rewrite KT.
    assert (C : unparse_so_child o1 t = unparse_so_child o2 t) by reflexivity.
    destruct (unwritten t) eqn:U; cbn [negb].
    - replace (unparse_so_child o1 t) with (Ok (@nil N)).
      2:{ unfold unwritten in U. apply Bool.negb_true_iff, Bool.orb_false_iff in U as [U1 U2]. unfold unparse_so_child. rewrite U1, U2. reflexivity. }
      cbn [bind]. destruct (mapM (unparse_so_child o1) l), (mapM (unparse_so_child o2) (filter kept l)); cbn [bind concat app]; auto; try contradiction; try congruence.
    - cbn [mapM]. rewrite C. destruct (unparse_so_child o2 t); cbn [bind]; [|reflexivity].
      destruct (mapM (unparse_so_child o1) l), (mapM (unparse_so_child o2) (filter kept l)); cbn [bind concat]; auto. congruence. }
  assert (B' : forall l, match mapM (unparse_so_child o2) l, mapM (unparse_so_child o2) (filter kept l) with
                        | Ok x, Ok y => concat x = concat y | Raise x, Raise y => x = y | _, _ => False end) by exact B.
  rewrite !(M (Some "VALUES") (child_tags _)), !(M (Some "TYPE") (child_tags _)), H by reflexivity.
  destruct (ostr_mem (Some "VALUES") (filter kept (child_tags n'))); [|reflexivity].
  destruct (ostr_mem (Some "TYPE") (filter kept (child_tags n'))); [|reflexivity]. cbn [py_assert bind].
  specialize (B (child_tags n')). specialize (B' (child_tags n)). rewrite H in B'.
  destruct (mapM (unparse_so_child o1) (child_tags n')), (mapM (unparse_so_child o2) (child_tags n)),
    (mapM (unparse_so_child o2) (filter kept (child_tags n'))); cbn [bind]; try contradiction; congruence.
Qed.

(** ** Parsed documents *)
Lemma object_node n o : parse_spec_object n = Ok o -> so_xml_node o = Some n.
Proof. unfold parse_spec_object. intros H. inv_ok H. injection H as <-. reflexivity. Qed.
Lemma parsed_lost s b : parse_string s = Ok b -> lost_of_bundle b = flat_map lost_children (document_objects s).
Proof.
  intros H. unfold lost_of_bundle, b_list, document_objects. destruct (document_content s) as [rc|] eqn:EC.
  - destruct (parsed_content _ _ _ H EC) as (c & -> & F). pose proof (cf_so _ _ _ _ F) as S. unfold sec_facts in S.
    unfold section_items. destruct (find_child "SPEC-OBJECTS" rc) as [x|]; cbn [option_map].
    + destruct S as (l & -> & ol & HM & ->). cbn [olist]. revert ol HM.
      induction (children x) as [|k ks IH]; intros ol HM.
      * cbn in HM. injection HM as <-. reflexivity.
      * cbn [mapM] in HM. destruct (object_item k) as [y|] eqn:EY; [|discriminate]. cbn [bind] in HM.
        destruct (mapM object_item ks) as [ys|]; [|discriminate]. cbn [bind] in HM. injection HM as <-.
        specialize (IH ys eq_refl). unfold object_item in EY. unfold no_comments in *. cbn [filter].
        destruct (is_comment k); cbn [negb].
        -- injection EY as <-. cbn. exact IH.
        -- destruct (parse_spec_object k) as [o|] eqn:EO; [|discriminate]. cbn [bind] in EY. injection EY as <-.
           cbn [catSomes flat_map]. unfold lost_of_object at 1. rewrite (object_node _ _ EO), IH. reflexivity.
    + rewrite S. reflexivity.
  - destruct (C16_without_content_element _ _ H EC) as (-> & _). reflexivity.
Qed.
Theorem C65_document_losses_are_announced :
  forall s b, parse_string s = Ok b ->
    let lost := flat_map lost_children (document_objects s) in
    match unparse_string b with Ok _ => unparse_log b = lost | Raise _ => starts (unparse_log b) lost end.
Proof. intros s b H. cbn zeta. rewrite <- (parsed_lost s b H). apply C65_writing_announces_the_lost_children. Qed.

(** ** The command *)
(** A ReqIF file: when the output was written, the lost children were announced,
    one line each, and nothing else was printed. *)
Theorem C65_passthrough_announces_the_losses :
  forall t s cwd i o raw x,
    fs_file s i = Some raw -> ends_with ".reqifz" i = false -> utf8_decode raw = Some x ->
    ended (perform t s cwd (RPassthrough i o)) = Exit 0 ->
    said (perform t s cwd (RPassthrough i o))
    = map SUnknownChild (flat_map lost_children (document_objects x)).
Proof.
  intros t s cwd i o raw x HF HZ HD. cbn [perform]. unfold passthrough. rewrite HF.
  destruct (output_dir_missing s o); [discriminate|]. rewrite HZ. unfold passthrough_log. rewrite HZ, HD.
  unfold passthrough_reqif. rewrite HD.
  assert (EU : forall x, parse_string (universal_newlines x) = parse_string x)
    by (intros y; unfold parse_string; rewrite LineProofs.parse_from_string_un; reflexivity).
  rewrite EU. destruct (parse_string x) as [b|e] eqn:EP; [|discriminate]. cbn [bind].
  destruct (unparse_string b) as [txt|e] eqn:ET; [|discriminate]. cbn [bind].
  destruct (utf8_encode txt); [|discriminate]. unfold say_first, write_bytes. cbn [said ended].
  destruct (fs_can_write s o); [|discriminate]. intros _. cbn [said]. rewrite app_nil_r.
  rewrite (log_complete _ _ ET), (parsed_lost _ _ EP). reflexivity.
Qed.
(** Whether the command succeeds or not, it announces nothing that is not lost. *)
Theorem C65_passthrough_announces_nothing_else :
  forall t s cwd i o raw x e,
    fs_file s i = Some raw -> ends_with ".reqifz" i = false -> utf8_decode raw = Some x ->
    ended (perform t s cwd (RPassthrough i o)) = Uncaught e ->
    exists l, said (perform t s cwd (RPassthrough i o)) = map SUnknownChild l
              /\ starts l (flat_map lost_children (document_objects x)).
Proof.
  intros t s cwd i o raw x e HF HZ HD. cbn [perform]. unfold passthrough. rewrite HF.
  destruct (output_dir_missing s o); [discriminate|]. rewrite HZ. unfold passthrough_log. rewrite HZ, HD. unfold passthrough_reqif. rewrite HD.
  assert (EU : forall x, parse_string (universal_newlines x) = parse_string x)
    by (intros y; unfold parse_string; rewrite parse_from_string_un; reflexivity).
  rewrite EU. destruct (parse_string x) as [b|e'] eqn:EP.
  2:{ intros _. exists []. split; [reflexivity|apply starts_nil]. }
  cbn [bind]. intros _. exists (unparse_log b). split; [|rewrite <- (parsed_lost _ _ EP); apply log_starts].
  assert (W : forall d, said (write_bytes s o d) = []) by (intros d; unfold write_bytes; destruct (fs_can_write s o); reflexivity).
  unfold say_first. cbn [said]. destruct (unparse_string b); cbn [bind]; [destruct (utf8_encode _)|]; rewrite ?W; apply app_nil_r.
Qed.
(** An archive: the same for its ReqIF members, one after the other. *)
Lemma zip_log_complete l x : mapM entry l = Ok x -> zip_log l = flat_map (fun kb => lost_of_bundle (snd kb)) l.
Proof.
  revert x. induction l as [|[k b] l IH]; intros x H; [reflexivity|]. cbn [mapM] in H. unfold entry at 1, encoded in H. cbn [snd fst] in H.
  cbn [zip_log flat_map snd]. destruct (unparse_string b) as [s|] eqn:E; [|discriminate]. cbn [bind] in H.
  rewrite (log_complete _ _ E). destruct (utf8_encode s); [|discriminate]. cbn [bind] in H.
  destruct (mapM entry l); [|discriminate]. rewrite (IH _ eq_refl). reflexivity.
Qed.
Theorem C65_archive_losses_are_announced :
  forall t s cwd i o raw,
    fs_file s i = Some raw -> ends_with ".reqifz" i = true ->
    ended (perform t s cwd (RPassthrough i o)) = Exit 0 ->
    exists z, snd (zip_parse None (t_unzip t raw) []) = Ok z
      /\ said (perform t s cwd (RPassthrough i o))
         = map SUnknownChild (flat_map (fun kb => lost_of_bundle (snd kb)) (z_bundles z)).
Proof.
  intros t s cwd i o raw HF HZ. cbn [perform]. unfold passthrough. rewrite HF.
  destruct (output_dir_missing s o); [discriminate|]. rewrite HZ. unfold passthrough_log. rewrite HZ. unfold passthrough_reqifz.
  destruct (snd (zip_parse None (t_unzip t raw) [])) as [z|e]; [|discriminate]. cbn [bind].
  destruct (zip_unparse None z []) as [h r] eqn:EU. cbn [snd]. destruct r as [a|e]; [|discriminate]. cbn [bind].
  apply zip_unparse_ok in EU as (x & EM & _). unfold say_first, write_bytes. cbn [said ended].
  destruct (fs_can_write s o); [|discriminate]. intros _. exists z. split; [reflexivity|]. cbn [said].
  rewrite app_nil_r, (zip_log_complete _ _ EM). reflexivity.
Qed.

(** ** Other losses are silent *)
(** A child of another element, a tool extension and a comment between two objects
    disappear without a word. *)
Definition silent_text : str :=
  "<REQ-IF xmlns=""u""><CORE-CONTENT><REQ-IF-CONTENT><DATATYPES><DATATYPE-DEFINITION-STRING IDENTIFIER=""d""><ALTERNATIVE-ID/></DATATYPE-DEFINITION-STRING></DATATYPES>"
  ++ "<SPEC-OBJECTS><!-- c --></SPEC-OBJECTS></REQ-IF-CONTENT></CORE-CONTENT><TOOL-EXTENSIONS><REQ-IF-TOOL-EXTENSION/></TOOL-EXTENSIONS></REQ-IF>".
Theorem C65_every_loss_is_announced_refuted :
  exists t s i o out,
    let r := perform t s [] (RPassthrough i o) in
    fs_file s i = Some silent_text /\ ended r = Exit 0 /\ said r = []
    /\ fs_file (final s r) o = Some out
    /\ contains "ALTERNATIVE-ID" out = false /\ contains "REQ-IF-TOOL-EXTENSION" out = false /\ contains "<!--" out = false.
Proof.
  exists no_tools, (two_files silent_text []), "in.reqif", "out.reqif". eexists. cbn zeta.
  split; [vm_compute; reflexivity|]. split; [vm_compute; reflexivity|]. split; [vm_compute; reflexivity|].
  split; [vm_compute; reflexivity|]. repeat split; vm_compute; reflexivity.
Qed.

(** ** Example *)
Definition lossy_text : str :=
  "<REQ-IF xmlns=""u""><CORE-CONTENT><REQ-IF-CONTENT><SPEC-OBJECTS><SPEC-OBJECT IDENTIFIER=""a""><ALTERNATIVE-ID/><!-- c --><VALUES/><TYPE><SPEC-OBJECT-TYPE-REF>t</SPEC-OBJECT-TYPE-REF></TYPE></SPEC-OBJECT>"
  ++ "<SPEC-OBJECT IDENTIFIER=""b""><TYPE><SPEC-OBJECT-TYPE-REF>t</SPEC-OBJECT-TYPE-REF></TYPE><VALUES/><EXTRA/></SPEC-OBJECT></SPEC-OBJECTS></REQ-IF-CONTENT></CORE-CONTENT></REQ-IF>".
Example C65_example :
  let s := two_files lossy_text [] in
  let r := cli no_tools s "/home" ["passthrough"; "in.reqif"; "out.reqif"] in
  ended r = Exit 0
  /\ said r = [SUnknownChild (Some "ALTERNATIVE-ID"); SUnknownChild None; SUnknownChild (Some "EXTRA")]
  /\ flat_map lost_children (document_objects lossy_text) = [Some "ALTERNATIVE-ID"; None; Some "EXTRA"].
Proof. cbn zeta. repeat split; vm_compute; reflexivity. Qed.
(** The header cannot be written: nothing is said.  The second object cannot be
    written: only the children of the first are announced. *)
Definition failing_text (header objects : str) : str :=
  "<REQ-IF xmlns=""u""><THE-HEADER><REQ-IF-HEADER IDENTIFIER=""" ++ header ++ """/></THE-HEADER><CORE-CONTENT><REQ-IF-CONTENT><SPEC-OBJECTS>" ++ objects
  ++ "</SPEC-OBJECTS></REQ-IF-CONTENT></CORE-CONTENT></REQ-IF>".
Definition lossy_object (i : str) (extra values : str) : str :=
  "<SPEC-OBJECT IDENTIFIER=""" ++ i ++ """><" ++ extra ++ "/><TYPE><SPEC-OBJECT-TYPE-REF>t</SPEC-OBJECT-TYPE-REF></TYPE>" ++ values ++ "</SPEC-OBJECT>".
Example C65_failing_example :
  map (fun x => let r := cli no_tools (two_files x []) "/home" ["passthrough"; "in.reqif"; "out.reqif"] in (ended r, said r))
    [failing_text "" (lossy_object "a" "X" "<VALUES/>");
     failing_text "h" (lossy_object "a" "X" "<VALUES/>" ++ lossy_object "b" "Y" "" ++ lossy_object "c" "Z" "<VALUES/>")]
  = [(Uncaught ENotImplementedError, []); (Uncaught EAssertionError, [SUnknownChild (Some "X")])].
Proof. vm_compute. reflexivity. Qed.

Print Assumptions C65_nothing_is_announced_before_the_objects.
Print Assumptions C65_announcements_stop_at_the_object_that_fails.
Print Assumptions C65_writing_announces_the_lost_children.
Print Assumptions C65_lost_children_leave_no_trace.
Print Assumptions C65_document_losses_are_announced.
Print Assumptions C65_passthrough_announces_the_losses.
Print Assumptions C65_passthrough_announces_nothing_else.
Print Assumptions C65_archive_losses_are_announced.
Print Assumptions C65_every_loss_is_announced_refuted.
