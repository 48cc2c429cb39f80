(** Prop_Verdict.v -- C75: what validation says about files that the other commands
    wrote *)
From Verif Require Import Base Xml Utf8 Lxml Py LxmlStr Models AttrDef Header Progress Parser Unparser Serialise Validate Zip Anonymize Dump Commands BundleModel
  SpecCommands SpecXml SpecFormat SpecTraversal SpecProgress SpecPrint SpecDocument SpecSettle SpecAnonymize SpecLayout SpecHidden SpecLookup SpecValidate SpecVerdict
  DictProofs ProgressProofs TraversalProofs ParserProofs Utf8Proofs LineProofs
  Prop_Progress Prop_Document Prop_Settle Prop_Commands Prop_Validate Prop_Format Prop_Reformat Prop_AnonymizeFile Prop_AnonymizeBundle.

(** ** The references of a bundle *)
Definition objects (b : bundle) : list str := map so_identifier (spec_objects_of b).
Definition ends (b : bundle) : list (option str * option str) := map (fun r => (sr_source r, sr_target r)) (relations_of b).
Definition sp_nodes (s : specification) : list (option str) := map h_spec_object (fpreorder (olist (sp_children s))).
Definition nodes (b : bundle) : list (option str) := concat (map sp_nodes (specifications_of b)).
Definition known (os : list str) (r : option str) : bool := existsb (fun o => ostr_eqb (Some o) r) os.
Definition end_findings (os : list str) (e : option str * option str) : list finding :=
  (if known os (fst e) then [] else [NoRelationEnd "SOURCE" (fst e)]) ++ (if known os (snd e) then [] else [NoRelationEnd "TARGET" (snd e)]).
Definition node_findings (os : list str) (r : option str) : list finding := if known os r then [] else [NoObject r].
Lemma refers_known b r : refers b r = known (objects b) r.
Proof. unfold refers, known, objects. induction (spec_objects_of b) as [|o l IH]; [reflexivity|]. cbn [existsb map]. rewrite IH. reflexivity. Qed.
Lemma map_flat_map {A B C} (f : B -> C) (g : A -> list B) l : map f (flat_map g l) = flat_map (fun x => map f (g x)) l.
Proof. induction l as [|x l IH]; [reflexivity|]. cbn. rewrite map_app, IH. reflexivity. Qed.
Lemma flat_map_map {A B C} (g : A -> B) (f : B -> list C) l : flat_map f (map g l) = flat_map (fun x => f (g x)) l.
Proof. induction l as [|x l IH]; [reflexivity|]. cbn. rewrite IH. reflexivity. Qed.
Lemma verdict s b : parse_string s = Ok b -> exists eb, validate_bundle b = Ok eb
  /\ eb_xml eb = [] /\ eb_schema eb = map FromBundle (b_exceptions b)
  /\ map finding_of (eb_semantic eb) = map finding_of (general_warnings b) ++ flat_map (end_findings (objects b)) (ends b) ++ flat_map (node_findings (objects b)) (nodes b).
Proof.
  intros H. destruct (C33_warnings_are_exactly_the_dangling_references s b H) as (l & HL & E).
  pose proof (C33_nodes_are_determined b _ _ HL (all_nodes_ex b)) as EL. subst l. rewrite E. eexists. split; [reflexivity|].
  cbn [eb_xml eb_schema eb_semantic]. split; [reflexivity|]. split; [reflexivity|]. rewrite !map_app, !map_flat_map. do 2 f_equal.
  - unfold ends. rewrite flat_map_map. apply flat_map_ext. intros r. unfold relation_warnings, end_findings. cbn [fst snd].
    rewrite !refers_known, map_app. destruct (known _ (sr_source r)), (known _ (sr_target r)); reflexivity.
  - unfold nodes. clear E HL. induction (specifications_of b) as [|sp l IH]; [reflexivity|]. cbn [map concat]. rewrite !flat_map_app, IH. f_equal.
    unfold sp_nodes. rewrite flat_map_map. apply flat_map_ext. intros h. unfold node_warnings, node_findings. rewrite refers_known.
    destruct (known _ _); reflexivity.
Qed.
Lemma dangling_only s b eb : parse_string s = Ok b -> validate_bundle b = Ok eb ->
  dangling eb = flat_map (end_findings (objects b)) (ends b) ++ flat_map (node_findings (objects b)) (nodes b).
Proof.
  intros H HV. destruct (verdict s b H) as (eb' & E & _ & _ & M). assert (eb' = eb) by congruence. subst eb'. unfold dangling. rewrite M, !filter_app.
  assert (G : filter about_reference (map finding_of (general_warnings b)) = []).
  { unfold general_warnings. destruct (ni_doctype_is_present _), (str_eqb _ _); reflexivity. }
  rewrite G. cbn [app].
  assert (K : forall A (f : A -> list finding) l, (forall x, filter about_reference (f x) = f x) -> filter about_reference (flat_map f l) = flat_map f l).
  { intros A f l HF. induction l as [|x l IH]; [reflexivity|]. cbn [flat_map]. rewrite filter_app, IH, HF. reflexivity. }
  rewrite !K; [reflexivity| |].
  - intros r. unfold node_findings. destruct (known _ _); reflexivity.
  - intros e. unfold end_findings. destruct (known _ (fst e)), (known _ (snd e)); reflexivity.
Qed.
Lemma same_references s s' b b' eb : parse_string s = Ok b -> parse_string s' = Ok b' ->
  objects b' = objects b -> ends b' = ends b -> nodes b' = nodes b -> Forall2 same_exception (b_exceptions b) (b_exceptions b') ->
  general_warnings b' = [] -> validate_bundle b = Ok eb -> exists eb', validate_bundle b' = Ok eb' /\ same_verdict eb eb'.
Proof.
  intros H H' E1 E2 E3 FX G HV. destruct (verdict s' b' H') as (eb' & HV' & X' & S' & M'). exists eb'. split; [exact HV'|].
  destruct (verdict s b H) as (eb0 & HV0 & X & S & M). assert (eb0 = eb) by congruence. subst eb0. unfold same_verdict.
  split; [congruence|]. split.
  - rewrite S, S'. clear - FX. induction FX as [|x y l l' F _ IH]; [constructor|]. cbn. constructor; [exact F|exact IH].
  - rewrite (dangling_only s b eb H HV), M', G, E1, E2, E3. reflexivity.
Qed.

(** ** Bundles that agree *)
Lemma preorder_map (f : hier -> hier) (g : option str -> option str) :
  (forall h, h_spec_object (f h) = g (h_spec_object h)) -> (forall h, h_kids (f h) = map f (h_kids h)) ->
  forall h, map h_spec_object (preorder (f h)) = map g (map h_spec_object (preorder h)).
Proof.
  intros H1 H2 h. induction h as [h IH] using hier_ind'. rewrite !preorder_eq. cbn [map]. rewrite H1, H2. f_equal.
  unfold fpreorder. rewrite flat_map_map, !map_flat_map. induction IH as [|k l H _ IH]; [reflexivity|]. cbn [flat_map]. rewrite IH, H. reflexivity.
Qed.
Lemma fpreorder_map (f : hier -> hier) (g : option str -> option str) :
  (forall h, h_spec_object (f h) = g (h_spec_object h)) -> (forall h, h_kids (f h) = map f (h_kids h)) ->
  forall l, map h_spec_object (fpreorder (map f l)) = map g (map h_spec_object (fpreorder l)).
Proof.
  intros H1 H2 l. unfold fpreorder. rewrite flat_map_map, !map_flat_map. apply flat_map_ext. intros h. apply preorder_map; assumption.
Qed.
Lemma olist_map {A} (f : A -> A) o : olist (map_list f o) = map f (olist o).
Proof. destruct o; reflexivity. Qed.
Lemma sp_nodes_map (f : hier -> hier) g s s' :
  (forall h, h_spec_object (f h) = g (h_spec_object h)) -> (forall h, h_kids (f h) = map f (h_kids h)) ->
  sp_children s' = map_list f (sp_children s) -> sp_nodes s' = map g (sp_nodes s).
Proof. intros H1 H2 E. unfold sp_nodes. rewrite E, olist_map. apply fpreorder_map; assumption. Qed.
Lemma erase_kids h : h_kids (erase_hier h) = map erase_hier (h_kids h).
Proof. destruct h as [? ? ? [l|] ? ? ? ? ? ? ?]; reflexivity. Qed.
Lemma normal_kids h : h_kids (normal_hier h) = map normal_hier (h_kids h).
Proof. destruct h as [? ? ? [l|] ? ? ? ? ? ? ?]; reflexivity. Qed.
Lemma spell_kids h : h_kids (spell_hier h) = map spell_hier (h_kids h).
Proof. destruct h as [? ? ? [l|] ? ? ? ? ? ? ?]; reflexivity. Qed.
Lemma erase_sp_nodes s : sp_nodes (erase_specification s) = sp_nodes s.
Proof.
  rewrite (sp_nodes_map erase_hier (fun x => x) s); [apply map_id|intros []; reflexivity|exact erase_kids|reflexivity].
Qed.
Lemma normal_sp_nodes strip s : sp_nodes (normal_specification strip s) = sp_nodes s.
Proof.
  rewrite (sp_nodes_map normal_hier (fun x => x) s); [apply map_id|intros []; reflexivity|exact normal_kids|reflexivity].
Qed.
Lemma spell_sp_nodes s : sp_nodes (spell_specification s) = map spelled (sp_nodes s).
Proof. apply (sp_nodes_map spell_hier spelled s); [intros []; reflexivity|exact spell_kids|reflexivity]. Qed.

(** a field of the content, through a function that maps it *)
Definition content_map (F : Models.content -> Models.content) (b : bundle) : option (option Models.content) := option_map (option_map F) (b_core_content b).
Lemma via {A B} (f : Models.content -> option (list A)) (k k' : A -> B) F F' (e e' : A -> A) b b' :
  content_map F b = content_map F' b' ->
  (forall c, f (F c) = map_list e (f c)) -> (forall c, f (F' c) = map_list e' (f c)) ->
  (forall x, k (e x) = k' x) -> (forall x, k (e' x) = k x) ->
  map k (b_list f b') = map k' (b_list f b).
Proof.
  intros H F1 F2 K1 K2. unfold content_map in H. unfold b_list, bundle_content.
  destruct (b_core_content b') as [[c'|]|], (b_core_content b) as [[c|]|]; try discriminate; try reflexivity.
  cbn [option_map] in H. assert (H' : F c = F' c') by congruence. apply (f_equal f) in H'. rewrite F1, F2 in H'. unfold map_list in H'.
  destruct (f c') as [l'|], (f c) as [l|]; try discriminate; [|reflexivity]. cbn [option_map] in H'. cbn [olist].
  assert (H2 : map e l = map e' l') by congruence. apply (f_equal (map k)) in H2. rewrite !map_map in H2.
  rewrite (map_ext (fun x => k (e x)) k') in H2 by exact K1. rewrite (map_ext (fun x => k (e' x)) k) in H2 by exact K2. congruence.
Qed.
Lemma formatted_references b b' : same_bundle (squeeze_bundle (declared b)) (squeeze_bundle b') ->
  objects b' = objects b /\ ends b' = ends b /\ nodes b' = nodes b.
Proof.
  intros (_ & _ & H & _). unfold squeeze_bundle, declared in H. cbn [b_core_content] in H.
  assert (E : content_map (fun c => erase_content (squeeze_content c)) b = content_map (fun c => erase_content (squeeze_content c)) b').
  { unfold content_map. destruct (b_core_content b) as [[c|]|], (b_core_content b') as [[c'|]|]; exact H. }
  assert (ML : forall A (f g : A -> A) o, map_list f (map_list g o) = map_list (fun x => f (g x)) o).
  { intros A f g [l|]; cbn; [rewrite map_map|]; reflexivity. }
  split; [|split].
  - unfold objects. refine (via rc_spec_objects so_identifier so_identifier _ _ _ _ b b' E _ _ _ _); [intros c; cbn; rewrite ML; reflexivity|intros c; cbn; rewrite ML; reflexivity|reflexivity|reflexivity].
  - unfold ends. refine (via rc_spec_relations _ _ _ _ _ _ b b' E _ _ _ _); [intros c; cbn; rewrite ML; reflexivity|intros c; cbn; rewrite ML; reflexivity|reflexivity|reflexivity].
  - unfold nodes. f_equal. refine (via rc_specifications sp_nodes sp_nodes _ _ _ _ b b' E _ _ _ _); [intros c; cbn; rewrite ML; reflexivity|intros c; cbn; rewrite ML; reflexivity| |];
      intros x; cbv beta; rewrite erase_sp_nodes; reflexivity.
Qed.
Lemma rewritten_references strip r b b' : reads_back_as strip r (spell_bundle b) b' ->
  objects b' = objects b /\ ends b' = map (fun e => (spelled (fst e), spelled (snd e))) (ends b) /\ nodes b' = map spelled (nodes b).
Proof.
  intros (_ & _ & H & _). unfold spell_bundle in H. cbn [b_core_content] in H.
  assert (E : content_map (fun c => normal_content strip (spell_content c)) b = content_map erase_content b').
  { unfold content_map. destruct (b_core_content b) as [[c|]|], (b_core_content b') as [[c'|]|]; symmetry; exact H. }
  assert (ML : forall A (f g : A -> A) o, map_list f (map_list g o) = map_list (fun x => f (g x)) o).
  { intros A f g [l|]; cbn; [rewrite map_map|]; reflexivity. }
  split; [|split].
  - unfold objects. refine (via rc_spec_objects so_identifier so_identifier _ _ _ _ b b' E _ _ _ _); [intros c; cbn; rewrite ML; reflexivity|intros c; reflexivity|reflexivity|reflexivity].
  - unfold ends. rewrite map_map. cbn [fst snd].
    refine (via rc_spec_relations _ (fun r => (spelled (sr_source r), spelled (sr_target r))) _ _ _ _ b b' E _ _ _ _);
      [intros c; cbn; rewrite ML; reflexivity|intros c; reflexivity|reflexivity|reflexivity].
  - unfold nodes. rewrite concat_map, map_map. f_equal.
    refine (via rc_specifications sp_nodes (fun x => map spelled (sp_nodes x)) _ _ _ _ b b' E _ _ _ _); [intros c; cbn; rewrite ML; reflexivity|intros c; reflexivity| |].
    + intros x. cbv beta. rewrite normal_sp_nodes, spell_sp_nodes. reflexivity.
    + intros x. apply erase_sp_nodes.
Qed.
Lemma hidden_list {A B} (f : Models.content -> option (list A)) (R : A -> A -> Prop) (k : A -> B) sha b b' :
  hidden_bundle sha b b' -> (forall c c', hidden_content sha c c' -> both (Forall2 R) (f c) (f c')) -> (forall x y, R x y -> k y = k x) ->
  map k (b_list f b') = map k (b_list f b).
Proof.
  intros (_ & _ & H & _) HF HK. unfold b_list, bundle_content. unfold both in H at 1.
  destruct (b_core_content b) as [o|], (b_core_content b') as [o'|]; try contradiction; [|reflexivity]. unfold both in H.
  destruct o as [c|], o' as [c'|]; try contradiction; [|reflexivity]. apply HF in H. unfold both in H.
  destruct (f c) as [l|], (f c') as [l'|]; try contradiction; [|reflexivity]. cbn [olist].
  induction H as [|x y l l' HR _ IH]; [reflexivity|]. cbn [map]. rewrite IH, (HK x y HR). reflexivity.
Qed.
Lemma hidden_references sha b b' : hidden_bundle sha (declared b) b' ->
  objects b' = objects b /\ ends b' = ends b /\ nodes b' = nodes b.
Proof.
  intros H. split; [|split].
  - exact (hidden_list rc_spec_objects _ so_identifier sha _ _ H (fun c c' HC => proj1 (proj2 (proj2 HC))) (fun x y HR => proj1 HR)).
  - refine (hidden_list rc_spec_relations _ (fun r => (sr_source r, sr_target r)) sha _ _ H (fun c c' HC => proj1 (proj2 (proj2 (proj2 HC)))) _).
    intros x y (_ & _ & E1 & E2 & _). congruence.
  - unfold nodes. f_equal. refine (hidden_list rc_specifications _ sp_nodes sha _ _ H (fun c c' HC => proj1 (proj2 (proj2 (proj2 (proj2 HC))))) _).
    intros x y (_ & _ & _ & _ & _ & _ & _ & E). rewrite <- (erase_sp_nodes y), <- (erase_sp_nodes x). unfold sp_nodes. cbn [sp_children erase_specification].
    rewrite E. reflexivity.
Qed.

(** ** The command *)
Lemma same_clean eb eb' : same_verdict eb eb' -> has_any_errors eb = false -> has_any_errors eb' = false.
Proof.
  intros (E1 & F & E2). unfold has_any_errors. rewrite E1. destruct (eb_xml eb); [|discriminate]. destruct (eb_schema eb); [|discriminate].
  inversion F; subst. unfold dangling in E2. destruct (eb_semantic eb); [|discriminate]. intros _. destruct (eb_semantic eb'); [reflexivity|discriminate].
Qed.
Lemma rewritten_clean eb eb' : rewritten_verdict eb eb' -> has_any_errors eb = false -> has_any_errors eb' = false.
Proof.
  intros (E1 & F & E2). unfold has_any_errors. rewrite E1, F. destruct (eb_xml eb); [|discriminate]. destruct (eb_schema eb); [|discriminate].
  unfold dangling in E2. destruct (eb_semantic eb); [|discriminate]. intros _. destruct (eb_semantic eb'); [reflexivity|discriminate].
Qed.
(** what an absolute path is validated to *)
Lemma validate_absolute e p cwd : starts_with "/" p = true ->
  snd (validate_file e (Config p false) cwd) =
  match snd (parse_file None (files e p) []) with
  | Raise EReqIFXMLParsingError => Ok (ErrorBundle [EReqIFXMLParsingError] [] [])
  | Raise x => Raise x
  | Ok b => validate_bundle b
  end.
Proof. intros H. unfold validate_file, input_path. cbn [input_file]. rewrite H. reflexivity. Qed.
Lemma clean_exit e p cwd eb : starts_with "/" p = true -> snd (validate_file e (Config p false) cwd) = Ok eb -> files e p <> None ->
  (snd (snd (validate e (Config p false) cwd)) = Exit 0 <-> has_any_errors eb = false).
Proof.
  intros HP HV HF. unfold validate, opened. cbn [input_file]. rewrite HP. destruct (files e p); [|congruence].
  destruct (validate_file e (Config p false) cwd) as [d r]. cbn [snd] in HV. subst r. cbn [snd]. split.
  - intros E. destruct (report_errors (Config p false) eb) as [ls x] eqn:ER. cbn [snd] in E. subst x.
    destruct (C34_report _ _ _ _ ER) as (_ & (E & _) & _). destruct (E eq_refl) as (-> & -> & ->) || (destruct (E eq_refl) as (E1 & E2 & E3); unfold has_any_errors; rewrite E1, E2, E3). reflexivity.
  - intros E. unfold has_any_errors in E. destruct eb as [x y z]. cbn in E. destruct x; [|discriminate]. destruct y; [|discriminate]. destruct z; [|discriminate]. reflexivity.
Qed.

(** ** C75
    [e] and [e'] are the surroundings in which the two files are validated; only the
    files themselves matter. *)
(** formatting *)
Theorem C75_format :
  forall t s cwd i o raw text decl root e e' d d',
    fs_file s i = Some raw -> utf8_decode raw = Some text -> read_document text = Some (decl, root) -> in_utf8 decl ->
    portable true root -> Forall (portable true) (fst (surroundings text)) -> Forall (portable true) (snd (surroundings text)) ->
    tidy_root true root -> fs_can_write s o = true ->
    let r := perform t s cwd (RFormat i o) in
    starts_with "/" i = true -> starts_with "/" o = true ->
    files e i = fs_file s i -> files e' o = fs_file (final s r) o ->
    same_result same_verdict (snd (validate_file e (Config i false) d)) (snd (validate_file e' (Config o false) d'))
    /\ (snd (snd (validate e (Config i false) d)) = Exit 0 -> snd (snd (validate e' (Config o false) d')) = Exit 0).
Proof.
  intros t s cwd i o raw text decl root e e' d d' HF HD HR HE P1 P2 P3 HT HW r AI AO FI FO.
  destruct (C62_format_command t s cwd i o raw text decl root None [] HF HD HR HE P1 P2 P3 HT HW) as (EN & _ & SR). fold r in EN, SR.
  assert (NO : files e' o <> None) by (rewrite FO; destruct (C41_output_file t s cwd (RFormat i o) o eq_refl EN) as (x & _ & F & _); fold r in F; congruence).
  assert (NI : files e i <> None) by (rewrite FI, HF; discriminate).
  assert (SV : same_result same_verdict (snd (validate_file e (Config i false) d)) (snd (validate_file e' (Config o false) d'))).
  { rewrite (validate_absolute e i d AI), (validate_absolute e' o d' AO), FI, FO.
    destruct (snd (parse_file None (fs_file s i) [])) as [b|x] eqn:E1, (snd (parse_file None (fs_file (final s r) o) [])) as [b'|x'] eqn:E2;
      try contradiction; cbn [same_result] in SR.
    - assert (PI : exists z, parse_string z = Ok b).
      { rewrite HF in E1. cbn [parse_file] in E1. rewrite HD in E1. eauto. }
      assert (PO : exists z, parse_string z = Ok b').
      { destruct (fs_file (final s r) o) as [raw'|]; [|discriminate]. cbn [parse_file] in E2. destruct (utf8_decode raw'); [eauto|discriminate]. }
      destruct PI as [z PI], PO as [z' PO]. destruct (verdict z b PI) as (eb & EV & _). rewrite EV.
      destruct (formatted_references b b' SR) as (R1 & R2 & R3).
      destruct (same_references z z' b b' eb PI PO R1 R2 R3) as (eb' & EV' & SV); [apply SR| |exact EV|rewrite EV'; exact SV].
      destruct SR as (NS & _). unfold general_warnings. cbn [squeeze_bundle b_namespace_info declared] in NS. rewrite <- NS. reflexivity.
    - destruct x, x'; cbn [same_exception] in SR; try discriminate; cbn [same_result same_exception]; try exact SR; try (inversion SR; fail); try congruence.
      split; [reflexivity|]. split; [constructor|reflexivity]. }
  split; [exact SV|].
  destruct (snd (validate_file e (Config i false) d)) as [eb|x] eqn:V1, (snd (validate_file e' (Config o false) d')) as [eb'|x'] eqn:V2; try contradiction.
  - rewrite (clean_exit e i d eb AI V1 NI), (clean_exit e' o d' eb' AO V2 NO). apply same_clean, SV.
  - intros X. exfalso. unfold validate, opened in X. cbn [input_file] in X. rewrite AI in X. destruct (files e i); [|congruence].
    destruct (validate_file e (Config i false) d) as [? [?|?]]; cbn [snd] in V1; discriminate.
Qed.
(** anonymizing *)
Theorem C75_anonymize :
  forall t s cwd i o raw text decl root uri b e e' d d',
    fs_file s i = Some raw -> utf8_decode raw = Some text -> lxml_parse text = Some (decl, root) -> portable false root ->
    ns_get (node_nsmap root) None = Some uri -> one_namespace uri root -> orderly_root true root ->
    prefix_in_use root \/ no_xhtml_default root -> parse_string text = Ok b ->
    let r := perform t s cwd (RAnonymize i o) in
    ended r = Exit 0 -> starts_with "/" i = true -> starts_with "/" o = true ->
    files e i = fs_file s i -> files e' o = fs_file (final s r) o ->
    same_result same_verdict (snd (validate_file e (Config i false) d)) (snd (validate_file e' (Config o false) d'))
    /\ (snd (snd (validate e (Config i false) d)) = Exit 0 -> snd (snd (validate e' (Config o false) d')) = Exit 0).
Proof.
  intros t s cwd i o raw text decl root uri b e e' d d' HF HD HL HP NS ON OR HU HB r EN AI AO FI FO.
  assert (EU : parse_from_string None (universal_newlines text) [] = parse_from_string None text []) by (rewrite parse_from_string_un; reflexivity).
  assert (EP : parse_file None (fs_file s i) [] = (fst (parse_file None (fs_file s i) []), Ok b)).
  { rewrite HF. cbn [parse_file]. rewrite HD, EU. unfold parse_string in HB. destruct (parse_from_string None text []); cbn in *; congruence. }
  destruct (C64_anonymize_command t s cwd i o None raw text decl root uri [] _ b HF HD HL HP NS ON OR HU EP EN) as (b' & EP' & HH). fold r in EP'.
  assert (NO : files e' o <> None) by (rewrite FO; intros X; rewrite X in EP'; discriminate).
  assert (NI : files e i <> None) by (rewrite FI, HF; discriminate).
  assert (PO : exists z, parse_string z = Ok b').
  { destruct (fs_file (final s r) o) as [raw'|]; [|discriminate]. cbn [parse_file] in EP'. destruct (utf8_decode raw') as [z|]; [|discriminate].
    exists (universal_newlines z). unfold parse_string. rewrite EP'. reflexivity. }
  destruct PO as [z PO]. destruct (verdict text b HB) as (eb & EV & _). destruct (hidden_references _ _ _ HH) as (R1 & R2 & R3).
  destruct (same_references text z b b' eb HB PO R1 R2 R3) as (eb' & EV' & SV); [apply HH| |exact EV|].
  { destruct HH as (N & _). unfold general_warnings. rewrite N. reflexivity. }
  assert (V1 : snd (validate_file e (Config i false) d) = Ok eb) by (rewrite (validate_absolute e i d AI), FI, EP; exact EV).
  assert (V2 : snd (validate_file e' (Config o false) d') = Ok eb') by (rewrite (validate_absolute e' o d' AO), FO, EP'; exact EV').
  rewrite V1, V2. split; [exact SV|]. rewrite (clean_exit e i d eb AI V1 NI), (clean_exit e' o d' eb' AO V2 NO). apply same_clean, SV.
Qed.
(** passthrough: an absent reference is written as None, so no object may be called
    so; and relations with errors are not written. *)
Lemma known_spelled os r : ~ In ("None" : str) os -> known os (spelled r) = known os r.
Proof.
  intros N. destruct r as [x|]; [reflexivity|]. unfold known, spelled. induction os as [|o os IH]; [reflexivity|]. cbn [existsb].
  rewrite IH by (intros X; apply N; right; exact X). cbn [ostr_eqb]. destruct (str_eqb_spec o "None") as [->|_]; [|reflexivity].
  exfalso. apply N. left. reflexivity.
Qed.
Theorem C75_passthrough :
  forall t s cwd i o raw text b tg p u e e' d d',
    fs_file s i = Some raw -> ends_with ".reqifz" i = false -> utf8_decode raw = Some text -> parse_string text = Ok b ->
    plain_bundle tg p u b -> (forall x, In x (spec_objects_of b) -> so_identifier x <> "None") ->
    let r := perform t s cwd (RPassthrough i o) in
    ended r = Exit 0 -> starts_with "/" i = true -> starts_with "/" o = true ->
    files e i = fs_file s i -> files e' o = fs_file (final s r) o ->
    same_result rewritten_verdict (snd (validate_file e (Config i false) d)) (snd (validate_file e' (Config o false) d'))
    /\ (snd (snd (validate e (Config i false) d)) = Exit 0 -> snd (snd (validate e' (Config o false) d')) = Exit 0).
Proof.
  intros t s cwd i o raw text b tg p u e e' d d' HF HZ HD HB HP NN r EN AI AO FI FO.
  assert (EU : forall x, parse_string (universal_newlines x) = parse_string x) by (intros x; unfold parse_string; rewrite parse_from_string_un; reflexivity).
  destruct (C41_output_file t s cwd (RPassthrough i o) o eq_refl EN) as (out & N & F & _). fold r in F. cbn [new_content] in N. rewrite HF, HZ in N.
  unfold passthrough_reqif in N. rewrite HD, EU, HB in N. cbn [bind] in N. destruct (unparse_string b) as [tx|] eqn:ET; [|discriminate]. cbn [bind] in N.
  destruct (utf8_encode tx) as [x|] eqn:EE; [|discriminate]. assert (x = out) by congruence. subst x.
  destruct (C49_second_pass_changes_nothing tg p u text b tx HB HP ET) as (strip & b' & _ & PO & RB & _).
  assert (NO : files e' o <> None) by (rewrite FO, F; discriminate). assert (NI : files e i <> None) by (rewrite FI, HF; discriminate).
  destruct (verdict text b HB) as (eb & EV & _). destruct (verdict tx b' PO) as (eb' & EV' & X' & S' & M').
  assert (V1 : snd (validate_file e (Config i false) d) = Ok eb).
  { rewrite (validate_absolute e i d AI), FI, HF. cbn [parse_file]. rewrite HD. fold (parse_string (universal_newlines text)). rewrite EU, HB. exact EV. }
  assert (V2 : snd (validate_file e' (Config o false) d') = Ok eb').
  { rewrite (validate_absolute e' o d' AO), FO, F. cbn [parse_file]. rewrite (decode_encode _ _ EE). fold (parse_string (universal_newlines tx)). rewrite EU, PO. exact EV'. }
  assert (SV : rewritten_verdict eb eb').
  { destruct (rewritten_references strip tg b b' RB) as (R1 & R2 & R3). unfold rewritten_verdict. split; [exact X'|].
    split; [rewrite S'; destruct RB as (_ & _ & _ & _ & ->); reflexivity|].
    rewrite (dangling_only text b eb HB EV), M'. assert (G : general_warnings b' = []) by (unfold general_warnings; destruct RB as (-> & _); reflexivity).
    assert (NI' : ~ In ("None" : str) (objects b)).
    { unfold objects. intros X. apply in_map_iff in X. destruct X as (y & E & Hy). exact (NN y Hy E). }
    rewrite G, R1, R2, R3, map_app, !flat_map_map, !map_flat_map. cbn [map app]. f_equal.
    - apply flat_map_ext. intros z. unfold end_findings. cbn [fst snd]. rewrite !known_spelled by exact NI'. rewrite map_app.
      destruct (known _ (fst z)), (known _ (snd z)); reflexivity.
    - apply flat_map_ext. intros z. unfold node_findings. rewrite known_spelled by exact NI'. destruct (known _ z); reflexivity. }
  rewrite V1, V2. split; [exact SV|]. rewrite (clean_exit e i d eb AI V1 NI), (clean_exit e' o d' eb' AO V2 NO). apply rewritten_clean, SV.
Qed.

(** ** What does not hold *)
Definition validated (s : str) : option (list exn * list schema_error * list finding) :=
  match parse_string s with
  | Ok b => match validate_bundle b with Ok eb => Some (eb_xml eb, eb_schema eb, map finding_of (eb_semantic eb)) | Raise _ => None end
  | Raise _ => None
  end.
Definition written (s : str) : str :=
  match parse_string s with Ok b => match unparse_string b with Ok t => t | Raise _ => [] end | Raise _ => [] end.
Definition node_text (relations object reference : str) : str :=
  "<?xml version=""1.0"" encoding=""UTF-8""?><REQ-IF xmlns=""u""><CORE-CONTENT><REQ-IF-CONTENT><SPEC-OBJECTS><SPEC-OBJECT IDENTIFIER=""" ++ object
  ++ """><VALUES/><TYPE><SPEC-OBJECT-TYPE-REF>t</SPEC-OBJECT-TYPE-REF></TYPE></SPEC-OBJECT></SPEC-OBJECTS>" ++ relations ++ "<SPECIFICATIONS><SPECIFICATION IDENTIFIER=""s"">"
  ++ "<CHILDREN><SPEC-HIERARCHY IDENTIFIER=""h""><OBJECT><SPEC-OBJECT-REF>" ++ reference ++ "</SPEC-OBJECT-REF></OBJECT></SPEC-HIERARCHY></CHILDREN>"
  ++ "</SPECIFICATION></SPECIFICATIONS></REQ-IF-CONTENT></CORE-CONTENT></REQ-IF>".
(** The condition on the name cannot be dropped: passthrough turns an empty
    reference into one to the object called None, and the warning is gone. *)
Theorem C75_object_called_None_refuted :
  exists s, validated s = Some ([], [], [NoObject None]) /\ validated (written s) = Some ([], [], []).
Proof. exists (node_text [] "None" []). vm_compute. auto. Qed.
(** Nor does passthrough keep the errors of the parser: the relation they are about
    is not written. *)
Definition found_in (o : option (list exn * list schema_error * list finding)) : option (nat * nat * list finding) :=
  option_map (fun x => (length (fst (fst x)), length (snd (fst x)), snd x)) o.
Theorem C75_errors_survive_refuted :
  exists s, found_in (validated s) = Some (0, 1, []) /\ validated (written s) = Some ([], [], []).
Proof.
  exists (node_text "<SPEC-RELATIONS><SPEC-RELATION IDENTIFIER=""r""><TYPE/></SPEC-RELATION></SPEC-RELATIONS>" "o" "o"). split; vm_compute; reflexivity.
Qed.

(** ** Examples *)
(** one dangling node, one dangling target, a relation with an error, no declaration *)
Definition dangling_text : str :=
  "<REQ-IF xmlns='u'><CORE-CONTENT><REQ-IF-CONTENT><SPEC-OBJECTS><SPEC-OBJECT IDENTIFIER='o'><VALUES/><TYPE><SPEC-OBJECT-TYPE-REF>t</SPEC-OBJECT-TYPE-REF></TYPE></SPEC-OBJECT></SPEC-OBJECTS>"
  ++ "<SPEC-RELATIONS><SPEC-RELATION IDENTIFIER='r'><TYPE><SPEC-RELATION-TYPE-REF>rt</SPEC-RELATION-TYPE-REF></TYPE><SOURCE><SPEC-OBJECT-REF>o</SPEC-OBJECT-REF></SOURCE>"
  ++ "<TARGET><SPEC-OBJECT-REF>gone</SPEC-OBJECT-REF></TARGET></SPEC-RELATION><SPEC-RELATION IDENTIFIER='q'><TYPE/></SPEC-RELATION></SPEC-RELATIONS>"
  ++ "<SPECIFICATIONS><SPECIFICATION IDENTIFIER='s'><CHILDREN><SPEC-HIERARCHY IDENTIFIER='h'><OBJECT><SPEC-OBJECT-REF>o</SPEC-OBJECT-REF></OBJECT>"
  ++ "<CHILDREN><SPEC-HIERARCHY IDENTIFIER='k'><OBJECT><SPEC-OBJECT-REF>lost</SPEC-OBJECT-REF></OBJECT></SPEC-HIERARCHY></CHILDREN></SPEC-HIERARCHY></CHILDREN></SPECIFICATION></SPECIFICATIONS>"
  ++ "</REQ-IF-CONTENT></CORE-CONTENT></REQ-IF>".
Example C75_example :
  formattable true dangling_text /\ anonymizable dangling_text
  /\ found_in (validated dangling_text)
     = Some (0, 1, [NoDeclaration; NoRelationEnd "TARGET" (Some "gone"); NoObject (Some "lost")])
  /\ found_in (validated (match format_text dangling_text with Ok t => t | Raise _ => [] end))
     = Some (0, 1, [NoRelationEnd "TARGET" (Some "gone"); NoObject (Some "lost")])
  /\ found_in (validated (match anonymize_doc dangling_text with Ok t => t | Raise _ => [] end))
     = Some (0, 1, [NoRelationEnd "TARGET" (Some "gone"); NoObject (Some "lost")])
  /\ (forall x, In x (spec_objects_of settle_bundle) -> so_identifier x <> "None")
  /\ found_in (validated settle_text) = Some (0, 1, [NoObject None])
  /\ found_in (validated (written settle_text)) = Some (0, 0, [NoObject (Some "None")]).
Proof.
  split; [apply formattableb_sound; vm_compute; reflexivity|].
  split; [eapply anonymizable_check; [vm_compute; reflexivity|vm_compute; reflexivity|]; vm_compute; reflexivity|].
  split; [vm_compute; reflexivity|]. split; [vm_compute; reflexivity|]. split; [vm_compute; reflexivity|].
  split; [|split; vm_compute; reflexivity].
  intros x H. assert (E : map so_identifier (spec_objects_of settle_bundle) = ["o" : str]) by (vm_compute; reflexivity).
  apply (in_map so_identifier) in H. rewrite E in H. destruct H as [<-|[]]. discriminate.
Qed.

Print Assumptions C75_format.
Print Assumptions C75_anonymize.
Print Assumptions C75_passthrough.
Print Assumptions C75_object_called_None_refuted.
Print Assumptions C75_errors_survive_refuted.
