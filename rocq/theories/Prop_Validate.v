(** Prop_Validate.v -- C33, C34, C35: the validate command *)
From Verif Require Import Base Xml Utf8 Lxml Py LxmlStr Models AttrDef Header Progress Parser BundleModel
  SpecTraversal SpecProgress SpecLookup DictProofs ProgressProofs TraversalProofs ParserProofs
  SpecObj SpecParse FaithProofs IsolationProofs Validate SpecValidate Paths SpecPaths PathProofs Prop_Lookup Prop_Parser.
From Verif Require SpecXml SerialiseProofs GrammarDoc NamespaceProofs.

(** ** C33 *)
Lemma exists_refers s b r : parse_string s = Ok b -> spec_object_exists (b_lookup b) r = refers b r.
Proof.
  intros H. destruct (parse_lookup s b H) as (_ & _ & E & _). unfold spec_object_exists, refers. rewrite E.
  apply eq_true_iff_eq. rewrite fill_mem, existsb_exists.
  split; intros (x & H1 & H2); exists x; (split; [exact H1|]).
  - apply ostr_eqb_eq, H2.
  - apply ostr_eqb_eq in H2. exact H2.
Qed.
Lemma hierarchy_loop_consume k g lk :
  hierarchy_loop k g lk =
  flat_map (fun h => if spec_object_exists lk (h_spec_object h) then []
                     else [HierarchyMissing (h_xml_node h) (h_spec_object h)]) (consume k g).
Proof.
  revert g. induction k as [|k IH]; intros g; [reflexivity|]. cbn.
  destruct (gen_next g) as [[h g']|]; [|reflexivity]. cbn. rewrite IH. reflexivity.
Qed.
Lemma flat_map_concat_map {A B} (f : A -> list B) ls : flat_map f (concat ls) = concat (map (flat_map f) ls).
Proof. induction ls as [|l ls IH]; [reflexivity|]. cbn. rewrite flat_map_app, IH. reflexivity. Qed.
Lemma validate_specifications_spec b pre l :
  bundle_specifications b = Some (pre ++ l) ->
  validate_specifications l (length pre) b =
  Ok (concat (map (fun sp => flat_map (fun h => if spec_object_exists (b_lookup b) (h_spec_object h) then []
                     else [HierarchyMissing (h_xml_node h) (h_spec_object h)]) (fpreorder (olist (sp_children sp)))) l)).
Proof.
  revert pre. induction l as [|sp l IH]; intros pre H; [reflexivity|]. cbn [validate_specifications].
  unfold iterate_specification_hierarchy. rewrite H.
  rewrite nth_error_app2, Nat.sub_diag by lia. cbn [nth_error bind].
  replace (S (length pre)) with (length (pre ++ [sp])) by (rewrite app_length; cbn; lia).
  rewrite IH by (rewrite <- app_assoc; exact H). cbn [bind map concat]. do 2 f_equal.
  rewrite hierarchy_loop_consume, consume_preorder. cbn [resume g_yielded g_deque].
  change (match sp_children sp with Some c => c | None => [] end) with (olist (sp_children sp)).
  rewrite firstn_all2 by (rewrite length_fpreorder; lia). reflexivity.
Qed.
Lemma relations_spec s b l : parse_string s = Ok b ->
  validate_spec_relations l (b_lookup b) = flat_map (relation_warnings b) l.
Proof.
  intros H. induction l as [|r l IH]; [reflexivity|]. cbn. unfold relation_warnings.
  rewrite !(exists_refers s b _ H), IH, <- app_assoc. reflexivity.
Qed.
(** the nodes of all specifications exist and are unique *)
Lemma all_nodes_ex b : all_nodes b (concat (map (fun sp => fpreorder (olist (sp_children sp))) (specifications_of b))).
Proof.
  eexists; split; [|reflexivity]. induction (specifications_of b); constructor; auto.
  apply fpreorder_document_order.
Qed.
Theorem C33_nodes_are_determined : forall b a c, all_nodes b a -> all_nodes b c -> a = c.
Proof.
  intros b a c (p & F1 & ->) (q & F2 & ->). f_equal. revert q F2.
  induction F1 as [|sp x l l' H1 _ IH]; intros q F2; inversion F2; subst; [reflexivity|].
  f_equal; [eapply document_order_unique; eauto|auto].
Qed.
(** For every document that parses, validation yields exactly: the schema errors
    collected by the parser, the warnings about the document as such, one warning
    per dangling end of a relation (SOURCE before TARGET) in document order, one
    warning per hierarchy node with a dangling reference in document order. *)
Theorem C33_warnings_are_exactly_the_dangling_references :
  forall s b, parse_string s = Ok b ->
    exists nodes, all_nodes b nodes /\
    validate_bundle b =
      Ok (ErrorBundle [] (map FromBundle (b_exceptions b))
           (general_warnings b
            ++ flat_map (relation_warnings b) (relations_of b)
            ++ flat_map (node_warnings b) nodes)).
Proof.
  intros s b H. eexists. split; [apply all_nodes_ex|]. unfold validate_bundle.
  set (refs := match b_core_content b with Some (Some c) => _ | _ => _ end).
  assert (E : refs = Ok (flat_map (relation_warnings b) (relations_of b)
     ++ flat_map (node_warnings b) (concat (map (fun sp => fpreorder (olist (sp_children sp))) (specifications_of b))))).
  { unfold refs, relations_of, specifications_of, b_list, bundle_content.
    destruct (b_core_content b) as [[c|]|] eqn:EC; try reflexivity.
    assert (EH : match rc_specifications c with Some l => validate_specifications l 0 b | None => Ok [] end
      = Ok (flat_map (node_warnings b) (concat (map (fun sp => fpreorder (olist (sp_children sp))) (olist (rc_specifications c)))))).
    { destruct (rc_specifications c) as [l|] eqn:EL; [|reflexivity].
      pose proof (validate_specifications_spec b [] l) as V. cbn [length] in V.
      rewrite V by (unfold bundle_specifications; rewrite EC; exact EL).
      cbn [olist]. rewrite flat_map_concat_map, map_map. do 2 f_equal. apply map_ext. intros sp.
      apply flat_map_ext. intros h. unfold node_warnings. rewrite (exists_refers s b _ H). reflexivity. }
    rewrite EH. cbn [bind]. do 2 f_equal. destruct (rc_spec_relations c) as [l|]; [|reflexivity].
    apply (relations_spec s b l H). }
  rewrite E. reflexivity.
Qed.
(** every warning about a reference names an identifier that no SPEC-OBJECT of
    the document has *)
Theorem C33_no_false_alarm :
  forall s b eb, parse_string s = Ok b -> validate_bundle b = Ok eb ->
    forall w, In w (eb_semantic eb) ->
      match w with
      | RelationMissing _ _ r | HierarchyMissing _ r =>
          forall o, In o (spec_objects_of b) -> r <> Some (so_identifier o)
      | _ => True
      end.
Proof.
  intros s b eb H HV w HW. destruct (C33_warnings_are_exactly_the_dangling_references s b H) as (nodes & _ & E).
  rewrite E in HV. injection HV as <-. cbn in HW.
  assert (R : forall r, refers b r = false -> forall o, In o (spec_objects_of b) -> r <> Some (so_identifier o)).
  { intros r F o HO ->. unfold refers in F. apply not_true_iff_false in F. apply F. apply existsb_exists.
    exists o. split; [exact HO|apply ostr_eqb_refl]. }
  apply in_app_or in HW. destruct HW as [HW|HW].
  { unfold general_warnings in HW. apply in_app_or in HW.
    destruct HW as [HW|HW]; [destruct (ni_doctype_is_present _)|destruct (str_eqb _ _)]; cbn in HW;
      destruct HW as [<-|[]] || destruct HW; exact I. }
  apply in_app_or in HW. destruct HW as [HW|HW]; apply in_flat_map in HW; destruct HW as (x & _ & HW).
  - unfold relation_warnings in HW. apply in_app_or in HW.
    destruct HW as [HW|HW]; [destruct (refers b (sr_source x)) eqn:E1|destruct (refers b (sr_target x)) eqn:E1];
      cbn in HW; destruct HW as [<-|[]] || destruct HW; apply R, E1.
  - unfold node_warnings in HW. destruct (refers b (h_spec_object x)) eqn:E1; cbn in HW;
      destruct HW as [<-|[]] || destruct HW. apply R, E1.
Qed.

(** ** C34 *)
Lemma print_all_ok {A} (f : A -> result line) l ls :
  print_all f l = (ls, None) <-> mapM f l = Ok ls.
Proof.
  revert ls. induction l as [|x l IH]; intros ls; cbn; [split; congruence|].
  destruct (f x) as [s|e]; cbn; [|split; discriminate].
  destruct (print_all f l) as [l1 [e|]]; destruct (mapM f l) as [l2|e2]; cbn.
  - split; [congruence|]. intros _. pose proof (proj2 (IH l2) eq_refl) as X. discriminate.
  - split; congruence.
  - pose proof (proj1 (IH l1) eq_refl) as E. injection E as <-. split; congruence.
  - pose proof (proj1 (IH l1) eq_refl). discriminate.
Qed.
Lemma print_all_map {A} (f : A -> result str) (g : str -> line) l :
  mapM (fun x => let! d := f x in Ok (g d)) l = (let! ds := mapM f l in Ok (map g ds)).
Proof.
  induction l as [|x l IH]; [reflexivity|]. cbn. destruct (f x) as [d|]; [|reflexivity]. cbn. cbn in IH. rewrite IH.
  destruct (mapM f l); reflexivity.
Qed.
(** A process that ends with an exit code has printed one line per error and
    warning, in order, then the three counts; the code is 0 exactly if there are
    none. *)
Theorem C34_report :
  forall c eb ls n, report_errors c eb = (ls, Exit n) ->
    (exists d1 d2, mapM describe_schema (eb_schema eb) = Ok d1 /\ mapM describe_semantic (eb_semantic eb) = Ok d2
      /\ ls = map (fun _ => LXmlError) (eb_xml eb) ++ map LSchema d1 ++ map LSemantic d2
              ++ LSummary (length (eb_xml eb)) (length (eb_schema eb)) (length (eb_semantic eb))
              :: (if use_reqif_schema c then [] else [LNote]))
    /\ (n = 0 <-> eb_xml eb = [] /\ eb_schema eb = [] /\ eb_semantic eb = [])
    /\ n <= 1.
Proof.
  intros c eb ls n H. unfold report_errors in H.
  destruct (print_all (fun x => let! d := describe_schema x in Ok (LSchema d)) (eb_schema eb)) as [l1 [e|]] eqn:E1; [discriminate|].
  destruct (print_all (fun x => let! d := describe_semantic x in Ok (LSemantic d)) (eb_semantic eb)) as [l2 [e|]] eqn:E2; [discriminate|].
  apply print_all_ok in E1, E2. rewrite print_all_map in E1. rewrite print_all_map in E2. injection H as <- <-.
  destruct (mapM describe_schema (eb_schema eb)) as [d1|]; [|discriminate]. cbn in E1. injection E1 as <-.
  destruct (mapM describe_semantic (eb_semantic eb)) as [d2|]; [|discriminate]. cbn in E2. injection E2 as <-.
  split; [|split].
  - exists d1, d2. auto.
  - unfold has_any_errors. destruct (eb_xml eb), (eb_schema eb), (eb_semantic eb); cbn; split; intros; try discriminate; auto;
      destruct H as (? & ? & ?); discriminate.
  - destruct (has_any_errors eb); lia.
Qed.
(** The schema check was passed. *)
Definition schema_accepts (e : env) (cwd path : str) : Prop :=
  getcwd_fails e = None /\ chdir_fails e reqif_root = None /\ chdir_fails e cwd = None
  /\ snd (schema e reqif_root path) = SchemaOk.
(** the text of the file [path] *)
Definition text_of (e : env) (path : str) : option str :=
  match files e path with
  | Some raw => option_map universal_newlines (utf8_decode raw)
  | None => None
  end.
Lemma parse_file_string raw :
  snd (parse_file None (Some raw) []) =
  match utf8_decode raw with
  | None => Raise EUnicodeError
  | Some s => parse_string (universal_newlines s)
  end.
Proof. unfold parse_file, parse_string. destruct (utf8_decode raw); reflexivity. Qed.
Lemma describe_nil : mapM describe_semantic [] = Ok []. Proof. reflexivity. Qed.
Lemma exit_code_zero_at e c cwd path :
  snd (snd (match validate_path e c cwd path with
       | (cwd', Raise x) => (cwd', ([], Uncaught x))
       | (cwd', Ok eb) => (cwd', report_errors c eb)
       end)) = Exit 0 <->
    (use_reqif_schema c = true -> schema_accepts e cwd path)
    /\ exists s b nodes, text_of e path = Some s /\ parse_string s = Ok b /\ all_nodes b nodes
       /\ b_exceptions b = [] /\ general_warnings b = [] /\ no_dangling b nodes.
Proof.
  assert (CLEAN : forall s b nodes, parse_string s = Ok b -> all_nodes b nodes ->
    (b_exceptions b = [] /\ general_warnings b = [] /\ no_dangling b nodes <->
     validate_bundle b = Ok (ErrorBundle [] [] []))).
  { intros s b nodes H HN. destruct (C33_warnings_are_exactly_the_dangling_references s b H) as (nodes' & HN' & ->).
    rewrite (C33_nodes_are_determined b nodes' nodes HN' HN). clear HN' nodes'. unfold no_dangling.
    assert (R : flat_map (relation_warnings b) (relations_of b) = [] <->
      forall r, In r (relations_of b) -> refers b (sr_source r) = true /\ refers b (sr_target r) = true).
    { split.
      - intros F r HR. assert (FR : relation_warnings b r = []).
        { destruct (relation_warnings b r) as [|w ws] eqn:EW; [reflexivity|]. exfalso.
          assert (In w (flat_map (relation_warnings b) (relations_of b))) by (apply in_flat_map; exists r; rewrite EW; cbn; auto).
          rewrite F in H0. destruct H0. }
        unfold relation_warnings in FR. destruct (refers b (sr_source r)), (refers b (sr_target r)); auto; discriminate.
      - intros F. induction (relations_of b) as [|r l IH]; [reflexivity|]. cbn. unfold relation_warnings at 1.
        destruct (F r) as [-> ->]; [left; reflexivity|]. cbn. apply IH. intros; apply F; right; assumption. }
    assert (N : flat_map (node_warnings b) nodes = [] <-> forall h, In h nodes -> refers b (h_spec_object h) = true).
    { clear HN. induction nodes as [|h l IH]; cbn; [split; auto; intros _ x []|]. unfold node_warnings at 1.
      destruct (refers b (h_spec_object h)) eqn:EH; cbn.
      - rewrite IH. split; [intros F x [<-|Hx]; auto|intros F x Hx; apply F; auto].
      - split; [discriminate|]. intros F. rewrite (F h) in EH by auto. discriminate. }
    rewrite <- R, <- N. split.
    - intros (-> & -> & -> & ->). reflexivity.
    - intros E. injection E as E1 E2. apply app_eq_nil in E2. destruct E2 as [E2 E3]. apply app_eq_nil in E3.
      apply map_eq_nil in E1. tauto. }
  assert (REP : forall eb, snd (report_errors c eb) = Exit 0 <-> eb = ErrorBundle [] [] []).
  { intros eb. split; [|intros ->; reflexivity]. intros HE.
    destruct (report_errors c eb) as [ls en] eqn:ER. cbn in HE. subst en.
    destruct (C34_report c eb ls 0 ER) as (_ & [Z _] & _). destruct (Z eq_refl) as (Z1 & Z2 & Z3).
    destruct eb; cbn in *; congruence. }
  assert (BODY :
    (exists eb, match snd (parse_file None (files e path) []) with
     | Raise EReqIFXMLParsingError => Ok (ErrorBundle [EReqIFXMLParsingError] [] [])
     | Raise x => Raise x | Ok b => validate_bundle b end = Ok eb /\ snd (report_errors c eb) = Exit 0) <->
    exists s b nodes, text_of e path = Some s /\ parse_string s = Ok b /\ all_nodes b nodes
       /\ b_exceptions b = [] /\ general_warnings b = [] /\ no_dangling b nodes).
  { unfold text_of. destruct (files e path) as [raw|].
    2:{ split; [intros (eb & E & _); discriminate|intros (s & b & nodes & ES & _); discriminate]. }
    rewrite parse_file_string. split.
    - intros (eb & E & X). apply REP in X. subst eb.
      destruct (utf8_decode raw) as [s|]; [|discriminate]. cbn [option_map]. exists (universal_newlines s).
      destruct (parse_string (universal_newlines s)) as [b|x] eqn:EP; [|destruct x; discriminate].
      destruct (C33_warnings_are_exactly_the_dangling_references _ b EP) as (nodes & HN & _).
      exists b, nodes. split; [reflexivity|]. split; [reflexivity|]. split; [exact HN|]. apply (CLEAN _ b nodes EP HN), E.
    - intros (s & b & nodes & ES & EP & HN & X). exists (ErrorBundle [] [] []).
      destruct (utf8_decode raw) as [s0|]; [|discriminate]. cbn in ES. injection ES as ->. rewrite EP.
      split; [apply (CLEAN s b nodes EP HN), X|reflexivity]. }
  unfold validate_path.
  set (parsed := match snd (parse_file None (files e path) []) with
     | Raise EReqIFXMLParsingError => Ok (ErrorBundle [EReqIFXMLParsingError] [] [])
     | Raise x => Raise x | Ok b => validate_bundle b end) in *.
  assert (GO : forall cwd' : str, snd (snd (match (cwd', parsed) with
     | (cwd', Raise x) => (cwd', ([], Uncaught x))
     | (cwd', Ok eb) => (cwd', report_errors c eb) end)) = Exit 0 <->
     (exists eb, parsed = Ok eb /\ snd (report_errors c eb) = Exit 0)).
  { intros cwd'. destruct parsed as [eb|x]; cbn.
    - split; [eauto|]. intros (eb' & X & Y). congruence.
    - split; [discriminate|]. intros (eb' & X & Y). discriminate. }
  destruct (use_reqif_schema c).
  - destruct (schema_step e cwd path) as [cwd1 early] eqn:ES.
    assert (ACC : early = Ok None <-> schema_accepts e cwd path).
    { unfold schema_step, chdir, schema_accepts in *. clear - ES.
      destruct (getcwd_fails e); [injection ES as <- <-; split; [discriminate|intros (X & _); discriminate]|].
      destruct (chdir_fails e reqif_root) as [x|].
      + destruct (chdir_fails e cwd); injection ES as <- <-; split; try discriminate; intros (_ & X & _); discriminate.
      + destruct (schema e reqif_root path) as [d so]; cbn.
        destruct so, (chdir_fails e cwd); injection ES as <- <-; split; try discriminate;
          try (intros (_ & _ & X & Y); discriminate); auto; try (intros (_ & _ & _ & Y); discriminate). }
    destruct early as [[eb|]|x]; cbn [bind].
    + split.
      * intros HE. exfalso. apply REP in HE. subst eb. clear - ES. unfold schema_step, chdir in ES.
        destruct (getcwd_fails e); [discriminate|]. destruct (chdir_fails e reqif_root).
        { destruct (chdir_fails e cwd); discriminate. }
        destruct (schema e reqif_root path) as [d []], (chdir_fails e cwd); discriminate.
      * intros [A _]. exfalso. specialize (A eq_refl). apply ACC in A. discriminate.
    + rewrite GO, BODY. split; [intros X; split; [intros _; apply ACC; reflexivity|exact X]|intros [_ X]; exact X].
    + cbn. split; [discriminate|]. intros [A _]. exfalso. specialize (A eq_refl). apply ACC in A. discriminate.
  - cbn [bind]. rewrite GO, BODY. split; [intros X; split; [discriminate|exact X]|intros [_ X]; exact X].
Qed.
Theorem C34_exit_code_zero :
  forall e c cwd, working_directory cwd ->
    snd (snd (validate e c cwd)) = Exit 0 <->
    files e (asked_for cwd (input_file c)) <> None
    /\ exists path, read_from e cwd (input_file c) path
       /\ (use_reqif_schema c = true -> schema_accepts e cwd path)
       /\ exists s b nodes, text_of e path = Some s /\ parse_string s = Ok b /\ all_nodes b nodes
          /\ b_exceptions b = [] /\ general_warnings b = [] /\ no_dangling b nodes.
Proof.
  intros e c cwd W. unfold validate. change (asked_for cwd (input_file c)) with (opened cwd (input_file c)).
  destruct (files e (opened cwd (input_file c))) as [raw|].
  2:{ split; [discriminate|intros [X _]; congruence]. }
  unfold validate_file. destruct (input_path e c cwd) as [path|x] eqn:EP.
  - rewrite exit_code_zero_at. split.
    + intros H. split; [discriminate|]. exists path. split; [apply input_path_read; assumption|exact H].
    + intros (_ & path' & R & H). apply input_path_read in R; [|exact W]. rewrite EP in R. injection R as <-. exact H.
  - split; [discriminate|]. intros (_ & path' & R & _). apply input_path_read in R; [|exact W]. congruence.
Qed.
(** The path that is read is determined: no reduction of the components, in whatever
    order, leads to another one. *)
Theorem C34_path_is_determined :
  forall e cwd input p q, working_directory cwd ->
    read_from e cwd input p -> read_from e cwd input q -> p = q.
Proof.
  intros e cwd input p q W [[A ->]|(A & _ & C)] [[B ->]|(B & _ & D)]; try congruence.
  exact (canonical_unique cwd input p q W A C D).
Qed.
(** ... and there is one whenever the working directory can be asked for. *)
Theorem C34_path_exists :
  forall e cwd input, working_directory cwd -> getcwd_fails e = None -> exists p, read_from e cwd input p.
Proof.
  intros e cwd input W G. destruct (starts_with "/" input) eqn:I; [exists input; left; auto|].
  exists (abspath cwd input). right. split; [exact I|]. split; [exact G|]. apply abspath_canonical; auto.
Qed.
(** The file whose existence is checked need not be the one that is validated: on a
    disk where "link" leads elsewhere, "link/../a.reqif" exists, is well-formed and
    dangles, and the command reports the sound "a.reqif" of the working directory. *)
Definition linked_disk (there here : str) : env :=
  Env (fun p => if str_eqb p "/home/link/../a.reqif" then utf8_encode there
                else if str_eqb p "/home/a.reqif" then utf8_encode here else None)
      (fun _ => None) None (fun d _ => (d, SchemaOk)).
(** Every run ends with exit code 0 or 1 or with an uncaught exception. *)
Theorem C34_exit_codes :
  forall e c cwd, match snd (snd (validate e c cwd)) with Exit n => n <= 1 | Uncaught _ => True end.
Proof.
  intros e c cwd. unfold validate. destruct (files e _); [|cbn; lia].
  destruct (validate_file e c cwd) as [d [eb|x]]; [|exact I]. cbn [snd].
  destruct (report_errors c eb) as [ls [n|x]] eqn:E; [|exact I]. apply (C34_report c eb ls n E).
Qed.
(** The general warnings, in terms of the text: one if it has no XML
    declaration, one if it declares an encoding other than "UTF-8". *)
Theorem C34_declaration_warnings :
  forall s b decl root r, parse_string s = Ok b -> lxml_parse s = Some (decl, root) ->
    strip_if_namespaced root = Ok r -> children r <> [] ->
    exists w,
      general_warnings b = (match decl with None => [MissingDeclaration] | Some _ => [] end) ++ w
      /\ (w = [WrongEncoding] /\ (exists e, SpecXml.declared_encoding decl e /\ e <> "UTF-8")
          \/ w = [] /\ (forall e, SpecXml.declared_encoding decl e -> e = "UTF-8")).
Proof.
  intros s b decl root r H HL HS HK.
  assert (DE : forall e, decl_encoding decl = Some e <-> SpecXml.declared_encoding decl e).
  { intros e. unfold lxml_parse in HL. destruct (etree_parse s) as [[d x]|] eqn:EP; [|discriminate]. cbn [d_root d_decl] in HL. destruct (resolve [] x); [|discriminate].
    assert (d = decl) by congruence. subst d. pose proof (SerialiseProofs.etree_parse_text _ _ EP) as RT. apply GrammarDoc.read_text_grammar in RT. destruct RT as (t & t' & _ & _ & NC & D).
    exact (NamespaceProofs.encoding_declared t' decl x e D NC). }
  exists (match decl_encoding decl with Some enc => if str_eqb enc "UTF-8" then [] else [WrongEncoding] | None => [] end). split.
  2:{ destruct (decl_encoding decl) as [e|] eqn:E.
      - destruct (str_eqb_spec e "UTF-8") as [->|N].
        + right. split; [reflexivity|]. intros e D. apply DE in D. congruence.
        + left. split; [reflexivity|]. exists e. split; [apply DE; reflexivity|exact N].
      - right. split; [reflexivity|]. intros e D. apply DE in D. congruence. }
  clear DE. rewrite (proj2 (string_traced s)) in H. unfold pure_string in H.
  destruct s as [|x s]; [discriminate|]. rewrite HL in H. unfold pure_reqif in H. rewrite HS in H. cbn [bind] in H.
  destruct (negb (tag_is "REQ-IF" r)); [discriminate|]. destruct (children r) as [|k ks] eqn:EK; [congruence|].
  destruct (match find_child "THE-HEADER" r with
            | Some h => let! x0 := parse_header h in Ok (Some x0) | None => Ok None end) as [hd|e]; [|discriminate].
  cbn [bind] in H.
  match type of H with bind ?m _ = _ => destruct m as [[[core lk] xs]|e]; [|discriminate] end.
  cbn [bind] in H. injection H as <-. unfold general_warnings. cbn.
  destruct decl as [d|]; cbn [app]; [|destruct (decl_encoding None) as [e|]; [destruct (str_eqb e "UTF-8")|]; reflexivity].
  destruct (decl_encoding (Some d)) as [e|]; [destruct (str_eqb e "UTF-8")|]; reflexivity.
Qed.

Lemma relation_node s b r : parse_string s = Ok b -> In r (relations_of b) ->
  exists n, sr_xml_node r = Some n /\ tag n = Some "SPEC-RELATION".
Proof.
  intros H I. pose proof (parse_string_content _ _ H) as F. destruct (document_content s) as [rc|].
  - destruct F as (c & E & F). destruct (spec_in rc_spec_relations b c r) as (l & EL & HI'); [|exact I|].
    { unfold bundle_content. rewrite E. reflexivity. }
    destruct (cf_sr _ _ _ _ F) as (ol & S & _). destruct (find_child "SPEC-RELATIONS" rc) as [x|]; [|destruct S; congruence].
    destruct S as [S HM]. rewrite EL in S. injection S as ->. apply mapM_Ok in HM.
    clear -HM HI'. induction HM as [|n y ks ys Hy _ IH]; [destruct HI'|]. destruct y as [y|y]; cbn [lefts] in HI'; [|auto].
    destruct HI' as [->|HI']; [|auto]. apply inl_item in Hy. exists n. pose proof Hy as Hy'.
    apply spec_relation_faithful in Hy'. split; [|apply Hy'].
    unfold parse_spec_relation in Hy. rewrite !has_child_tags in Hy. inv_ok Hy.
    destruct (has_child "SOURCE" n); [|discriminate]. destruct (has_child "TARGET" n); [|discriminate]. cbn [negb] in Hy.
    inv_ok Hy. injection Hy as <-. reflexivity.
  - exfalso. unfold relations_of, b_list, bundle_content in I. destruct F as ([E|E] & _); rewrite E in I; destruct I.
Qed.
(** The texts of the report.  A skipped relation is named with the child it
    lacks and its markup; a dangling reference is named with what contains it, the
    identifier it refers to and its markup. *)
Definition with_markup (o : option node) (heading : str) : result str :=
  match o with
  | Some n => match stringify_node false n with
              | Ok d => Ok (heading ++ "Affected fragment:" ++ nl ++ d) | Raise e => Raise e end
  | None => Raise EAttributeError
  end.
Definition shown_reference (r : option str) : str := match r with Some i => i | None => "None" end.
Theorem C34_messages :
  forall s b, parse_string s = Ok b ->
    (forall e, In e (b_exceptions b) -> exists n t,
       tag n = Some "SPEC-RELATION" /\ (t = "SOURCE" \/ t = "TARGET") /\ has_child t n = false
       /\ describe_schema (FromBundle e) =
          with_markup (Some n) ("schema error: Tag <SPEC-RELATION> is missing a <" ++ t ++ "> child tag. "))
    /\ (forall r w, In r (relations_of b) -> In w (relation_warnings b r) ->
          exists t i, ((t, i) = ("SOURCE", sr_source r) \/ (t, i) = ("TARGET", sr_target r))
          /\ describe_semantic w = with_markup (sr_xml_node r)
               ("schema error: A <SPEC-RELATION>'s <" ++ t ++ "> contains a link to a non-existing <SPEC-OBJECT>: "
                ++ shown_reference i ++ nl))
    /\ (forall h w, In w (node_warnings b h) ->
          describe_semantic w = with_markup (h_xml_node h)
               ("schema error: A <SPEC-HIERARCHY>'s <SPEC-OBJECT-REF> contains a link to a non-existing <SPEC-OBJECT>: "
                ++ shown_reference (h_spec_object h) ++ nl))
    /\ (forall w, In w (general_warnings b) ->
          describe_semantic w =
            Ok "Document is missing a valid XML declaration. Every ReqIFdocument should have the following line: <?xml version=""1.0"" encoding=""UTF-8""?>"
          \/ describe_semantic w =
            Ok "ReqIF Implementation Guide recommends using UTF-8 encoding for ReqIF files. Every ReqIF document should have the following line: <?xml version=""1.0"" encoding=""UTF-8""?>")
    /\ (forall m, describe_schema (FromSchema m) = Ok m).
Proof.
  intros s b H. split; [|split; [|split; [|split]]].
  - intros e I. destruct (document_content s) as [rc|] eqn:C.
    2:{ destruct (C16_without_content_element s b H C) as [_ X]. rewrite X in I. destruct I. }
    destruct (C15_document s b rc H C) as [X _]. rewrite X in I. apply in_flat_map in I. destruct I as (n & F & I).
    unfold faulty_relations in F. destruct (section_items "SPEC-RELATIONS" rc) as [ks|]; [|destruct F].
    apply filter_In in F. destruct F as [_ F]. unfold faulty in F. rewrite !andb_true_iff in F. destruct F as [[[T _] _] _].
    apply tag_is_eq in T. unfold report, lacks in I. destruct (has_child "SOURCE" n) eqn:E1; cbn [negb] in I.
    + destruct (has_child "TARGET" n) eqn:E2; cbn [negb] in I; [destruct I|]. destruct I as [<-|[]].
      exists n, "TARGET". split; [exact T|]. split; [right; reflexivity|]. split; [exact E2|].
      unfold describe_schema, dump_of, with_markup. rewrite T. destruct (stringify_node false n); reflexivity.
    + destruct I as [<-|[]].
      exists n, "SOURCE". split; [exact T|]. split; [left; reflexivity|]. split; [exact E1|].
      unfold describe_schema, dump_of, with_markup. rewrite T. destruct (stringify_node false n); reflexivity.
  - intros r w I J.
    assert (T : exists n, sr_xml_node r = Some n /\ tag n = Some "SPEC-RELATION") by exact (relation_node s b r H I).
    destruct T as (n & N & T). unfold relation_warnings in J. apply in_app_or in J.
    destruct J as [J|J]; [exists "SOURCE", (sr_source r); destruct (refers b (sr_source r))|
                          exists "TARGET", (sr_target r); destruct (refers b (sr_target r))];
      cbn [In] in J; try contradiction; destruct J as [<-|[]];
      (split; [tauto|]);
      unfold describe_semantic, dump_of, with_markup; rewrite N, T; destruct (stringify_node false n); try reflexivity;
      cbn [bind]; f_equal; unfold fmt, shown_reference; rewrite <- !app_assoc; reflexivity.
  - intros h w I. unfold node_warnings in I. destruct (refers b (h_spec_object h)); [destruct I|]. destruct I as [<-|[]].
    unfold describe_semantic, dump_of, with_markup. destruct (h_xml_node h) as [n|]; [|reflexivity].
    destruct (stringify_node false n); [|reflexivity]. cbn [bind]. f_equal. unfold fmt, shown_reference. rewrite <- !app_assoc. reflexivity.
  - intros w I. unfold general_warnings in I. apply in_app_or in I. destruct I as [I|I].
    + destruct (ni_doctype_is_present _); [destruct I|]. destruct I as [<-|[]]. left. reflexivity.
    + destruct (str_eqb _ _); [destruct I|]. destruct I as [<-|[]]. right. reflexivity.
  - reflexivity.
Qed.

(** ** C35 *)
Theorem C35_working_directory_restored :
  forall e c cwd, chdir_fails e cwd = None -> fst (validate e c cwd) = cwd.
Proof.
  intros e c cwd H. unfold validate. destruct (files e _); [|reflexivity].
  assert (F : fst (validate_file e c cwd) = cwd).
  { unfold validate_file. destruct (input_path e c cwd) as [path|]; [|reflexivity].
    unfold validate_path. destruct (use_reqif_schema c); [|reflexivity].
    unfold schema_step. destruct (getcwd_fails e); [reflexivity|].
    destruct (chdir e cwd reqif_root) as [c1 r1].
    destruct (match r1 with Ok _ => _ | Raise _ => _ end) as [c2 body].
    unfold chdir. rewrite H. reflexivity. }
  destruct (validate_file e c cwd) as [d [eb|x]]; exact F.
Qed.
(** Only a failure to change back (e.g. the directory was removed meanwhile)
    leaves the process elsewhere. *)
Theorem C35_removed_directory_refuted :
  exists e c cwd, fst (validate e c cwd) <> cwd.
Proof.
  exists (Env (fun _ => Some []) (fun p => if str_eqb p "/home" then Some EOSError else None) None
              (fun d _ => (d, SchemaOk))),
    (Config "a.reqif" true), "/home".
  vm_compute. discriminate.
Qed.

(** ** Cases *)
Definition disk (name text : str) : env :=
  Env (fun p => if str_eqb p name then utf8_encode text else None) (fun _ => None) None
      (fun d p => ("/tmp", if str_eqb p name then SchemaOk else SchemaRaises EOSError)).
Definition dangling_text (decl extra : str) : str :=
  decl ++ wrap ("<SPEC-OBJECTS><SPEC-OBJECT IDENTIFIER=""o1""><TYPE><SPEC-OBJECT-TYPE-REF>t</SPEC-OBJECT-TYPE-REF></TYPE></SPEC-OBJECT></SPEC-OBJECTS>"
    ++ "<SPEC-RELATIONS>" ++ relation_text "r1" (source_text ++ target_text) ++ "</SPEC-RELATIONS>"
    ++ "<SPECIFICATIONS><SPECIFICATION IDENTIFIER=""s"">" ++ kids_text (hier_text "a" (extra ++ kids_text (hier_text "b" [])))
    ++ "</SPECIFICATION></SPECIFICATIONS>").
Definition tags_of (eb : error_bundle) : list (str * option str) :=
  map (fun w => match w with
                | MissingDeclaration => ("declaration", None) | WrongEncoding => ("encoding", None)
                | RelationMissing _ t r => (t, r) | HierarchyMissing _ r => ("HIERARCHY", r) end) (eb_semantic eb).
Example C33_example :
  with_bundle (dangling_text [] []) (fun b => match validate_bundle b with Ok eb => tags_of eb | Raise _ => [] end)
  = Some [("declaration", None); ("TARGET", Some "o2"); ("HIERARCHY", Some "o"); ("HIERARCHY", Some "o")].
Proof. vm_compute. reflexivity. Qed.
Definition valid_text : str :=
  "<?xml version=""1.0"" encoding=""UTF-8""?>"
  ++ wrap ("<SPEC-OBJECTS><SPEC-OBJECT IDENTIFIER=""o1""><TYPE><SPEC-OBJECT-TYPE-REF>t</SPEC-OBJECT-TYPE-REF></TYPE></SPEC-OBJECT>"
           ++ "<SPEC-OBJECT IDENTIFIER=""o2""><TYPE><SPEC-OBJECT-TYPE-REF>t</SPEC-OBJECT-TYPE-REF></TYPE></SPEC-OBJECT></SPEC-OBJECTS>"
           ++ "<SPEC-RELATIONS>" ++ relation_text "r1" (source_text ++ target_text) ++ "</SPEC-RELATIONS>").
Example C34_example :
  validate (disk "/home/a.reqif" valid_text) (Config "a.reqif" true) "/home" = ("/home", ([LSummary 0 0 0], Exit 0))
  /\ snd (snd (validate (disk "/home/a.reqif" (dangling_text [] [])) (Config "a.reqif" false) "/home")) = Exit 1.
Proof. split; vm_compute; reflexivity. Qed.
Example C35_example :
  (* the schema library changes directory and raises *)
  validate (Env (fun _ => Some []) (fun _ => None) None (fun _ _ => ("/tmp", SchemaRaises EValueError)))
           (Config "a.reqif" true) "/home" = ("/home", ([], Uncaught EValueError)).
Proof. vm_compute. reflexivity. Qed.
Example C34_path_example :
  (* every component that can be dropped is dropped *)
  validate (Env (fun p => if str_eqb p "/home/user/./x//.././a.reqif" then Some [] else
                          if str_eqb p "/home/user/a.reqif" then utf8_encode valid_text else None)
                (fun _ => None) None (fun d p => (d, if str_eqb p "/home/user/a.reqif" then SchemaOk else SchemaRaises EOSError)))
           (Config "./x//.././a.reqif" true) "/home/user" = ("/home/user", ([LSummary 0 0 0], Exit 0))
  /\ working_directory "/home/user"
  (* an absolute path is taken as it is *)
  /\ snd (snd (validate (disk "/home/./a.reqif" valid_text) (Config "/home/./a.reqif" true) "/tmp")) = Exit 0.
Proof. repeat split; vm_compute; first [reflexivity | discriminate]. Qed.
Theorem C34_checked_file_is_validated_refuted :
  exists e c cwd s b nodes,
    working_directory cwd /\ text_of e (asked_for cwd (input_file c)) = Some s /\ parse_string s = Ok b
    /\ all_nodes b nodes /\ ~ no_dangling b nodes
    /\ validate e c cwd = (cwd, ([LSummary 0 0 0; LNote], Exit 0)).
Proof.
  exists (linked_disk (dangling_text [] []) valid_text), (Config "link/../a.reqif" false), "/home".
  assert (P : exists b, parse_string (dangling_text [] []) = Ok b) by (eexists; vm_compute; reflexivity).
  destruct P as (b & P). exists (dangling_text [] []), b.
  destruct (C33_warnings_are_exactly_the_dangling_references _ b P) as (nodes & N & V). exists nodes.
  split; [split; vm_compute; [reflexivity|discriminate]|]. split; [vm_compute; reflexivity|]. split; [exact P|]. split; [exact N|].
  split; [|vm_compute; reflexivity].
  intros [R _]. revert R. revert P. clear. intros P R.
  assert (E : match parse_string (dangling_text [] []) with
              | Ok b => existsb (fun r => negb (refers b (sr_target r))) (relations_of b) | Raise _ => false end = true)
    by (vm_compute; reflexivity).
  rewrite P in E. apply existsb_exists in E as (r & I & F). rewrite (proj2 (R r I)) in F. discriminate.
Qed.
(** An empty REQ-IF element: neither the missing declaration nor the encoding is
    reported. *)
Theorem C34_empty_root_refuted :
  exists s b root, parse_string s = Ok b /\ lxml_parse s = Some (None, root) /\ general_warnings b = [].
Proof.
  exists "<REQ-IF></REQ-IF>". eexists _, _. split; [vm_compute; reflexivity|]. split; vm_compute; reflexivity.
Qed.
(** A processing instruction inside a node with a dangling reference: instead of
    the report and exit code 1 there is an uncaught exception. *)
Theorem C34_report_crash_refuted :
  exists text, snd (snd (validate (disk "/home/a.reqif" text) (Config "a.reqif" false) "/home")) = Uncaught EValueError
    /\ exists b, parse_string text = Ok b.
Proof.
  exists (dangling_text [] "<EDITABLE-ATTS><?pi?></EDITABLE-ATTS>"). split; [vm_compute; reflexivity|].
  eexists. vm_compute. reflexivity.
Qed.

Print Assumptions C33_nodes_are_determined.
Print Assumptions C33_warnings_are_exactly_the_dangling_references.
Print Assumptions C33_no_false_alarm.
Print Assumptions C34_report.
Print Assumptions C34_exit_code_zero.
Print Assumptions C34_path_is_determined.
Print Assumptions C34_path_exists.
Print Assumptions C34_checked_file_is_validated_refuted.
Print Assumptions C34_exit_codes.
Print Assumptions C34_declaration_warnings.
Print Assumptions C34_messages.
Print Assumptions C35_working_directory_restored.
Print Assumptions C35_removed_directory_refuted.
Print Assumptions C34_empty_root_refuted.
Print Assumptions C34_report_crash_refuted.
