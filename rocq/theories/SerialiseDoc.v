(** SerialiseDoc.v -- a written document is read as the tree it was written from. *)
From Coq Require Import Permutation.
From Verif Require Import Base Xml Utf8 Lxml Py Parser Serialise SpecXml SpecLines DictProofs XmlProofs LineProofs
  ParserProofs GrammarProofs GrammarMachine GrammarInv GrammarStep GrammarDoc SerialiseProofs.

Definition mark_up (n : node) : Prop := match n with Cmt _ | Pin _ => True | _ => False end.
Definition flanks (before after : list node) (root : node) : list xnode :=
  [XChar 10%N] ++ flat_map (fun n => [unresolve n; XChar 10%N]) before ++ [unresolve root]
  ++ flat_map (fun n => [XChar 10%N; unresolve n]) after ++ [XChar 10%N].
Lemma mixed_one (b : bool) hex n : writable b n -> match n with Chr _ => False | _ => True end -> 
  mixed (in_charset b (put hex true 0 n)) [unresolve (pretty true 0 (refined b n))].
Proof.
  intros HW HN. inversion HW; subst.
  - contradiction HN.
  - cbn [put refined pretty unresolve]. rewrite !in_charset_app, (charset_lit b "<!--"), (charset_lit b "-->") by reflexivity.
    apply (mixed_comment (in_charset b s) [] []); [apply comment_charset; assumption|constructor].
  - cbn [put refined pretty unresolve]. rewrite !in_charset_app, (charset_lit b "<?"), (charset_lit b "?>") by reflexivity.
    apply (mixed_instruction (in_charset b (pi_normal s)) [] []); [apply instruction_charset; assumption|constructor].
  - destruct (put_text b hex _ HW true 0) as [_ HE]. cbn [refined pretty unresolve] in *. set (t := in_charset b _) in *. clearbody t.
    rewrite <- (app_nil_r t). apply mixed_element; [exact HE|constructor].
Qed.
Lemma mixed_nl t l : mixed t l -> mixed (nl ++ t) (XChar 10%N :: l).
Proof. intros H. apply (mixed_white 10%N t l); [apply white_ok; reflexivity|exact H]. Qed.
Lemma pretty_mark n : mark_up n -> forall b f lvl, pretty f lvl (refined b n) = refined b n.
Proof. destruct n; intros []; reflexivity. Qed.
Lemma written_mixed b hex before after root :
  Forall (writable b) before -> Forall mark_up before -> Forall (writable b) after -> Forall mark_up after ->
  writable b root -> match root with El _ _ _ _ _ _ => True | _ => False end ->
  exists t, write_document b hex before after root = "<?" ++ written_declaration ++ "?>" ++ t
    /\ mixed t (flanks (map (refined b) before) (map (refined b) after) (pretty true 0 (refined b root))).
Proof.
  intros HB1 HB2 HA1 HA2 HR HE. eexists. split.
  { unfold write_document. rewrite in_charset_app, (charset_lit b doctype) by reflexivity. rewrite doctype_text, <- !app_assoc. reflexivity. }
  rewrite !in_charset_app, !in_charset_flat_map. assert (CN : in_charset b nl = nl) by apply charset_white, white_nl. rewrite CN.
  apply mixed_nl. unfold flanks. cbn [app]. apply mixed_app.
  { clear - HB1 HB2 CN. induction before as [|n l IH]; [constructor|]. inversion HB1; inversion HB2; subst. cbn [map flat_map].
    rewrite in_charset_app, CN. rewrite <- !app_assoc.
    apply (mixed_app _ [unresolve (refined b n)] _ (XChar 10%N :: _)); [|apply mixed_nl, IH; assumption].
    pose proof (mixed_one b hex n) as M. rewrite pretty_mark in M by assumption. apply M; [assumption|]. destruct n; auto. }
  apply (mixed_app _ [unresolve (pretty true 0 (refined b root))]).
  { apply mixed_one; [exact HR|]. destruct root; auto. }
  apply mixed_app; [|apply (mixed_nl [] []); constructor].
  clear - HA1 HA2 CN. induction after as [|n l IH]; [constructor|]. inversion HA1; inversion HA2; subst. cbn [map flat_map].
  rewrite in_charset_app, CN. rewrite <- !app_assoc. apply mixed_nl. 
  apply (mixed_app _ [unresolve (refined b n)]); [|apply IH; assumption].
  pose proof (mixed_one b hex n) as M. rewrite pretty_mark in M by assumption. apply M; [assumption|]. destruct n; auto.
Qed.
Lemma written_no_cr b hex before after root :
  Forall (writable b) before -> Forall (writable b) after -> writable b root -> no_cr (write_document b hex before after root).
Proof.
  intros HB HA HR. unfold write_document. apply no_cr_charset. repeat apply no_cr_app; try (apply no_cr_lit; reflexivity).
  - apply no_cr_flat. eapply Forall_impl; [|exact HB]. intros n HN. apply no_cr_app; [apply (no_cr_put b), HN|apply no_cr_lit; reflexivity].
  - apply (no_cr_put b), HR.
  - apply no_cr_flat. eapply Forall_impl; [|exact HA]. intros n HN. apply no_cr_app; [apply no_cr_lit; reflexivity|apply (no_cr_put b), HN].
Qed.
Lemma written_run t l : mixed t l -> no_cr t ->
  run init (skip_bom ("<?" ++ written_declaration ++ "?>" ++ t)) = Conf false [] (rev (XPI written_declaration :: l)) (MText 0).
Proof.
  intros HM HC. change (skip_bom ("<?" ++ written_declaration ++ "?>" ++ t)) with (("<?" ++ written_declaration ++ "?>") ++ t).
  rewrite run_run1; [| |reflexivity].
  2: { apply no_cr_app; [apply no_cr_lit; reflexivity|exact HC]. }
  rewrite run1_app. replace (run1 init ("<?" ++ written_declaration ++ "?>")) with (Conf false [] [XPI written_declaration] (MText 0)) by (vm_compute; reflexivity).
  rewrite (mixed_run _ _ HM). reflexivity.
Qed.
Lemma unresolve_element n : is_element (unresolve n) = match n with El _ _ _ _ _ _ => true | _ => false end.
Proof. destruct n; reflexivity. Qed.
Lemma take_app {A} (f : A -> bool) l x r : forallb f l = true -> f x = false -> take_while f (l ++ x :: r) = l /\ drop_while f (l ++ x :: r) = x :: r.
Proof.
  intros H HX. induction l as [|y l IH]; cbn [app take_while drop_while].
  - rewrite HX. auto.
  - cbn [forallb] in H. apply andb_prop in H. destruct H as [H1 H2]. rewrite H1. destruct (IH H2) as [-> ->]. auto.
Qed.
Definition not_xml (n : node) : Prop := match n with Pin s => str_eqb (pi_target s) "xml" = false | _ => True end.
Lemma outer_flank (f : node -> list xnode) l : (forall n, f n = [unresolve n; XChar 10%N] \/ f n = [XChar 10%N; unresolve n]) ->
  Forall mark_up l -> Forall not_xml l -> outer (flat_map f l) = l.
Proof.
  intros HF. induction l as [|n l IH]; intros HM HX; [reflexivity|]. inversion HM; inversion HX; subst. cbn [flat_map]. unfold outer in *. rewrite flat_map_app, IH by assumption.
  assert (E : flat_map (fun x => match x with XComment s => [Cmt s] | XPI s => if str_eqb (pi_target s) "xml" then [] else [Pin s] | _ => [] end) (f n) = [n]).
  { destruct n as [c|ns nm defs inh attrs kids|s|s]; try contradiction; destruct (HF (Cmt s)) as [E|E]; destruct (HF (Pin s)) as [E'|E']; 
      cbn [not_xml] in *; rewrite ?E, ?E'; cbn [flat_map app unresolve]; try reflexivity;
      match goal with H : str_eqb (pi_target s) "xml" = false |- _ => rewrite H end; reflexivity. }
  rewrite E. reflexivity.
Qed.
Lemma written_around l before after root : mixed l (flanks before after root) -> no_cr l -> 
  match root with El _ _ _ _ _ _ => True | _ => False end ->
  Forall mark_up before -> Forall not_xml before -> Forall mark_up after -> Forall not_xml after ->
  surroundings ("<?" ++ written_declaration ++ "?>" ++ l) = (before, after)
  /\ read_text ("<?" ++ written_declaration ++ "?>" ++ l) = Some (XDoc (Some written_declaration) (unresolve root)).
Proof.
  intros HM HC HR HB1 HB2 HA1 HA2. pose proof (written_run _ _ HM HC) as E.
  set (pre := [XPI written_declaration; XChar 10%N] ++ flat_map (fun n => [unresolve n; XChar 10%N]) before).
  set (post := flat_map (fun n => [XChar 10%N; unresolve n]) after ++ [XChar 10%N]).
  assert (EL : XPI written_declaration :: flanks before after root = pre ++ unresolve root :: post).
  { unfold pre, post, flanks. cbn [app]. reflexivity. }
  rewrite EL in E.
  assert (FM : forall n, mark_up n -> is_element (unresolve n) = false) by (intros [] []; reflexivity).
  assert (P : forallb (fun x => negb (is_element x)) pre = true).
  { unfold pre. rewrite forallb_app. cbn [forallb is_element negb andb]. clear - FM HB1. induction HB1 as [|n k H _ IH]; [reflexivity|].
    cbn [flat_map app forallb]. rewrite (FM _ H). exact IH. }
  assert (RE : negb (is_element (unresolve root)) = false) by (destruct root; try contradiction; reflexivity).
  split.
  - unfold surroundings. rewrite E. cbn [done_]. rewrite rev_involutive. destruct (take_app _ pre (unresolve root) post P RE) as [-> ->]. cbn [tl]. f_equal.
    + unfold pre, outer. rewrite flat_map_app. cbn [flat_map]. change (str_eqb (pi_target written_declaration) "xml") with true. cbn [app].
      apply (outer_flank (fun n => [unresolve n; XChar 10%N])); auto.
    + unfold post, outer. rewrite flat_map_app. cbn [flat_map]. rewrite !app_nil_r.
      apply (outer_flank (fun n => [XChar 10%N; unresolve n])); auto.
  - unfold read_text. rewrite E. unfold finish. cbn [md stk done_]. rewrite rev_involutive.
    unfold pre. cbn [app]. change (str_eqb (pi_target written_declaration) "xml") with true. cbv iota.
    assert (D : decl_ok written_declaration = true) by (vm_compute; reflexivity).
    assert (F : find_root (XPI written_declaration :: XChar 10%N :: flat_map (fun n => [unresolve n; XChar 10%N]) before ++ unresolve root :: post) = Some (unresolve root)).
    { assert (MM : forall n, mark_up n -> is_misc (unresolve n) = true) by (intros [] []; reflexivity).
      destruct root as [|ns nm defs inh attrs kids| |]; try contradiction. cbn [unresolve].
      apply (find_root_app ([XPI written_declaration; XChar 10%N] ++ flat_map (fun n => [unresolve n; XChar 10%N]) before)).
      - rewrite forallb_app. cbn [forallb is_misc andb]. clear - MM HB1. induction HB1 as [|n k H _ IH]; [reflexivity|].
        cbn [flat_map app forallb]. rewrite (MM _ H). exact IH.
      - unfold post. rewrite forallb_app. cbn [forallb is_misc]. rewrite andb_true_r. clear - MM HA1. induction HA1 as [|n k H _ IH]; [reflexivity|].
        cbn [flat_map app forallb]. rewrite (MM _ H). exact IH. }
    rewrite F, D. reflexivity.
Qed.

Lemma not_xml_writable b n : writable b n -> mark_up n -> not_xml (refined b n).
Proof. intros H HM. destruct H; cbn [refined not_xml mark_up] in *; auto. apply instruction_not_xml, instruction_charset; assumption. Qed.
Lemma mark_up_refined b n : mark_up n -> mark_up (refined b n).
Proof. destruct n; auto. Qed.
Lemma written_read b hex before after root :
  Forall (writable b) before -> Forall mark_up before -> Forall (writable b) after -> Forall mark_up after ->
  writable b root -> match root with El _ _ _ _ _ _ => True | _ => False end -> resolvable [] root ->
  lxml_parse (write_document b hex before after root) = Some (Some written_declaration, pretty true 0 (refined b root))
  /\ read_document (write_document b hex before after root) = Some (Some written_declaration, pretty true 0 (refined b root))
  /\ document_text (write_document b hex before after root) = write_document b hex before after root
  /\ surroundings (write_document b hex before after root) = (map (refined b) before, map (refined b) after).
Proof.
  intros HB1 HB2 HA1 HA2 HR HE HV. pose proof (written_no_cr b hex before after root HB1 HA1 HR) as NC.
  destruct (written_mixed b hex before after root HB1 HB2 HA1 HA2 HR HE) as (t & E & HM). rewrite E in *.
  assert (NT : no_cr t) by (intros HI; apply NC; rewrite !in_app_iff; tauto).
  assert (W : forall l, Forall (writable b) l -> Forall mark_up l -> Forall mark_up (map (refined b) l) /\ Forall not_xml (map (refined b) l)).
  { intros l H1 H2. rewrite !Forall_map. rewrite Forall_forall in H1, H2. split; apply Forall_forall; intros n HN; [apply mark_up_refined, H2, HN|].
    apply not_xml_writable; auto. }
  destruct (W before HB1 HB2) as [B1 B2]. destruct (W after HA1 HA2) as [A1 A2].
  destruct (written_around t _ _ _ HM NT) as [SU RT]; auto.
  { destruct root; try contradiction. exact I. }
  assert (DT : document_text ("<?" ++ written_declaration ++ "?>" ++ t) = "<?" ++ written_declaration ++ "?>" ++ t).
  { unfold document_text. rewrite RT. cbn [d_decl]. 
    replace (decl_encoding (Some written_declaration)) with (Some ("UTF-8" : str)) by (vm_compute; reflexivity). reflexivity. }
  split; [|split; [|split; [exact DT|exact SU]]].
  2: { unfold read_document. rewrite RT. cbn [d_root d_decl]. rewrite resolve_unresolve; [reflexivity|]. apply resolvable_pretty, resolvable_refined, HV. }
  unfold lxml_parse, etree_parse. rewrite RT. cbn [d_decl].
  replace (decl_encoding (Some written_declaration)) with (Some ("UTF-8" : str)) by (vm_compute; reflexivity).
  change (str_eqb (upper "UTF-8") "UTF-8") with true. cbv iota. cbn [d_root d_decl]. rewrite resolve_unresolve; [reflexivity|].
  apply resolvable_pretty, resolvable_refined, HV.
Qed.
