(** Prop_Anonymizable.v -- C66: which documents can be anonymized *)
From Verif Require Import Base Xml Utf8 Lxml Py LxmlStr Models Progress Parser Serialise Unparser Validate Zip Anonymize Dump Commands SpecCommands SpecFormat SpecAnonymize SpecAnonymizable AnonymizeTotal
  Prop_Commands Prop_Anonymize Prop_AnonymizeFile.

(** A parsed document is anonymized exactly if its root has a default namespace, its
    header titles and comments begin with text and its formatted values hold neither
    comments nor processing instructions. *)
Theorem C66_exactly_when :
  forall sha s decl root, lxml_parse s = Some (decl, root) ->
    (exists r, anonymize_tree sha root = Ok r) <-> anonymizable root.
Proof.
  intros sha s decl root HP. unfold anonymizable, default_namespace.
  destruct (ns_get (node_nsmap root) None) as [uri|] eqn:EU.
  - pose proof (tree_outcome sha root (parsed_clean _ _ _ _ HP EU)) as H. rewrite EU in H.
    destruct (header_okb uri "COMMENT" root && header_okb uri "TITLE" root) eqn:EH.
    + destruct (value_okb uri root) eqn:EV.
      * split; [intros _|intros _; exact H]. exists uri. split; [reflexivity|]. split; [apply header_okb_texts, EH|apply value_okb_values, EV].
      * rewrite H. split; [intros [r E]; discriminate|]. intros (u & E & _ & B). injection E as <-. apply value_okb_values in B. congruence.
    + rewrite H. split; [intros [r E]; discriminate|]. intros (u & E & B & _). injection E as <-. apply header_okb_texts in B. congruence.
  - split; [|intros (u & E & _); discriminate]. intros [r E]. unfold anonymize_tree in E. rewrite EU in E. discriminate.
Qed.
(** Otherwise the exception tells what is missing. *)
Theorem C66_exceptions :
  forall sha s decl root, lxml_parse s = Some (decl, root) ->
    (default_namespace root None -> anonymize_tree sha root = Raise EKeyError)
    /\ (forall uri, default_namespace root (Some uri) -> ~ header_texts uri root -> anonymize_tree sha root = Raise EAttributeError)
    /\ (forall uri, default_namespace root (Some uri) -> header_texts uri root -> ~ bare_values uri root ->
          anonymize_tree sha root = Raise EValueError).
Proof.
  intros sha s decl root HP. unfold default_namespace. split; [|split].
  - intros E. unfold anonymize_tree. rewrite E. reflexivity.
  - intros uri EU HN. pose proof (tree_outcome sha root (parsed_clean _ _ _ _ HP EU)) as H. rewrite EU in H.
    destruct (header_okb uri "COMMENT" root && header_okb uri "TITLE" root) eqn:EH; [|exact H]. exfalso. apply HN, header_okb_texts, EH.
  - intros uri EU HH HN. pose proof (tree_outcome sha root (parsed_clean _ _ _ _ HP EU)) as H. rewrite EU in H.
    apply header_okb_texts in HH. rewrite HH in H. destruct (value_okb uri root) eqn:EV; [|exact H]. exfalso. apply HN, value_okb_values, EV.
Qed.
(** The command: it succeeds on these documents and changes nothing for the others.
    [portable false]: see C63. *)
Theorem C66_command :
  forall t s cwd i o raw text decl root,
    fs_file s i = Some raw -> utf8_decode raw = Some text -> lxml_parse text = Some (decl, root) -> portable false root ->
    output_dir_missing s o = false -> fs_can_write s o = true ->
    let run := perform t s cwd (RAnonymize i o) in
    (anonymizable root -> ended run = Exit 0)
    /\ (~ anonymizable root -> exists e, In e [EKeyError; EAttributeError; EValueError] /\ run = Run [] [] (Uncaught e)).
Proof.
  intros t s cwd i o raw text decl root HF HD HP HO HM HW run. split.
  - intros HA. apply (C66_exactly_when (t_sha t) _ _ _ HP) in HA as [r HR].
    apply (C63_anonymize_command t s cwd i o raw text decl root r HF HD HP HO HR HM HW).
  - intros HN. destruct (C63_refused t s cwd i o raw HF) as (_ & _ & REF).
    assert (X : exists e, In e [EKeyError; EAttributeError; EValueError] /\ anonymize_tree (t_sha t) root = Raise e).
    { destruct (ns_get (node_nsmap root) None) as [uri|] eqn:EU.
      - pose proof (tree_outcome (t_sha t) root (parsed_clean _ _ _ _ HP EU)) as H. rewrite EU in H.
        destruct (header_okb uri "COMMENT" root && header_okb uri "TITLE" root) eqn:EH.
        + destruct (value_okb uri root) eqn:EV.
          * exfalso. apply HN, (C66_exactly_when (t_sha t) _ _ _ HP), H.
          * exists EValueError. split; [cbn; auto|exact H].
        + exists EAttributeError. split; [cbn; auto|exact H].
      - exists EKeyError. split; [cbn; auto|]. unfold anonymize_tree. rewrite EU. reflexivity. }
    destruct X as (e & HE & X). exists e. split; [exact HE|]. apply (REF text decl root e HD HP X).
Qed.

(** ** Cases *)
Definition outcome (s : str) : option (result unit) :=
  match lxml_parse s with
  | Some (_, r) => Some (match anonymize_tree sha0 r with Ok _ => Ok tt | Raise e => Raise e end)
  | None => None
  end.
Definition headed (title value : str) : str :=
  "<REQ-IF xmlns=""u""><THE-HEADER><REQ-IF-HEADER><TITLE>" ++ title ++ "</TITLE></REQ-IF-HEADER></THE-HEADER>"
  ++ "<ATTRIBUTE-VALUE-XHTML><THE-VALUE>" ++ value ++ "</THE-VALUE></ATTRIBUTE-VALUE-XHTML></REQ-IF>".
Example C66_example :
  outcome (headed "t<b/>" "<div>v</div>") = Some (Ok tt)
  /\ outcome "<REQ-IF></REQ-IF>" = Some (Raise EKeyError)
  /\ outcome (headed "<b/>t" "<div>v</div>") = Some (Raise EAttributeError)
  /\ outcome (headed [] "<div><!--c--></div>") = Some (Raise EAttributeError)
  /\ outcome (headed "t" "<div><!--c--></div>") = Some (Raise EValueError)
  /\ outcome (headed "t" "<?p?>") = Some (Raise EValueError).
Proof. repeat split; vm_compute; reflexivity. Qed.
(** An empty header comment, as many tools write it, is enough for the command to
    fail, although the parser accepts the document. *)
Theorem C66_every_parsed_document_refuted :
  exists s b decl root, Parser.parse_string s = Ok b /\ lxml_parse s = Some (decl, root) /\ ~ anonymizable root
    /\ forall sha, anonymize_tree sha root = Raise EAttributeError.
Proof.
  set (s := "<REQ-IF xmlns=""http://www.omg.org/spec/ReqIF/20110401/reqif.xsd""><THE-HEADER><REQ-IF-HEADER IDENTIFIER=""h""><COMMENT/></REQ-IF-HEADER></THE-HEADER></REQ-IF>" : str).
  assert (P : exists decl root, lxml_parse s = Some (decl, root)) by (eexists _, _; vm_compute; reflexivity).
  destruct P as (decl & root & P).
  assert (B : exists b, Parser.parse_string s = Ok b) by (eexists; vm_compute; reflexivity). destruct B as (b & B).
  assert (F : forall sha, anonymize_tree sha root = Raise EAttributeError).
  { intros sha. assert (G : match lxml_parse s with Some (_, r) => anonymize_tree sha r | None => Raise EAttributeError end = Raise EAttributeError)
      by (vm_compute; reflexivity). rewrite P in G. exact G. }
  exists s, b, decl, root. split; [exact B|]. split; [exact P|]. split; [|exact F].
  intros HA. apply (C66_exactly_when sha0 _ _ _ P) in HA as [r HR]. rewrite F in HR. discriminate.
Qed.
Print Assumptions C66_exactly_when.
Print Assumptions C66_exceptions.
Print Assumptions C66_command.
Print Assumptions C66_every_parsed_document_refuted.
