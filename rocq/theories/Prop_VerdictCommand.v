(** Prop_VerdictCommand.v -- C75: validate before and after another command, as processes *)
From Verif Require Import Base Xml Utf8 Lxml Py Models Progress Parser Serialise BundleModel Validate Paths Zip Anonymize Dump Argparse Commands
  SpecTraversal SpecProgress SpecLookup SpecValidate SpecPaths SpecCommands SpecXml SpecFormat SpecPrint SpecDocument SpecSettle SpecAnonymize SpecLayout SpecHidden SpecVerdict
  Prop_Document Prop_Settle Prop_Commands Prop_Validate Prop_Format Prop_Reformat Prop_AnonymizeFile Prop_AnonymizeBundle Prop_Verdict.

(** validate reads the same disk as the other commands *)
Definition reads_the_disk (t : tools) (cwd : str) : Prop := forall s p, files (t_environment t s cwd) p = fs_file s p.
Lemma verdict_of t s cwd argv i x : asks argv (RValidate i x) ->
  ended (cli t s cwd argv) = snd (snd (validate (t_environment t s cwd) (Config i x) cwd)).
Proof.
  intros A. rewrite (proj1 (C47_dispatch t s cwd argv) _ A). cbn [perform]. unfold validate_run.
  destruct (validate (t_environment t s cwd) (Config i x) cwd) as [d [ls z]]. reflexivity.
Qed.
(** A file that validate accepts is accepted after format. *)
Theorem C75_format_then_validate :
  forall t s cwd i o raw text before run after,
    reads_the_disk t cwd -> fs_file s i = Some raw -> utf8_decode raw = Some text -> formattable true text ->
    fs_can_write s o = true -> starts_with "/" i = true -> starts_with "/" o = true ->
    asks before (RValidate i false) -> asks run (RFormat i o) -> asks after (RValidate o false) ->
    ended (cli t s cwd before) = Exit 0 ->
    ended (cli t s cwd run) = Exit 0 /\ ended (cli t (final s (cli t s cwd run)) cwd after) = Exit 0.
Proof.
  intros t s cwd i o raw text before run after RD HF HD (decl & root & HR & HE & P1 & P2 & P3 & HT) HW AI AO A1 A2 A3.
  rewrite (verdict_of t s cwd before i false A1), (verdict_of t _ cwd after o false A3), (proj1 (C47_dispatch t s cwd run) _ A2). intros E. split.
  - exact (proj1 (C62_format_command t s cwd i o raw text decl root None [] HF HD HR HE P1 P2 P3 HT HW)).
  - exact (proj2 (C75_format t s cwd i o raw text decl root _ _ cwd cwd HF HD HR HE P1 P2 P3 HT HW AI AO (RD s i) (RD _ o)) E).
Qed.
(** And after anonymize, if anonymize succeeds. *)
Theorem C75_anonymize_then_validate :
  forall t s cwd i o raw text decl root uri b before run after,
    reads_the_disk t cwd -> fs_file s i = Some raw -> utf8_decode raw = Some text -> lxml_parse text = Some (decl, root) -> portable false root ->
    ns_get (node_nsmap root) None = Some uri -> one_namespace uri root -> orderly_root true root ->
    prefix_in_use root \/ no_xhtml_default root -> parse_string text = Ok b ->
    starts_with "/" i = true -> starts_with "/" o = true ->
    asks before (RValidate i false) -> asks run (RAnonymize i o) -> asks after (RValidate o false) ->
    ended (cli t s cwd before) = Exit 0 -> ended (cli t s cwd run) = Exit 0 ->
    ended (cli t (final s (cli t s cwd run)) cwd after) = Exit 0.
Proof.
  intros t s cwd i o raw text decl root uri b before run after RD HF HD HL HP NS ON OR HU HB AI AO A1 A2 A3.
  rewrite (verdict_of t s cwd before i false A1), (verdict_of t _ cwd after o false A3), (proj1 (C47_dispatch t s cwd run) _ A2). intros E EN.
  exact (proj2 (C75_anonymize t s cwd i o raw text decl root uri b _ _ cwd cwd HF HD HL HP NS ON OR HU HB EN AI AO (RD s i) (RD _ o)) E).
Qed.
(** And after passthrough, if it succeeds. *)
Theorem C75_passthrough_then_validate :
  forall t s cwd i o raw text b tg p u before run after,
    reads_the_disk t cwd -> fs_file s i = Some raw -> ends_with ".reqifz" i = false -> utf8_decode raw = Some text -> parse_string text = Ok b ->
    plain_bundle tg p u b -> (forall x, In x (spec_objects_of b) -> so_identifier x <> "None") ->
    starts_with "/" i = true -> starts_with "/" o = true ->
    asks before (RValidate i false) -> asks run (RPassthrough i o) -> asks after (RValidate o false) ->
    ended (cli t s cwd before) = Exit 0 -> ended (cli t s cwd run) = Exit 0 ->
    ended (cli t (final s (cli t s cwd run)) cwd after) = Exit 0.
Proof.
  intros t s cwd i o raw text b tg p u before run after RD HF HZ HD HB HP NN AI AO A1 A2 A3.
  rewrite (verdict_of t s cwd before i false A1), (verdict_of t _ cwd after o false A3), (proj1 (C47_dispatch t s cwd run) _ A2). intros E EN.
  exact (proj2 (C75_passthrough t s cwd i o raw text b tg p u _ _ cwd cwd HF HZ HD HB HP NN EN AI AO (RD s i) (RD _ o)) E).
Qed.
Print Assumptions C75_format_then_validate.
Print Assumptions C75_anonymize_then_validate.
Print Assumptions C75_passthrough_then_validate.

Definition disk_tools : tools :=
  Tools (fun _ => 0%N) (fun _ => None) (fun _ => []) (fun _ => []) (fun s _ => Env (fs_file s) (fun _ => None) None (fun d _ => (d, SchemaOk))) [].
Definition one_file (name text : str) : fs := FS (fun p => if str_eqb p name then utf8_encode text else None) (fun _ => true) (fun _ => true).
Ltac plain_words := repeat (apply takes_word; [left; let r := fresh in intros r; discriminate|]); apply takes_nothing.
Example C75_commands_example :
  reads_the_disk disk_tools "/home" /\ formattable true valid_text
  /\ asks ["validate"; "/a.reqif"] (RValidate "/a.reqif" false)
  /\ asks ["format"; "/a.reqif"; "/b.reqif"] (RFormat "/a.reqif" "/b.reqif")
  /\ asks ["passthrough"; "/a.reqif"; "/b.reqif"] (RPassthrough "/a.reqif" "/b.reqif")
  /\ let run text c := cli disk_tools (one_file "/a.reqif" text) "/home" [c; "/a.reqif"; "/b.reqif"] in
     let before text := cli disk_tools (one_file "/a.reqif" text) "/home" ["validate"; "/a.reqif"] in
     let after text c := cli disk_tools (final (one_file "/a.reqif" text) (run text c)) "/home" ["validate"; "/b.reqif"] in
     (ended (before valid_text), ended (run valid_text "format"), ended (after valid_text "format")) = (Exit 0, Exit 0, Exit 0)
     /\ let text := node_text [] "o" "o" in
        (ended (before text), ended (run text "passthrough"), ended (after text "passthrough")) = (Exit 0, Exit 0, Exit 0).
Proof.
  split; [intros s p; reflexivity|]. split; [apply formattableb_sound; vm_compute; reflexivity|].
  split; [eapply asks_validate; plain_words|]. split; [eapply asks_format; plain_words|]. split; [eapply asks_passthrough; plain_words|].
  split; vm_compute; reflexivity.
Qed.
