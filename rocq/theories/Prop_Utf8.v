(** Prop_Utf8.v -- C68: files are read and written as UTF-8 *)
From Verif Require Import Base Xml Utf8 Lxml Py Models Progress Parser Unparser Validate Zip Dump Anonymize Serialise Commands SpecUtf8 SpecLines
  SpecCommands Utf8Proofs Utf8SpecProofs LineProofs Prop_Commands Prop_Lines.

(** ** C68 *)
(** Bytes are the UTF-8 form of at most one text, a text has at most one UTF-8
    form, and it has one exactly if it holds no surrogate and nothing beyond
    U+10FFFF. *)
Theorem C68_one_reading :
  (forall b s t, utf8 s b -> utf8 t b -> s = t)
  /\ (forall s a b, utf8 s a -> utf8 s b -> a = b)
  /\ (forall s, (exists b, utf8 s b) <-> Forall scalar s).
Proof.
  split; [|split].
  - intros b s t H K. apply decode_spec in H, K. congruence.
  - intros s a b H K. apply encode_spec in H, K. congruence.
  - intros s. symmetry. apply encode_some.
Qed.
(** Parsing a file is parsing the text its bytes are the UTF-8 form of; if they
    are none, it fails with UnicodeDecodeError before anything is reported. *)
Theorem C68_files_are_read_as_utf8 :
  forall cb raw h,
    (forall s, utf8 s raw -> parse_file cb (Some raw) h = parse_from_string cb s h)
    /\ (~ (exists s, utf8 s raw) -> parse_file cb (Some raw) h = (h, Raise EUnicodeError)).
Proof.
  intros cb raw h. split.
  - intros s H. apply C51_file_is_its_text, decode_spec, H.
  - intros H. apply decode_none in H. unfold parse_file. rewrite H. reflexivity.
Qed.
(** What passthrough writes for a .reqif file is the UTF-8 form of what the
    unparser gives for the parsed text of the input. *)
Theorem C68_passthrough_writes_utf8 :
  forall raw out,
    passthrough_reqif raw = Ok out
    <-> exists s b t, utf8 s raw /\ parse_string s = Ok b /\ unparse_string b = Ok t /\ utf8 t out.
Proof.
  intros raw out. unfold passthrough_reqif. split.
  - destruct (utf8_decode raw) as [s|] eqn:E1; [|discriminate].
    assert (E2 : parse_string (universal_newlines s) = parse_string s) by (unfold parse_string; rewrite parse_from_string_un; reflexivity).
    rewrite E2. destruct (parse_string s) as [b|] eqn:E3; [|discriminate]. cbn [bind].
    destruct (unparse_string b) as [t|] eqn:E4; [|discriminate]. cbn [bind].
    destruct (utf8_encode t) as [x|] eqn:E5; [|discriminate]. intros H. injection H as <-.
    exists s, b, t. split; [apply decode_spec, E1|]. split; [exact E3|]. split; [exact E4|]. apply encode_spec, E5.
  - intros (s & b & t & E1 & E3 & E4 & E5). apply decode_spec in E1. apply encode_spec in E5. rewrite E1.
    assert (E2 : parse_string (universal_newlines s) = parse_string s) by (unfold parse_string; rewrite parse_from_string_un; reflexivity).
    rewrite E2, E3. cbn [bind]. rewrite E4. cbn [bind]. rewrite E5. reflexivity.
Qed.
(** In terms of the command: what the output files of passthrough, anonymize and
    dump hold after success. *)
Theorem C68_commands_write_utf8 :
  forall t s cwd i o,
    (forall raw d, ends_with ".reqifz" i = false -> fs_file s i = Some raw ->
       ended (perform t s cwd (RPassthrough i o)) = Exit 0 -> fs_file (final s (perform t s cwd (RPassthrough i o))) o = Some d ->
       exists x b y, utf8 x raw /\ parse_string x = Ok b /\ unparse_string b = Ok y /\ utf8 y d)
    /\ (forall raw d, fs_file s i = Some raw ->
       ended (perform t s cwd (RAnonymize i o)) = Exit 0 -> fs_file (final s (perform t s cwd (RAnonymize i o))) o = Some d ->
       exists x y, utf8 x raw /\ anonymize_output t raw = Ok y /\ utf8 y d)
    /\ (forall raw d, fs_file s i = Some raw ->
       ended (perform t s cwd (RDump i o)) = Exit 0 -> fs_file (final s (perform t s cwd (RDump i o))) o = Some d ->
       exists x b y, utf8 x raw /\ parse_string x = Ok b /\ dump_html (t_repr_list t) b = Ok y /\ utf8 y d).
Proof.
  intros t s cwd i o. split; [|split].
  - intros raw d HZ HF HE HD. destruct (C41_output_file t s cwd (RPassthrough i o) o eq_refl HE) as (d' & N & F & _).
    assert (d' = d) by congruence. subst d'. cbn [new_content] in N. rewrite HF, HZ in N.
    destruct (passthrough_reqif raw) as [x|] eqn:E; [|discriminate]. injection N as ->. apply C68_passthrough_writes_utf8, E.
  - intros raw d HF HE HD. destruct (C41_output_file t s cwd (RAnonymize i o) o eq_refl HE) as (d' & N & F & _).
    assert (d' = d) by congruence. subst d'. cbn [new_content] in N. rewrite HF in N.
    destruct (anonymize_output t raw) as [y|] eqn:E; [|discriminate]. apply encode_spec in N.
    destruct (utf8_decode raw) as [x|] eqn:D.
    + exists x, y. split; [apply decode_spec, D|]. split; [reflexivity|exact N].
    + unfold anonymize_output in E. rewrite D in E. discriminate.
  - intros raw d HF HE HD. destruct (C41_output_file t s cwd (RDump i o) o eq_refl HE) as (d' & N & F & _).
    assert (d' = d) by congruence. subst d'. cbn [new_content] in N. rewrite HF in N.
    destruct (C68_files_are_read_as_utf8 None raw []) as [H1 H2].
    destruct (utf8_decode raw) as [x|] eqn:D.
    + apply decode_spec in D. destruct (snd (parse_file None (Some raw) [])) as [b|] eqn:P in N; [|discriminate].
      destruct (dump_html _ b) as [y|] eqn:E; [|discriminate]. exists x, b, y. split; [exact D|].
      split; [exact (eq_trans (eq_sym (f_equal snd (H1 x D))) P)|]. split; [exact E|]. apply encode_spec, N.
    + apply decode_none in D. destruct (snd (parse_file None (Some raw) [])) as [b|] eqn:P in N; [|discriminate].
      pose proof (eq_trans (eq_sym (f_equal snd (H2 D))) P). discriminate.
Qed.
Print Assumptions C68_one_reading.
Print Assumptions C68_files_are_read_as_utf8.
Print Assumptions C68_passthrough_writes_utf8.
Print Assumptions C68_commands_write_utf8.

(** one character of each length: A, e with acute accent, the euro sign, a clef *)
Example utf8_ok : utf8 [65; 233; 8364; 119070]%N [65; 195; 169; 226; 130; 172; 240; 157; 132; 158]%N.
Proof. apply decode_spec. vm_compute. reflexivity. Qed.
(** a lone continuation byte, an overlong slash, a surrogate, a number that is too
    large and a form that is cut off *)
Example utf8_bad :
  Forall (fun raw => ~ exists s, utf8 s raw) [[128]; [192; 175]; [237; 160; 128]; [244; 144; 128; 128]; [226; 130]]%N.
Proof. repeat constructor; apply decode_none; vm_compute; reflexivity. Qed.
