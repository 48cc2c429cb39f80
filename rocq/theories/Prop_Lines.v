(** Prop_Lines.v -- C51: line ends *)
From Verif Require Import Base Xml Utf8 Lxml Py LxmlStr Models Progress Parser Unparser Zip Commands SpecLines
  SpecCommands SpecProgress XmlProofs Utf8Proofs DictProofs ProgressProofs LineProofs.

(** ** C51 *)
(** Texts that differ only in their line ends are read alike: same bundle or
    same exception, same progress reports. *)
Theorem C51_line_ends_do_not_matter :
  forall cb s t h, same_lines s t -> parse_from_string cb s h = parse_from_string cb t h.
Proof. intros cb s t h H. rewrite (parse_from_string_lines cb s t H). reflexivity. Qed.
(** In particular LF may be written as CR LF throughout. *)
Theorem C51_crlf_documents :
  forall s, ~ In 13%N s -> parse_string (crlf s) = parse_string s.
Proof.
  intros s H. unfold parse_string. rewrite (parse_from_string_lines None s (crlf s)); [reflexivity|].
  apply crlf_same, Forall_forall. intros c Hc ->. contradiction.
Qed.
(** Reading a file is reading its decoded text, although the file is opened in
    text mode. *)
Theorem C51_file_is_its_text :
  forall cb raw s h, utf8_decode raw = Some s -> parse_file cb (Some raw) h = parse_from_string cb s h.
Proof. intros cb raw s h H. unfold parse_file. rewrite H, parse_from_string_un. reflexivity. Qed.
(** passthrough writes the same bytes for both. *)
Theorem C51_passthrough_ignores_line_ends :
  forall a b s t, utf8_decode a = Some s -> utf8_decode b = Some t -> same_lines s t ->
    passthrough_reqif a = passthrough_reqif b.
Proof.
  intros a b s t Ha Hb H. unfold passthrough_reqif. rewrite Ha, Hb, (same_lines_un _ _ H). reflexivity.
Qed.

(** a document with all three line ends, one of them in an attribute value *)
Definition lines_text (e1 e2 e3 : str) : str :=
  "<REQ-IF>" ++ e1 ++ "<THE-HEADER><REQ-IF-HEADER IDENTIFIER=""a" ++ e2 ++ "b""><COMMENT>c" ++ e3 ++ e1
  ++ "d</COMMENT></REQ-IF-HEADER></THE-HEADER>" ++ e2 ++ "</REQ-IF>".
Definition header_of (s : str) : option (option str * option str) :=
  match parse_string s with
  | Ok b => option_map (fun h => (hd_identifier h, hd_comment h)) (b_header b)
  | Raise _ => None
  end.
Example C51_example :
  header_of (lines_text [13; 10] [13] [10])%N = Some (Some "a b", Some ("c" ++ nl ++ nl ++ "d"))
  /\ header_of (lines_text [10] [10] [10])%N = Some (Some "a b", Some ("c" ++ nl ++ nl ++ "d"))
  /\ crlf ("a" ++ nl ++ "b") = [97; 13; 10; 98]%N.
Proof. vm_compute. auto. Qed.
Example C51_same_lines_example : same_lines (lines_text [13; 10] [13] [10])%N (lines_text [10] [10] [10])%N.
Proof.
  unfold lines_text.
  assert (P : forall l s t, forallb (fun c => negb (N.eqb c 10 || N.eqb c 13)) l = true -> same_lines s t -> same_lines (l ++ s) (l ++ t)).
  { intros l s t H HS. induction l as [|c l IH]; [exact HS|]. cbn [forallb] in H. apply andb_prop in H. destruct H as [H1 H2].
    apply negb_true_iff, orb_false_elim in H1. destruct H1 as [H1 H3]. cbn [app]. constructor; [apply N.eqb_neq, H1|apply N.eqb_neq, H3|auto]. }
  assert (F : forall l, forallb (fun c => negb (N.eqb c 10 || N.eqb c 13)) l = true -> same_lines l l).
  { intros l H. rewrite <- (app_nil_r l). apply P; [exact H|constructor]. }
  apply P; [reflexivity|]. apply same_end; [left; reflexivity|right; left; reflexivity|].
  apply P; [reflexivity|]. apply same_end; [right; right; split; [reflexivity|discriminate]|right; left; reflexivity|].
  apply P; [reflexivity|]. apply same_end; [right; left; reflexivity|right; left; reflexivity|].
  apply same_end; [left; reflexivity|right; left; reflexivity|].
  apply P; [reflexivity|]. apply same_end; [right; right; split; [reflexivity|discriminate]|right; left; reflexivity|].
  apply F; reflexivity.
Qed.

Print Assumptions C51_line_ends_do_not_matter.
Print Assumptions C51_crlf_documents.
Print Assumptions C51_file_is_its_text.
Print Assumptions C51_passthrough_ignores_line_ends.
