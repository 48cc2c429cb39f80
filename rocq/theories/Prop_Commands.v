(** Prop_Commands.v -- C41, C47: the commands and the command line *)
From Verif Require Import Base Xml Utf8 Lxml Py Models Progress Parser Serialise Unparser Validate Zip Anonymize Dump
  DictProofs Utf8Proofs Argparse Commands SpecCommands ArgProofs.

(** ** C47 *)
(** Every correct command line performs the request it asks for, with the paths and
    the flag it gives; one that asks for help prints it and exits with 0; every other
    one changes nothing and exits with 2. *)
Theorem C47_dispatch :
  forall t s cwd argv,
    (forall r, asks argv r -> cli t s cwd argv = perform t s cwd r)
    /\ (forall c, asks_help argv c -> cli t s cwd argv = Run [SHelp c] [] (Exit 0))
    /\ ((forall r, ~ asks argv r) -> (forall c, ~ asks_help argv c) -> cli t s cwd argv = Run [] [] (Exit 2)).
Proof.
  intros t s cwd argv. repeat split.
  - intros r H. destruct (parse_asked argv r H) as (a & E & M). unfold cli. rewrite E. apply M.
  - intros c H. apply parse_help in H. unfold cli. rewrite H. reflexivity.
  - intros H1 H2. unfold cli. destruct (parse_args argv) as [a|c|] eqn:E; [| |reflexivity].
    + destruct (parse_asks argv a E) as (r & A). destruct (H1 r A).
    + apply parse_help in E. destruct (H2 c E).
Qed.
(** The version command prints the version and exits with 0. *)
Theorem C47_version :
  forall t s cwd, cli t s cwd ["version"] = Run [SVersion (t_version t)] [] (Exit 0).
Proof. reflexivity. Qed.
(** A command line asks for at most one thing. *)
Theorem C47_request_is_unique :
  forall argv,
    (forall r r', asks argv r -> asks argv r' -> r = r')
    /\ (forall c c', asks_help argv c -> asks_help argv c' -> c = c')
    /\ (forall r c, asks argv r -> ~ asks_help argv c).
Proof.
  intros argv. repeat split.
  - intros r r' H1 H2. remember argv as argv' eqn:E in H2.
    assert (U : forall c args ws f ws' f', takes (long_options (Some c)) false args ws f ->
                takes (long_options (Some c)) false args ws' f' -> ws = ws' /\ f = f').
    { intros c args ws f ws' f'. rewrite options_long. apply takes_function. }
    destruct H1 as [? ? ? ? T|? ? ? ? T|? ? ? ? T|? ? ? ? T|? ? ? T|? ? T]; destruct H2 as [? ? ? ? T'|? ? ? ? T'|? ? ? ? T'|? ? ? ? T'|? ? ? T'|? ? T'];
      try discriminate E; injection E as ->; destruct (U _ _ _ _ _ _ T T') as [E1 E2]; congruence.
  - intros c c' H1 H2. apply parse_help in H1, H2. congruence.
  - intros r c H1 H2. apply parse_asked in H1 as (a & H1 & _). apply parse_help in H2. congruence.
Qed.
(** main itself, on arguments that were not produced by the argument parser: any
    other command name is rejected, whatever the other arguments. *)
Theorem C47_other_commands_rejected :
  forall t s cwd a,
    ~ In (a_command a) ["passthrough"; "anonymize"; "dump"; "format"; "validate"; "version"] ->
    main t s cwd a = Run [] [] (Uncaught ENotImplementedError).
Proof.
  intros t s cwd a H. unfold main. cbn [In] in H.
  repeat match goal with |- context [str_eqb ?x ?y] =>
    destruct (str_eqb_spec x y) as [E|_]; [exfalso; apply H; rewrite E; auto 10|] end.
  reflexivity.
Qed.

(** ** C41 *)
Lemma apply_all_app s a b : apply_all s (a ++ b) = apply_all (apply_all s a) b.
Proof. apply fold_left_app. Qed.
Definition touches (p : str) (c : change) : Prop := match c with Truncate q | Append q _ => q = p end.
Lemma apply_all_other s l o p : p <> o -> Forall (touches o) l -> fs_file (apply_all s l) p = fs_file s p.
Proof.
  intros N F. revert s. induction F as [|c l Hc _ IH]; intros s; [reflexivity|].
  cbn [apply_all fold_left]. fold (apply_all (apply s c) l). rewrite IH.
  destruct c; cbn in Hc; subst; cbn; destruct (str_eqb_spec p o); congruence.
Qed.
Lemma appends s o data x :
  fs_file s o = Some x -> fs_file (apply_all s (map (Append o) data)) o = Some (x ++ data).
Proof.
  revert s x. induction data as [|b data IH]; intros s x H; [rewrite app_nil_r; exact H|].
  cbn [map apply_all fold_left]. fold (apply_all (apply s (Append o b)) (map (Append o) data)).
  rewrite (IH _ (x ++ [b])); [rewrite <- app_assoc; reflexivity|].
  cbn. rewrite str_eqb_refl, H. reflexivity.
Qed.
Lemma written s o data k :
  fs_file (apply_all s (firstn k (Truncate o :: map (Append o) data))) o =
  match k with O => fs_file s o | S k' => Some (firstn k' data) end.
Proof.
  destruct k as [|k]; [reflexivity|]. cbn [firstn apply_all fold_left].
  fold (apply_all (apply s (Truncate o)) (firstn k (map (Append o) data))).
  rewrite firstn_map. apply (appends _ _ _ []). cbn. rewrite str_eqb_refl. reflexivity.
Qed.
Lemma Forall_appends o data : Forall (touches o) (Truncate o :: map (Append o) data).
Proof. constructor; [reflexivity|]. induction data; constructor; auto. reflexivity. Qed.
Lemma write_bytes_touches s o d : Forall (touches o) (changes (write_bytes s o d)).
Proof. unfold write_bytes. destruct (fs_can_write s o); [apply Forall_appends|constructor]. Qed.
Lemma write_text_touches s o d : Forall (touches o) (changes (write_text s o d)).
Proof.
  unfold write_text. destruct (fs_can_write s o); [|constructor].
  destruct (utf8_encode d); [apply Forall_appends|repeat constructor].
Qed.
Lemma perform_touches t s cwd r :
  match r with
  | RPassthrough _ o | RAnonymize _ o | RDump _ o | RFormat _ o =>
      Forall (touches o) (changes (perform t s cwd r))
  | _ => changes (perform t s cwd r) = []
  end.
Proof.
  destruct r as [i o|i o|i o|i o|i x|]; cbn [perform].
  - unfold passthrough. destruct (fs_file s i); [|constructor].
    destruct (output_dir_missing s o); [constructor|].
    destruct (if ends_with _ i then _ else _); [apply write_bytes_touches|constructor].
  - unfold anonymize. destruct (fs_file s i); [|constructor].
    destruct (anonymize_output t _); [|constructor].
    destruct (output_dir_missing s o); [constructor|apply write_text_touches].
  - unfold dump. destruct (bind _ _); [apply write_text_touches|constructor].
  - unfold format. destruct (fs_file s i); [|constructor].
    destruct (format_bytes _); [apply write_bytes_touches|constructor].
  - unfold validate_run. destruct (validate _ _ _) as [d [ls e]]. reflexivity.
  - reflexivity.
Qed.
Lemma Forall_firstn {A} (P : A -> Prop) k l : Forall P l -> Forall P (firstn k l).
Proof. intros H. revert k. induction H; intros [|k]; cbn; constructor; auto. Qed.
(** Whatever the command line and wherever the process stops, every file but the
    output file of the request is as it was; without a request, all are. *)
Theorem C41_only_the_output_file_changes :
  forall t s cwd argv k p,
    (forall r, asks argv r -> ~ writes r p) ->
    fs_file (crashed s (cli t s cwd argv) k) p = fs_file s p.
Proof.
  intros t s cwd argv k p H. unfold crashed.
  destruct (C47_dispatch t s cwd argv) as (D1 & D2 & D3).
  assert (X : (exists r, asks argv r) \/ (exists c, asks_help argv c) \/ (forall r, ~ asks argv r) /\ (forall c, ~ asks_help argv c)).
  { destruct (parse_args argv) as [a|c|] eqn:E.
    - left. apply (parse_asks argv a E).
    - right. left. exists c. apply parse_help, E.
    - right. right. split.
      + intros r A. destruct (parse_asked argv r A) as (a & E' & _). congruence.
      + intros c A. apply parse_help in A. congruence. }
  destruct X as [[r A]|[[c A]|[X1 X2]]].
  - rewrite (D1 r A). pose proof (perform_touches t s cwd r) as T. specialize (H r A).
    destruct r as [i o|i o|i o|i o|i x|]; cbn [writes] in H;
      try (apply (apply_all_other s _ o p H), Forall_firstn, T);
      rewrite T, firstn_nil; reflexivity.
  - rewrite (D2 c A). cbn. rewrite firstn_nil. reflexivity.
  - rewrite (D3 X1 X2). cbn. rewrite firstn_nil. reflexivity.
Qed.
(** If passthrough, anonymize or format does not end successfully, no file was
    changed at any time; the same goes for dump if the page can be encoded. *)
Theorem C41_nothing_changes_on_failure :
  forall t s cwd r,
    ended (perform t s cwd r) <> Exit 0 ->
    (match r with
     | RDump i _ => forall b html, snd (parse_file None (fs_file s i) []) = Ok b ->
                      dump_html (t_repr_list t) b = Ok html -> utf8_encode html <> None
     | _ => True end) ->
    changes (perform t s cwd r) = [].
Proof.
  assert (WB : forall s o d, ended (write_bytes s o d) <> Exit 0 -> changes (write_bytes s o d) = []).
  { intros s o d. unfold write_bytes. destruct (fs_can_write s o); [|reflexivity]. cbn. congruence. }
  assert (WT : forall s o d, utf8_encode d <> None -> ended (write_text s o d) <> Exit 0 -> changes (write_text s o d) = []).
  { intros s o d N. unfold write_text. destruct (fs_can_write s o); [|reflexivity].
    destruct (utf8_encode d); [|congruence]. cbn. congruence. }
  intros t s cwd r. destruct r as [i o|i o|i o|i o|i x|]; cbn [perform]; intros H HD.
  - revert H. unfold passthrough. destruct (fs_file s i); [|reflexivity].
    destruct (output_dir_missing s o); [reflexivity|].
    destruct (if ends_with _ i then _ else _); [apply WB|reflexivity].
  - revert H. unfold anonymize. destruct (fs_file s i) as [raw|]; [|reflexivity].
    destruct (anonymize_output t raw) as [out|] eqn:E; [|reflexivity].
    destruct (output_dir_missing s o); [reflexivity|]. apply WT.
    unfold anonymize_output in E. destruct (utf8_decode raw) as [c|]; [|discriminate].
    destruct (anonymize_text _ _); [|discriminate]. cbn [bind] in E.
    destruct (utf8_encode (tostring _ _ _)); [|discriminate E].
    destruct (utf8_decode _) as [x|] eqn:D in E; [|discriminate E]. injection E as ->.
    apply encode_decode in D. congruence.
  - revert H. unfold dump. destruct (snd (parse_file None (fs_file s i) [])) as [b|] eqn:E1; [|reflexivity].
    cbn [bind]. destruct (dump_html (t_repr_list t) b) as [html|] eqn:E2; [|reflexivity].
    apply WT. apply (HD b html eq_refl E2).
  - revert H. unfold format. destruct (fs_file s i); [|reflexivity].
    destruct (format_bytes _); [apply WB|reflexivity].
  - unfold validate_run. destruct (validate _ _ _) as [d [ls e]]. reflexivity.
  - reflexivity.
Qed.
(** The new content of the output file, in terms of the input file read before
    anything was written (so input and output may be the same file). *)
Definition new_content (t : tools) (s : fs) (r : request) : option bytes :=
  match r with
  | RPassthrough i _ =>
      match fs_file s i with
      | None => None
      | Some raw => match (if ends_with ".reqifz" i then passthrough_reqifz t raw else passthrough_reqif raw) with
                    | Ok d => Some d | Raise _ => None end
      end
  | RAnonymize i _ =>
      match fs_file s i with
      | None => None
      | Some raw => match anonymize_output t raw with Ok out => utf8_encode out | Raise _ => None end
      end
  | RDump i _ =>
      match snd (parse_file None (fs_file s i) []) with
      | Raise _ => None
      | Ok b => match dump_html (t_repr_list t) b with Ok html => utf8_encode html | Raise _ => None end
      end
  | RFormat i _ =>
      match fs_file s i with
      | None => None
      | Some raw => match format_bytes raw with Ok d => Some d | Raise _ => None end
      end
  | _ => None
  end.
Lemma perform_success t s cwd r o :
  writes r o -> ended (perform t s cwd r) = Exit 0 ->
  exists d, new_content t s r = Some d /\ changes (perform t s cwd r) = Truncate o :: map (Append o) d.
Proof.
  assert (WB : forall o d, ended (write_bytes s o d) = Exit 0 ->
             changes (write_bytes s o d) = Truncate o :: map (Append o) d).
  { intros o' d. unfold write_bytes. destruct (fs_can_write s o'); [reflexivity|discriminate]. }
  assert (WT : forall o d, ended (write_text s o d) = Exit 0 ->
             exists x, utf8_encode d = Some x /\ changes (write_text s o d) = Truncate o :: map (Append o) x).
  { intros o' d. unfold write_text. destruct (fs_can_write s o'); [|discriminate].
    destruct (utf8_encode d); [|discriminate]. eauto. }
  destruct r as [i o'|i o'|i o'|i o'|i x|]; cbn [perform writes new_content]; intros W; try contradiction; subst o'.
  - unfold passthrough. destruct (fs_file s i); [|discriminate].
    destruct (output_dir_missing s o); [discriminate|].
    destruct (if ends_with _ i then _ else _); [|discriminate]. intros H. eexists. split; [reflexivity|apply WB, H].
  - unfold anonymize. destruct (fs_file s i); [|discriminate].
    destruct (anonymize_output t _); [|discriminate].
    destruct (output_dir_missing s o); [discriminate|]. intros H. destruct (WT _ _ H) as (x & E & C). eauto.
  - unfold dump. destruct (snd (parse_file _ _ _)); [|discriminate]. cbn [bind].
    destruct (dump_html _ _); [|discriminate]. intros H. destruct (WT _ _ H) as (x & E & C). eauto.
  - unfold format. destruct (fs_file s i); [|discriminate].
    destruct (format_bytes _); [|discriminate]. intros H. eexists. split; [reflexivity|apply WB, H].
Qed.
(** If a command ends successfully, the output file holds exactly the new content;
    and whenever the process stops, it holds the old content or a beginning of the
    new one. *)
Theorem C41_output_file :
  forall t s cwd r o, writes r o -> ended (perform t s cwd r) = Exit 0 ->
    exists d, new_content t s r = Some d
      /\ fs_file (final s (perform t s cwd r)) o = Some d
      /\ forall k, fs_file (crashed s (perform t s cwd r) k) o = fs_file s o
                   \/ exists n, fs_file (crashed s (perform t s cwd r) k) o = Some (firstn n d).
Proof.
  intros t s cwd r o W E. destruct (perform_success t s cwd r o W E) as (d & N & C).
  exists d. split; [exact N|]. unfold final, crashed. rewrite C. split.
  - rewrite <- (firstn_all (Truncate o :: map (Append o) d)) at 1. rewrite written. cbn [length].
    rewrite map_length, firstn_all. reflexivity.
  - intros k. rewrite written. destruct k; [left; reflexivity|right; eauto].
Qed.
(** Conversely a command whose new content exists succeeds if it may write: the
    directory is there and the file can be opened. *)
Theorem C41_success :
  forall t s cwd r o d, writes r o -> new_content t s r = Some d ->
    output_dir_missing s o = false -> fs_can_write s o = true ->
    ended (perform t s cwd r) = Exit 0.
Proof.
  intros t s cwd r o d W N D CW.
  destruct r as [i o'|i o'|i o'|i o'|i x|]; cbn [perform writes new_content] in *; try contradiction; subst o'.
  - unfold passthrough. destruct (fs_file s i); [|discriminate]. rewrite D.
    destruct (if ends_with _ i then _ else _); [|discriminate]. unfold write_bytes. rewrite CW. reflexivity.
  - unfold anonymize. destruct (fs_file s i); [|discriminate].
    destruct (anonymize_output t _); [|discriminate]. rewrite D. unfold write_text. rewrite CW, N. reflexivity.
  - unfold dump. destruct (snd (parse_file _ _ _)); [|discriminate]. cbn [bind].
    destruct (dump_html _ _); [|discriminate]. unfold write_text. rewrite CW, N. reflexivity.
  - unfold format. destruct (fs_file s i); [|discriminate].
    destruct (format_bytes _); [|discriminate]. unfold write_bytes. rewrite CW. reflexivity.
Qed.
(** If only the output file cannot be opened, the command fails with OSError and
    nothing has changed. *)
Theorem C41_unwritable_output :
  forall t s cwd r o d, writes r o -> new_content t s r = Some d ->
    output_dir_missing s o = false -> fs_can_write s o = false ->
    ended (perform t s cwd r) = Uncaught EOSError /\ changes (perform t s cwd r) = [].
Proof.
  intros t s cwd r o d W N D CW.
  destruct r as [i o'|i o'|i o'|i o'|i x|]; cbn [perform writes new_content] in *; try contradiction; subst o'.
  - unfold passthrough. destruct (fs_file s i); [|discriminate]. rewrite D.
    destruct (if ends_with _ i then _ else _); [|discriminate]. unfold write_bytes. rewrite CW. split; reflexivity.
  - unfold anonymize. destruct (fs_file s i); [|discriminate].
    destruct (anonymize_output t _); [|discriminate]. rewrite D. unfold write_text. rewrite CW. split; reflexivity.
  - unfold dump. destruct (snd (parse_file _ _ _)); [|discriminate]. cbn [bind].
    destruct (dump_html _ _); [|discriminate]. unfold write_text. rewrite CW. split; reflexivity.
  - unfold format. destruct (fs_file s i); [|discriminate].
    destruct (format_bytes _); [|discriminate]. unfold write_bytes. rewrite CW. split; reflexivity.
Qed.
(** passthrough of a .reqif file that cannot be decoded, parsed or unparsed: no file
    changes and the exception is the one of decoding, parsing or unparsing. *)
Theorem C41_passthrough_refused :
  forall t s cwd i o raw, fs_file s i = Some raw -> output_dir_missing s o = false -> ends_with ".reqifz" i = false ->
    (utf8_decode raw = None -> perform t s cwd (RPassthrough i o) = Run [] [] (Uncaught EUnicodeError))
    /\ (forall text e, utf8_decode raw = Some text -> parse_string (universal_newlines text) = Raise e ->
          perform t s cwd (RPassthrough i o) = Run [] [] (Uncaught e))
    /\ (forall text b e, utf8_decode raw = Some text -> parse_string (universal_newlines text) = Ok b -> unparse_string b = Raise e ->
          changes (perform t s cwd (RPassthrough i o)) = [] /\ ended (perform t s cwd (RPassthrough i o)) = Uncaught e).
Proof.
  intros t s cwd i o raw HF HM HZ. cbn [perform]. unfold passthrough, passthrough_log, passthrough_reqif. rewrite HF, HM, HZ. split; [|split].
  - intros ->. reflexivity.
  - intros text e -> HP. rewrite HP. reflexivity.
  - intros text b e -> HP HU. rewrite HP. cbn [bind]. rewrite HU. split; reflexivity.
Qed.
(** A missing input file or output directory is reported and ends passthrough and
    anonymize with exit code 1; passthrough looks for the directory before it reads
    the input. *)
Theorem C41_missing_input :
  forall t s cwd i o, fs_file s i = None ->
    perform t s cwd (RPassthrough i o) = Run [SNoInput i] [] (Exit 1)
    /\ perform t s cwd (RAnonymize i o) = Run [SNoInput i] [] (Exit 1)
    /\ perform t s cwd (RDump i o) = Run [] [] (Uncaught EOSError)
    /\ perform t s cwd (RFormat i o) = Run [] [] (Uncaught EOSError).
Proof.
  intros t s cwd i o H. cbn [perform]. unfold passthrough, anonymize, dump, format. rewrite H. repeat split.
Qed.
Theorem C41_missing_directory :
  forall t s cwd i dir name raw o, o = dir ++ "/" ++ name ->
    ~ In 47%N name -> dir <> [] -> last dir 0%N <> 47%N -> fs_isdir s dir = false ->
    fs_file s i = Some raw ->
    perform t s cwd (RPassthrough i o) = Run [SNoOutputDir o] [] (Exit 1)
    /\ (forall out, anonymize_output t raw = Ok out ->
        perform t s cwd (RAnonymize i o) = Run [SNoOutputDir o] [] (Exit 1)).
Proof.
  intros t s cwd i dir name raw o -> HN HD HL HI HR.
  assert (NS : existsb (N.eqb 47) name = false).
  { destruct (existsb _ name) eqn:E; [|reflexivity]. apply existsb_exists in E as (x & Hx & Ex).
    apply N.eqb_eq in Ex. subst. contradiction. }
  assert (U : upto_last_slash (dir ++ "/" ++ name) = dir ++ "/").
  { clear - NS. assert (B : upto_last_slash ("/" ++ name) = "/").
    { change ("/" ++ name) with (47%N :: name). cbn. rewrite NS. reflexivity. }
    induction dir as [|c dir IH]; [exact B|].
    change ((c :: dir) ++ "/" ++ name) with (c :: (dir ++ "/" ++ name)). cbn [upto_last_slash].
    assert (X : existsb (N.eqb 47) (dir ++ "/" ++ name) = true).
    { rewrite existsb_app. apply orb_true_iff. right. reflexivity. }
    rewrite X, IH. reflexivity. }
  assert (DN : dirname (dir ++ "/" ++ name) = dir).
  { unfold dirname. rewrite U.
    destruct (exists_last HD) as (d' & c & ->). rewrite last_last in HL.
    assert (F : forallb (N.eqb 47) ((d' ++ [c]) ++ "/") = false).
    { rewrite !forallb_app. cbn [forallb]. destruct (N.eqb_spec 47 c); [congruence|].
      destruct (forallb _ d'); reflexivity. }
    rewrite F. rewrite !rev_app_distr.
    change (rev "/" ++ rev [c] ++ rev d') with (47%N :: c :: rev d').
    cbn [drop_slashes]. rewrite N.eqb_refl. destruct (N.eqb_spec c 47); [congruence|].
    cbn [rev]. rewrite rev_involutive. reflexivity. }
  assert (M : output_dir_missing s (dir ++ "/" ++ name) = true).
  { unfold output_dir_missing. rewrite DN. destruct dir; [contradiction|]. rewrite HI. reflexivity. }
  cbn [perform]. unfold passthrough, anonymize. rewrite HR, M. split; [reflexivity|].
  intros out ->. reflexivity.
Qed.
Theorem C41_current_directory_is_never_missing :
  forall s o, ~ In 47%N o -> output_dir_missing s o = false.
Proof.
  intros s o H. unfold output_dir_missing, dirname.
  assert (E : upto_last_slash o = []).
  { induction o as [|c o IH]; [reflexivity|]. cbn [upto_last_slash].
    assert (NS : existsb (N.eqb 47) o = false).
    { destruct (existsb _ o) eqn:E; [|reflexivity]. apply existsb_exists in E as (x & Hx & Ex).
      apply N.eqb_eq in Ex. subst. exfalso. apply H. right. exact Hx. }
    rewrite NS. destruct (N.eqb_spec c 47); [|reflexivity]. subst. exfalso. apply H. left. reflexivity. }
  rewrite E. reflexivity.
Qed.

(** *** Findings *)
Definition no_tools : tools :=
  Tools (fun _ => 7%N) (fun _ => None) (fun _ => []) (fun _ => [])
        (fun s _ => Env (fs_file s) (fun _ => None) None (fun d _ => (d, SchemaOk))) "0.0.52".
Definition two_files (a b : str) : fs :=
  FS (fun p => if str_eqb p "in.reqif" then Some a else if str_eqb p "out.reqif" then Some b else None)
     (fun _ => true) (fun _ => true).
Definition tiny : str :=
  "<?xml version=""1.0"" encoding=""UTF-8""?><REQ-IF xmlns=""http://www.omg.org/spec/ReqIF/20110401/reqif.xsd""><CORE-CONTENT></CORE-CONTENT></REQ-IF>".
(** The write is not atomic: after the file was opened and before it was written,
    a crash leaves it empty -- neither the old nor the new content. *)
Theorem C41_write_is_atomic_refuted :
  exists t s i o k old,
    let r := perform t s [] (RPassthrough i o) in
    ended r = Exit 0 /\ fs_file s o = Some old
    /\ fs_file (crashed s r k) o <> Some old
    /\ fs_file (crashed s r k) o <> fs_file (final s r) o.
Proof.
  exists no_tools, (two_files tiny "precious"), "in.reqif", "out.reqif", 1, "precious".
  cbn zeta. repeat split; vm_compute; first [reflexivity | discriminate].
Qed.
(** With input and output the same file, a crash can destroy the only copy. *)
Theorem C41_in_place_crash_refuted :
  exists t s i k raw,
    let r := perform t s [] (RPassthrough i i) in
    ended r = Exit 0 /\ fs_file s i = Some raw /\ raw <> []
    /\ fs_file (crashed s r k) i = Some [].
Proof.
  exists no_tools, (two_files tiny []), "in.reqif", 1, tiny.
  cbn zeta. repeat split; vm_compute; first [reflexivity | discriminate].
Qed.

Example C41_example :
  let s := two_files tiny "old" in
  let r := cli no_tools s "/home" ["passthrough"; "in.reqif"; "out.reqif"] in
  ended r = Exit 0
  /\ fs_file (final s r) "out.reqif"
     = Some ("<?xml version=""1.0"" encoding=""UTF-8""?>" ++ nl ++ "<REQ-IF xmlns=""http://www.omg.org/spec/ReqIF/20110401/reqif.xsd"">" ++ nl
             ++ "  <CORE-CONTENT>" ++ nl ++ "  </CORE-CONTENT>" ++ nl ++ "</REQ-IF>" ++ nl)
  /\ fs_file (final s r) "in.reqif" = Some tiny
  /\ ended (cli no_tools s "/home" ["passthrough"; "nothing.reqif"; "out.reqif"]) = Exit 1.
Proof. cbn zeta. repeat split; vm_compute; reflexivity. Qed.
(** any two paths, if they do not start with a dash or come after "--" *)
Theorem C47_two_paths :
  forall c i o,
    In c [("passthrough" : str, RPassthrough); ("anonymize" : str, RAnonymize); ("dump" : str, RDump); ("format" : str, RFormat)] ->
    asks [fst c; "--"; i; o] (snd c i o)
    /\ (hd_error i <> Some 45%N -> hd_error o <> Some 45%N -> asks [fst c; i; o] (snd c i o)).
Proof.
  assert (T1 : forall opts i o, takes opts false ["--"; i; o] [i; o] false) by (intros; constructor; left; discriminate).
  assert (T2 : forall opts i o, hd_error i <> Some 45%N -> hd_error o <> Some 45%N -> takes opts false [i; o] [i; o] false).
  { intros opts i o Hi Ho. assert (W : forall x, hd_error x <> Some 45%N -> word opts x).
    { intros x H. left. intros r ->. apply H. reflexivity. }
    repeat (constructor; auto). }
  intros c i o H. cbn [In] in H. repeat destruct H as [<-|H]; try contradiction; cbn [fst snd]; (split; [|intros Hi Ho]; econstructor; auto).
Qed.
Ltac starts := left; let r := fresh in intros r; discriminate.
Example C47_example :
  asks ["validate"; "--use"; "a.reqif"; "--use-reqif-schema"] (RValidate "a.reqif" true)
  /\ asks ["dump"; "-1"; "--"; "-x"] (RDump "-1" "-x")
  /\ asks ["validate"; "a.reqif"; "--"] (RValidate "a.reqif" false)
  /\ asks_help ["--wrong"; "validate"; "a.reqif"; "-hx"; "b.reqif"] (Some ("validate" : str))
  /\ Forall (fun argv => (forall r, ~ asks argv r) /\ (forall c, ~ asks_help argv c))
       [ []; ["passthrough"; "a.reqif"]; ["validate"; "--"]; ["validate"; "--use-reqif-schema=1"; "a.reqif"];
         ["format"; "-x"; "a.reqif"; "b.reqif"]; ["validate"; "--=1"; "-h"]; ["--"; "version"]; ["--use-reqif-schema"; "validate"; "a.reqif"] ].
Proof.
  assert (NA : forall argv, parse_args argv = PUsage -> (forall r, ~ asks argv r) /\ forall c, ~ asks_help argv c).
  { intros argv H. split.
    - intros r A. destruct (parse_asked argv r A) as (a & E & _). congruence.
    - intros c A. apply parse_help in A. congruence. }
  split; [|split; [|split; [|split]]].
  - apply (asks_validate _ _ true). eapply takes_flag; [exists "-reqif-schema"; cbn; intuition lia|].
    eapply takes_word; [starts|]. eapply takes_flag; [exists []; cbn; intuition lia|]. constructor.
  - eapply asks_dump. eapply takes_word.
    + right. right. split; [intros (p & v & q & H & _); discriminate H|]. split; [intros (r & E); discriminate E|].
      left. exists [], "1", []. split; [auto|]. split; [constructor|]. split; [|split; [discriminate|left; reflexivity]].
      constructor; [|constructor]. exists 1%N, 48%N. repeat split. left. reflexivity.
    + constructor. auto.
  - apply (asks_validate _ _ false). eapply takes_word; [starts|]. constructor. auto.
  - apply parse_help. reflexivity.
  - repeat (constructor; [apply NA; reflexivity|]). constructor.
Qed.

Print Assumptions C47_dispatch.
Print Assumptions C47_version.
Print Assumptions C47_two_paths.
Print Assumptions C47_request_is_unique.
Print Assumptions C47_other_commands_rejected.
Print Assumptions C41_only_the_output_file_changes.
Print Assumptions C41_nothing_changes_on_failure.
Print Assumptions C41_output_file.
Print Assumptions C41_success.
Print Assumptions C41_unwritable_output.
Print Assumptions C41_passthrough_refused.
Print Assumptions C41_missing_input.
Print Assumptions C41_missing_directory.
Print Assumptions C41_current_directory_is_never_missing.
Print Assumptions C41_write_is_atomic_refuted.
Print Assumptions C41_in_place_crash_refuted.
