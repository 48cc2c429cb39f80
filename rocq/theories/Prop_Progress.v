(** Prop_Progress.v -- C19, C20, C21: progress reporting *)
From Verif Require Import Base Xml Utf8 Lxml Py Models Progress Parser Unparser SpecProgress ProgressProofs.

Lemma play_shape {A} c h evs (r : result A) :
  (calls_ok c h evs /\ play c h evs r = (h ++ evs, r))
  \/ exists evs1 e rest x, evs = evs1 ++ e :: rest /\ calls_ok c h evs1 /\ c (h ++ evs1) e = Some x
       /\ play c h evs r = (h ++ evs1 ++ [e], Raise x).
Proof.
  revert h. induction evs as [|e evs IH]; intros h; cbn.
  - left. split; [|rewrite app_nil_r; reflexivity]. intros [|? ?] ? ? H; discriminate.
  - destruct (c h e) as [x|] eqn:E.
    + right. exists [], e, evs, x. rewrite app_nil_r. repeat split; auto.
      intros [|? ?] ? ? H; discriminate.
    + assert (C : forall l, calls_ok c (h ++ [e]) l -> calls_ok c h (e :: l)).
      { intros l Hl [|e0 l1] e1 l2 Eq; injection Eq as -> Eq.
        - rewrite app_nil_r. exact E.
        - subst. specialize (Hl l1 e1 l2 eq_refl). rewrite <- app_assoc in Hl. exact Hl. }
      destruct (IH (h ++ [e])) as [[H1 H2]|(evs1 & e1 & rest & x & -> & H1 & H2 & H3)].
      * left. split; [apply C, H1|]. rewrite H2, <- app_assoc. reflexivity.
      * right. exists (e :: evs1), e1, rest, x. split; [reflexivity|]. split; [apply C, H1|].
        rewrite <- app_assoc in H2. split; [exact H2|]. rewrite H3, <- app_assoc. reflexivity.
Qed.

Lemma traced_unaffected {A} (m : callback -> M A) full :
  Traced m full -> forall c h, unaffected c h (m (Some c) h) (pure m).
Proof.
  intros (evs & rest & _ & _ & _ & HS) c h. rewrite HS.
  destruct (play_shape c h evs (pure m)) as [[H1 H2]|(evs1 & e1 & r & x & -> & H1 & H2 & H3)].
  - rewrite H2. exists evs. split; [reflexivity|]. left. auto.
  - rewrite H3. exists (evs1 ++ [e1]). split; [reflexivity|]. right. exists evs1, e1, x. auto.
Qed.
Lemma traced_success {A} (m : callback -> M A) full :
  Traced m full -> forall c h h' a, m (Some c) h = (h', Ok a) -> h' = h ++ full.
Proof.
  intros (evs & rest & -> & HR & _ & HS) c h h' a H. rewrite HS in H.
  destruct (play_shape c h evs (pure m)) as [[H1 H2]|(evs1 & e1 & r & x & -> & H1 & H2 & H3)].
  - rewrite H2 in H. injection H as <- H. rewrite HR, app_nil_r; [reflexivity|]. rewrite H. exact I.
  - rewrite H3 in H. discriminate.
Qed.
Lemma traced_prefix {A} (m : callback -> M A) full :
  Traced m full -> forall c h, exists k, fst (m (Some c) h) = h ++ firstn k full.
Proof.
  intros (evs & rest & -> & HR & _ & HS) c h. rewrite HS.
  destruct (play_shape c h evs (pure m)) as [[H1 H2]|(evs1 & e1 & r & x & -> & H1 & H2 & H3)].
  - rewrite H2. exists (length evs). rewrite firstn_app, firstn_all, Nat.sub_diag, app_nil_r. reflexivity.
  - rewrite H3. exists (length (evs1 ++ [e1])). cbn [fst].
    assert (E : (evs1 ++ e1 :: r) ++ rest = (evs1 ++ [e1]) ++ r ++ rest) by (rewrite <- !app_assoc; reflexivity).
    rewrite E, firstn_app, firstn_all, Nat.sub_diag. cbn. rewrite app_nil_r. reflexivity.
Qed.

(** ** C19 *)
(** When parsing succeeds, whatever the callback does, the calls made are
    exactly (section,1,n) ... (section,n,n) for the sections present, in the
    reading order, n being the number of the section's direct children. *)
Theorem C19_parse_progress_exact :
  forall s c h h' b,
    parse_from_string (Some c) s h = (h', Ok b) -> h' = h ++ document_events s.
Proof. intros s. apply (traced_success _ _ (proj1 (string_traced s))). Qed.
(** In any case they are a prefix of that sequence. *)
Theorem C19_failed_parse_reports_prefix :
  forall s c h, exists k, fst (parse_from_string (Some c) s h) = h ++ firstn k (document_events s).
Proof. intros s. apply (traced_prefix _ _ (proj1 (string_traced s))). Qed.
(** A file is read and then parsed; the calls are those of its text. *)
Theorem C19_parse_file_progress_exact :
  forall file c h h' b,
    parse_file (Some c) file h = (h', Ok b) ->
    exists bs s, file = Some bs /\ utf8_decode bs = Some s
                 /\ h' = h ++ document_events (universal_newlines s).
Proof.
  intros [bs|] c h h' b H; [|discriminate]. unfold parse_file in H.
  destruct (utf8_decode bs) as [s|] eqn:E; [|discriminate]. exists bs, s.
  split; [reflexivity|]. split; [exact E|]. eapply C19_parse_progress_exact, H.
Qed.

(** ** C20 *)
Theorem C20_parse_callback_has_no_influence :
  forall s c h, unaffected c h (parse_from_string (Some c) s h) (parse_string s).
Proof. intros s. apply (traced_unaffected _ _ (proj1 (string_traced s))). Qed.
Theorem C20_quiet_parse :
  forall s c h, quiet c -> snd (parse_from_string (Some c) s h) = parse_string s.
Proof.
  intros s c h Q. destruct (C20_parse_callback_has_no_influence s c h) as (evs & _ & [[_ H]|(a & e & x & _ & _ & H & _)]).
  - exact H.
  - rewrite Q in H. discriminate.
Qed.
Theorem C20_unparse_callback_has_no_influence :
  forall b c h, unaffected c h (unparse (Some c) b h) (unparse_string b).
Proof. intros b. apply (traced_unaffected _ _ (proj1 (unparse_traced b))). Qed.
Theorem C20_quiet_unparse :
  forall b c h, quiet c -> snd (unparse (Some c) b h) = unparse_string b.
Proof.
  intros s c h Q. destruct (C20_unparse_callback_has_no_influence s c h) as (evs & _ & [[_ H]|(a & e & x & _ & _ & H & _)]).
  - exact H.
  - rewrite Q in H. discriminate.
Qed.
(** Without a callback nothing is reported. *)
Theorem C20_no_callback_no_calls :
  forall s b h, parse_from_string None s h = (h, parse_string s)
                /\ unparse None b h = (h, unparse_string b).
Proof.
  intros s b h. destruct (proj1 (string_traced s)) as (e1 & r1 & _ & _ & H1 & _).
  destruct (proj1 (unparse_traced b)) as (e2 & r2 & _ & _ & H2 & _). split; [apply H1|apply H2].
Qed.

(** ** C21 *)
Theorem C21_unparse_progress_exact :
  forall b c h h' s, unparse (Some c) b h = (h', Ok s) -> h' = h ++ bundle_events b.
Proof. intros b. apply (traced_success _ _ (proj1 (unparse_traced b))). Qed.
Theorem C21_failed_unparse_reports_prefix :
  forall b c h, exists k, fst (unparse (Some c) b h) = h ++ firstn k (bundle_events b).
Proof. intros b. apply (traced_prefix _ _ (proj1 (unparse_traced b))). Qed.

(** ** A document with three sections, one of them empty *)
Definition sample_text : str :=
  "<?xml version=""1.0"" encoding=""UTF-8""?>" ++ nl ++
  "<REQ-IF xmlns=""http://www.omg.org/spec/ReqIF/20110401/reqif.xsd"">" ++ nl ++
  "<CORE-CONTENT><REQ-IF-CONTENT>" ++ nl ++
  "<DATATYPES><DATATYPE-DEFINITION-DATE IDENTIFIER=""d1""/>" ++ nl ++
  "<DATATYPE-DEFINITION-XHTML IDENTIFIER=""d2""/></DATATYPES>" ++ nl ++
  "<SPEC-TYPES></SPEC-TYPES>" ++ nl ++
  "<SPEC-RELATIONS><SPEC-RELATION IDENTIFIER=""r1""><TYPE/></SPEC-RELATION></SPEC-RELATIONS>" ++ nl ++
  "</REQ-IF-CONTENT></CORE-CONTENT></REQ-IF>".
Definition recorder (h : list event) (e : event) : option exn := None.
(** raises at its second call *)
Definition impatient (h : list event) (e : event) : option exn :=
  match h with [] => None | _ => Some (EUser 7) end.
Definition is_okb {A} (r : result A) : bool := match r with Ok _ => true | Raise _ => false end.
Example C19_example :
  is_okb (parse_string sample_text) = true
  /\ fst (parse_from_string (Some recorder) sample_text []) =
     [Event "DATATYPES" 1 2; Event "DATATYPES" 2 2; Event "SPEC-RELATIONS" 1 1]
  /\ document_events sample_text =
     [Event "DATATYPES" 1 2; Event "DATATYPES" 2 2; Event "SPEC-RELATIONS" 1 1].
Proof. vm_compute. auto. Qed.
Example C20_example :
  parse_from_string (Some impatient) sample_text [] =
  ([Event "DATATYPES" 1 2; Event "DATATYPES" 2 2], Raise (EUser 7)).
Proof. vm_compute. reflexivity. Qed.
Example C21_example :
  exists b, parse_string sample_text = Ok b
    /\ is_okb (unparse_string b) = true
    /\ fst (unparse (Some recorder) b []) = [Event "DATATYPES" 1 2; Event "DATATYPES" 2 2].
Proof. eexists. split; [vm_compute; reflexivity|]. vm_compute. auto. Qed.

Print Assumptions C19_parse_progress_exact.
Print Assumptions C19_failed_parse_reports_prefix.
Print Assumptions C19_parse_file_progress_exact.
Print Assumptions C20_parse_callback_has_no_influence.
Print Assumptions C20_quiet_parse.
Print Assumptions C20_unparse_callback_has_no_influence.
Print Assumptions C20_quiet_unparse.
Print Assumptions C20_no_callback_no_calls.
Print Assumptions C21_unparse_progress_exact.
Print Assumptions C21_failed_unparse_reports_prefix.
