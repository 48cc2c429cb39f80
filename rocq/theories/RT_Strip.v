(** RT_Strip.v -- the printed form of an XHTML forest determines the forest *)
From Verif Require Import Base Xml Utf8 Lxml Py LxmlStr Models XmlProofs DictProofs SpecEscape EscapeProofs
  SpecPrint SpecXhtml SpecDocument Frag RT RT_Header RT_Values RT_Xhtml RT_Document.

Lemma fcat_x l : f_x (fcat l) = concat (map f_x l).
Proof. induction l as [|f l IH]; [reflexivity|]. cbn. rewrite IH. reflexivity. Qed.
Lemma fxh_x p u x : f_x (fxh p u x) = [named p x].
Proof.
  assert (HA : forall a, map attr_of (xattrs a) = a).
  { intros a. unfold xattrs. rewrite map_map. induction a as [|[k v] a IH]; [reflexivity|]. cbn [map]. rewrite IH. reflexivity. }
  induction x as [c|n a k IH] using xh_ind'; [reflexivity|]. destruct k as [|x k].
  - cbn [fxh fxem f_x]. rewrite HA. reflexivity.
  - change (f_x (fxh p u (XE n a (x :: k)))) with [XElem (p ++ ":" ++ n) (map attr_of (xattrs a)) (f_x (fcat (map (fxh p u) (x :: k))))].
    rewrite HA, fcat_x, map_map. cbn [named]. f_equal. f_equal. rewrite (map_ext_Forall _ _ IH).
    remember (x :: k) as l. clear. induction l as [|y l IHl]; [reflexivity|]. cbn. rewrite IHl. reflexivity.
Qed.
Lemma fforest_x p u f : f_x (fforest p u f) = map (named p) f.
Proof.
  unfold fforest. rewrite fcat_x, map_map. induction f as [|x f IH]; [reflexivity|]. cbn [map concat]. rewrite IH, fxh_x. reflexivity.
Qed.
Lemma show_reads p f : plain_name p = true -> p <> "xml" -> forest_ok f -> reads (show p f) (map (named p) f).
Proof.
  intros H1 H2 H3. rewrite <- (fforest_x p xhtml_uri), <- (fforest_str p xhtml_uri).
  apply g_reads with (p := p) (u := xhtml_uri). apply fforest_good; [exact H1| |reflexivity|exact H3].
  destruct (str_eqb p "xml") eqn:E; [|reflexivity]. apply str_eqb_eq in E. congruence.
Qed.
Lemma show_read_text p f : plain_name p = true -> p <> "xml" -> forest_ok f ->
  read_text ("<X>" ++ show p f ++ "</X>") = Some (XDoc None (XElem "X" [] (map (named p) f))).
Proof.
  intros H1 H2 H3. unfold read_text.
  assert (SB : forall s, skip_bom ("<X>" ++ s) = "<X>" ++ s) by reflexivity. rewrite SB.
  change ("<X>" ++ show p f ++ "</X>") with ("<" ++ "X" ++ render_attrs [] ++ ">" ++ show p f ++ "</" ++ "X" ++ ">").
  unfold init. rewrite (run_elem "X" [] (show p f) (map (named p) f)); [|reflexivity|constructor|apply reads_reads0, show_reads; assumption].
  reflexivity.
Qed.

(** Back from what is read *)
Fixpoint unnamed (k : nat) (x : xnode) : xh :=
  match x with
  | XChar c => XT c
  | XElem n attrs kids => XE (skipn k n) attrs (map (unnamed k) kids)
  | _ => XT 0%N
  end.
Lemma unnamed_named p x : unnamed (length (p ++ ":")) (named p x) = x.
Proof.
  induction x as [c|n a k IH] using xh_ind'; [reflexivity|]. cbn [named unnamed]. f_equal.
  - rewrite app_assoc. rewrite skipn_app, skipn_all, Nat.sub_diag. reflexivity.
  - rewrite map_map. rewrite (map_ext_Forall _ _ IH). apply map_id.
Qed.
Lemma unnamed_forest p f : map (unnamed (length (p ++ ":"))) (map (named p) f) = f.
Proof. rewrite map_map. rewrite (map_ext _ (fun x => x)) by apply unnamed_named. apply map_id. Qed.
Definition strip_text (p : str) (v : str) : str :=
  match read_text ("<X>" ++ v ++ "</X>") with
  | Some (XDoc _ (XElem _ _ kids)) =>
      reqif_unindent_xhtml_string (bare_doubled (map (unnamed (length (p ++ ":"))) kids))
  | _ => []
  end.
Lemma strip_text_strips p : plain_name p = true -> p <> "xml" -> strips p (strip_text p).
Proof.
  intros H1 H2 f HF. unfold strip_text. rewrite show_read_text by assumption. rewrite unnamed_forest. reflexivity.
Qed.
Lemma show_inj p f g : plain_name p = true -> p <> "xml" -> forest_ok f -> forest_ok g -> show p f = show p g -> f = g.
Proof.
  intros H1 H2 HF HG E. pose proof (show_read_text p f H1 H2 HF) as A. rewrite E, show_read_text in A by assumption.
  assert (E' : map (named p) g = map (named p) f) by congruence.
  rewrite <- (unnamed_forest p f), <- (unnamed_forest p g), E'. reflexivity.
Qed.
