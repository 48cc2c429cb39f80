(** ConvertProofs.v -- HTML made from XHTML and XHTML made from HTML *)
From Verif Require Import Base Xml Lxml Py LxmlStr Models Serialise Convert SpecEscape SpecPrint SpecXhtml SpecDocument
  SpecIndent SpecAnonymizable SpecConvert XmlProofs DictProofs EscapeProofs Frag RT RT_Header RT_Values RT_Xhtml RT_Document
  RT_Strip ParserProofs Prop_Indent.
From Verif Require SpecXml SpecLines GrammarProofs GrammarInv GrammarDoc SerialiseProofs AnonymizeTotal.

Lemma tree_x q m x : tree q m x = xnodes q m x.
Proof.
  induction x as [c|n a k IH] using xh_ind'; [reflexivity|]. cbn [tree xnodes]. rewrite (map_ext_Forall _ _ IH). reflexivity.
Qed.
Lemma trees_x q m f : map (tree q m) f = map (xnodes q m) f.
Proof. apply map_ext, tree_x. Qed.

(** ** With a prefix *)
Section C.
Variables (closed : str -> bool) (p : str).
Fixpoint fxc (x : xh) : frag :=
  match x with
  | XT c => ftxt (lxml_escape_for_html [c]) [c]
  | XE n a [] => if closed n then fxel p xhtml_uri n (xattrs a) (fcat []) else fxem p xhtml_uri n (xattrs a)
  | XE n a ks => fxel p xhtml_uri n (xattrs a) (fcat (map fxc ks))
  end.
Lemma fxc_str x : f_str (fxc x) = show_node closed (p ++ ":") x.
Proof.
  induction x as [c|n a k IH] using xh_ind'.
  - cbn [fxc ftxt f_str show_node]. apply lxml_escape_eq.
  - cbn [show_node]. destruct k as [|x k].
    + cbn [fxc]. destruct (closed n); cbn [fxem fxel f_str fcat flat_map]; rewrite xattrs_render, <- !app_assoc; reflexivity.
    + change (f_str (fxc (XE n a (x :: k)))) with ("<" ++ (p ++ ":" ++ n) ++ render_attrs (xattrs a) ++ ">" ++ f_str (fcat (map fxc (x :: k))) ++ "</" ++ (p ++ ":" ++ n) ++ ">").
      rewrite xattrs_render, fcat_str, map_map, <- flat_map_concat, <- !app_assoc.
      rewrite (map_ext_Forall _ _ IH). reflexivity.
Qed.
Lemma fxc_x x : f_x (fxc x) = [named p x].
Proof.
  assert (HA : forall a, map attr_of (xattrs a) = a).
  { intros a. unfold xattrs. rewrite map_map. induction a as [|[k v] a IH]; [reflexivity|]. cbn [map]. rewrite IH. reflexivity. }
  induction x as [c|n a k IH] using xh_ind'; [reflexivity|]. destruct k as [|x k].
  - cbn [fxc]. destruct (closed n); cbn [fxem fxel fcat f_x]; rewrite HA; reflexivity.
  - change (f_x (fxc (XE n a (x :: k)))) with [XElem (p ++ ":" ++ n) (map attr_of (xattrs a)) (f_x (fcat (map fxc (x :: k))))].
    rewrite HA, fcat_x, map_map. cbn [named]. f_equal. f_equal. rewrite (map_ext_Forall _ _ IH).
    remember (x :: k) as l. clear. induction l as [|y l IHl]; [reflexivity|]. cbn. rewrite IHl. reflexivity.
Qed.
Hypothesis p_ok : okname p = true.
Hypothesis p_xml : str_eqb p "xml" = false.
Lemma fxc_good x : xh_ok x -> good p xhtml_uri (fxc x).
Proof.
  induction x as [c|n a k IH] using xh_ind'; intros H.
  - apply (fxh_good p xhtml_uri p_ok p_xml eq_refl (XT c) H).
  - apply xh_ok_elem in H. destruct H as (H1 & H2 & H3 & H4). destruct k as [|x k].
    + cbn [fxc]. destruct (closed n); [apply good_xel|apply good_xem]; auto using xattrs_ok. apply good_cat. constructor.
    + change (fxc (XE n a (x :: k))) with (fxel p xhtml_uri n (xattrs a) (fcat (map fxc (x :: k)))).
      apply good_xel; auto using xattrs_ok. apply good_cat. rewrite Forall_map. unfold forest_ok in H4. rewrite Forall_forall in *. auto.
Qed.
Lemma closed_read f : forest_ok f ->
  read_text ("<X>" ++ show_forest closed (p ++ ":") f ++ "</X>") = Some (XDoc None (XElem "X" [] (map (named p) f))).
Proof.
  intros H3.
  assert (R : reads (show_forest closed (p ++ ":") f) (map (named p) f)).
  { unfold show_forest. induction H3 as [|x f Hx _ IH]; [apply reads_nil|]. cbn [flat_map map]. apply (reads_app _ [named p x]); [|exact IH].
    rewrite <- fxc_str, <- fxc_x. apply g_reads with (p := p) (u := xhtml_uri). apply fxc_good, Hx. }
  unfold read_text.
  assert (SB : forall s, skip_bom ("<X>" ++ s) = "<X>" ++ s) by reflexivity. rewrite SB.
  change ("<X>" ++ show_forest closed (p ++ ":") f ++ "</X>") with ("<" ++ "X" ++ render_attrs [] ++ ">" ++ show_forest closed (p ++ ":") f ++ "</" ++ "X" ++ ">").
  unfold init. rewrite (run_elem "X" [] _ (map (named p) f)); [|reflexivity|constructor|apply reads_reads0, R].
  reflexivity.
Qed.
End C.

Lemma forced_x p x : is_text x = false ->
  stringify_ns_node (Some p) true (xnodes None [] x) = Ok (show_node is_object (p ++ ":") x).
Proof.
  induction x as [c|n a k IH] using xh_ind'; intros HT; [discriminate|]. clear HT.
  cbn [xnodes]. rewrite stringify_ns_el. cbv zeta. cbn [orb fmt].
  rewrite print_attrs_x. cbn [show_node].
  rewrite (ns_kids_go _ _ _ _ k (show_node is_object (p ++ ":"))); [|exact IH|intros c; cbn [show_node]; symmetry; apply lxml_escape_eq].
  cbn [bind]. unfold needs_close. change (clark None n) with n. rewrite is_object_casefold.
  destruct k as [|x k]; cbn [map]; [destruct (is_object n)|]; rewrite <- !app_assoc; reflexivity.
Qed.
Lemma forced_forest p f : stringify_ns_kids (Some p) true (map (xnodes None []) f) = Ok (show_forest is_object (p ++ ":") f).
Proof.
  unfold show_forest. apply ns_kids_go; [|intros c; cbn [show_node]; symmetry; apply lxml_escape_eq].
  apply Forall_forall. intros x _ HT. apply forced_x; assumption.
Qed.

(** ** The text before the first element *)
Lemma leading_split f : exists w r, f = map XT w ++ r /\ (forall c r', r <> XT c :: r') /\ leading f = w.
Proof.
  induction f as [|[c|n a k] f (w & r & E & HR & HL)].
  - exists [], []. repeat split. discriminate.
  - exists (c :: w), r. cbn [map app leading]. rewrite <- E, HL. auto.
  - exists [], (XE n a k :: f). repeat split. discriminate.
Qed.
Lemma after_lead_x q m w r : (forall c r', r <> XT c :: r') -> after_lead (map (xnodes q m) (map XT w ++ r)) = map (xnodes q m) r.
Proof.
  intros H. induction w as [|c w IH]; [|exact IH]. cbn [map app]. destruct r as [|[c|n a k] r]; [reflexivity| |reflexivity].
  exfalso. apply (H c r eq_refl).
Qed.
Lemma strip_blank s : strip s = [] <-> Forall python_blank s.
Proof.
  split.
  - intros E. destruct (strip_trimmed s) as (a & b & E1 & Ha & Hb & _). rewrite E in E1. cbn [app] in E1. subst s. apply Forall_app. auto.
  - intros H. apply trimmed_strip. exists s, []. split; [rewrite !app_nil_r; reflexivity|]. split; [exact H|]. split; [constructor|].
    split; intros c r E; [discriminate|destruct r; discriminate].
Qed.
Lemma fragment_told html s f : html s = Ok (map (tree None []) f) ->
  exists g, told f g /\ fragment_fromstring html s = Ok (El None "NOT-USED" [] [] [] (map (xnodes None []) g)).
Proof.
  intros H. unfold fragment_fromstring. rewrite H, trees_x. cbn [bind]. rewrite lead_x.
  destruct (leading_split f) as (w & r & E & HR & HL). rewrite HL. destruct (strip w) eqn:ES.
  - exists r. split.
    + exists w, r. split; [exact E|]. split; [exact HR|]. left. split; [apply strip_blank, ES|reflexivity].
    + rewrite E, after_lead_x by exact HR. reflexivity.
  - exists f. split; [|reflexivity]. exists w, r. split; [exact E|]. split; [exact HR|]. right. split; [|reflexivity].
    intros HB. apply strip_blank in HB. congruence.
Qed.

(** ** Without prefix *)
Lemma wrapped t k : SpecXml.content t k -> ~ In 13%N t -> read_text ("<X>" ++ t ++ "</X>") = Some (XDoc None (XElem "X" [] k)).
Proof.
  intros HC HN. apply GrammarDoc.read_text_grammar. exists ("<X>" ++ t ++ "</X>"), ("<X>" ++ t ++ "</X>").
  assert (NN : ~ In 13%N ("<X>" ++ t ++ "</X>")).
  { rewrite !in_app_iff. cbn [In]. intros [H|[H|H]]; [|exact (HN H)|]; repeat (destruct H as [H|H]; [discriminate|]); destruct H. }
  split; [right; split; [discriminate|reflexivity]|]. split; [|split; [exact NN|]].
  - pose proof (GrammarDoc.un_same _ ("<X>" ++ t ++ "</X>") (le_n _)) as U. rewrite (GrammarDoc.un_id _ NN) in U. exact U.
  - exists [], [], ("<X>" ++ t ++ "</X>"), []. split; [rewrite app_nil_r; reflexivity|]. split; [constructor|]. split; [|split; [constructor|reflexivity]].
    change ("<X>" ++ t ++ "</X>") with ("<" ++ "X" ++ [] ++ [] ++ ">" ++ t ++ "</" ++ "X" ++ [] ++ ">").
    apply SpecXml.element_full; try constructor; [|exact HC]. apply GrammarProofs.name_ok. reflexivity.
Qed.

(** line breaks and indentation *)
Definition xpad (f : bool) (s : str) : list xh := if f then map XT s else [].
Fixpoint laid (f : bool) (level : nat) (x : xh) : xh :=
  match x with
  | XE n a (y :: k) =>
      let f' := f && negb (existsb is_text (y :: k)) in
      XE n a (xpad f' nl ++ flat_map (fun z => xpad f' (indentation (S level)) ++ [laid f' (S level) z] ++ xpad f' nl) (y :: k)
              ++ xpad f' (indentation level))
  | _ => x
  end.
Lemma laid_el f level n a k : laid f level (XE n a k)
  = XE n a (match k with [] => [] | _ =>
      let f' := f && negb (existsb is_text k) in
      xpad f' nl ++ flat_map (fun z => xpad f' (indentation (S level)) ++ [laid f' (S level) z] ++ xpad f' nl) k
              ++ xpad f' (indentation level) end).
Proof. destruct k; reflexivity. Qed.
Lemma existsb_xnodes q m k : existsb is_chr (map (xnodes q m) k) = existsb is_text k.
Proof. induction k as [|x k IH]; [reflexivity|]. cbn [map existsb]. rewrite IH. destruct x; reflexivity. Qed.
Lemma raw_x a : SerialiseProofs.raw_attrs [] (map (fun kv => Attr None (fst kv) (snd kv)) a) = a.
Proof. unfold SerialiseProofs.raw_attrs. cbn [map app]. rewrite map_map. induction a as [|[k v] a IH]; [reflexivity|]. cbn [map]. rewrite IH. reflexivity. Qed.
Lemma refined_x q m x : SerialiseProofs.refined false (xnodes q m x) = xnodes q m x.
Proof.
  induction x as [c|n a k IH] using xh_ind'; [reflexivity|]. cbn [xnodes SerialiseProofs.refined]. f_equal.
  rewrite map_map. apply map_ext_Forall, IH.
Qed.
Lemma unresolve_pad f s : map SerialiseProofs.unresolve (SerialiseProofs.padding f s) = map unprefixed (xpad f s).
Proof. destruct f; [|reflexivity]. cbn [SerialiseProofs.padding xpad]. rewrite !map_map. reflexivity. Qed.
Lemma laid_unresolve m x : forall f level,
  SerialiseProofs.unresolve (SerialiseProofs.pretty f level (xnodes None m x)) = unprefixed (laid f level x).
Proof.
  induction x as [c|n a k IH] using xh_ind'; intros f level; [reflexivity|].
  rewrite laid_el. destruct k as [|y k].
  - cbn [xnodes map SerialiseProofs.pretty SerialiseProofs.unresolve unprefixed]. rewrite raw_x. reflexivity.
  - set (l := y :: k) in *. assert (EL : l <> []) by discriminate. clearbody l. clear y k.
    cbn [xnodes SerialiseProofs.pretty SerialiseProofs.unresolve]. rewrite raw_x.
    destruct l as [|y k]; [congruence|]. cbn [map]. change (xnodes None m y :: map (xnodes None m) k) with (map (xnodes None m) (y :: k)).
    set (l := y :: k) in *. clearbody l. clear y k EL. rewrite existsb_xnodes. set (f' := f && negb (existsb is_text l)). clearbody f'. cbv zeta.
    cbn [unprefixed]. f_equal. rewrite !map_app, !unresolve_pad. do 2 f_equal.
    induction IH as [|z l Hz _ IHl]; [reflexivity|]. cbn [map flat_map]. rewrite !map_app, IHl, !unresolve_pad. cbn [map]. rewrite Hz. reflexivity.
Qed.
Lemma laid_false level x : laid false level x = x.
Proof.
  revert level. induction x as [c|n a k IH] using xh_ind'; intros level; [reflexivity|]. rewrite laid_el. destruct k as [|y k]; [reflexivity|].
  set (l := y :: k) in *. clearbody l. cbn [andb xpad app]. rewrite app_nil_r. f_equal. 
  induction IH as [|z l Hz _ IHl]; [reflexivity|]. cbn [flat_map app]. rewrite Hz. f_equal. exact IHl.
Qed.
Lemma laid_text n a k : existsb is_text k = true -> laid true 0 (XE n a k) = XE n a k.
Proof.
  intros H. rewrite laid_el. destruct k as [|y k]; [reflexivity|]. rewrite H. cbn [andb negb xpad app]. rewrite app_nil_r. f_equal.
  generalize (y :: k). intros l. induction l as [|z l IHl]; [reflexivity|]. cbn [flat_map app]. rewrite laid_false. f_equal. exact IHl.
Qed.
Lemma padding_indentation n : padding (indentation n).
Proof. unfold indentation. apply Forall_forall. intros x HX. apply repeat_spec in HX. subst x. left. reflexivity. Qed.
Lemma padding_nl : padding nl.
Proof. constructor; [cbn; auto|constructor]. Qed.
Lemma laid_spread x : forall f level, spread x (laid f level x).
Proof.
  induction x as [c|n a k IH] using xh_ind'; intros f level; [constructor|]. rewrite laid_el. destruct k as [|y k]; [constructor|].
  set (l := y :: k) in *. clearbody l. destruct (f && negb (existsb is_text l)) eqn:E; cbv zeta.
  - apply andb_prop in E. destruct E as [_ E]. apply negb_true_iff in E.
    (* the line end after a child is put before the next one *)
    assert (S1 : forall pre, padding pre -> exists lines last,
      map XT pre ++ flat_map (fun z => map XT (indentation (S level)) ++ [laid true (S level) z] ++ map XT nl) l ++ map XT (indentation level)
      = flat_map (fun line => map XT (fst line) ++ [snd line]) lines ++ map XT last
      /\ Forall2 (fun k line => padding (fst line) /\ spread k (snd line)) l lines /\ padding last).
    { clear E. induction IH as [|z l Hz _ IHl]; intros pre HP.
      - exists [], (pre ++ indentation level). cbn [flat_map app]. rewrite map_app. split; [reflexivity|]. split; [constructor|].
        apply Forall_app. split; [exact HP|apply padding_indentation].
      - destruct (IHl nl padding_nl) as (lines & last & E1 & E2 & E3).
        exists ((pre ++ indentation (S level), laid true (S level) z) :: lines), last. split; [|split; [|exact E3]].
        + cbn [flat_map fst snd]. rewrite map_app, <- !app_assoc. rewrite <- E1. cbn [app]. rewrite <- ?app_assoc. reflexivity.
        + constructor; [|exact E2]. cbn [fst snd]. split; [apply Forall_app; split; [exact HP|apply padding_indentation]|apply Hz]. }
    destruct (S1 nl padding_nl) as (lines & last & E1 & E2 & E3). cbn [xpad]. rewrite E1. apply spread_lines; [|exact E2|exact E3].
    apply Forall_forall. intros z HZ. destruct (is_text z) eqn:EZ; [|reflexivity]. exfalso.
    assert (X : existsb is_text l = true) by (apply existsb_exists; eauto). congruence.
  - cbn [xpad app]. rewrite app_nil_r. 
    assert (E2 : flat_map (fun z => [laid false (S level) z]) l = l).
    { clear. induction l as [|z l IHl]; [reflexivity|]. cbn [flat_map app]. rewrite laid_false, IHl. reflexivity. }
    rewrite E2. constructor.
Qed.

(** what is written *)
Lemma plain_is_name n : plain_name n = true -> SpecXml.name n.
Proof. intros H. apply GrammarProofs.name_ok. apply andb_prop in H. apply H. Qed.
Lemma writable_x m x : xh_ok x -> SerialiseProofs.writable false (xnodes None m x).
Proof.
  induction x as [c|n a k IH] using xh_ind'; intros H.
  - constructor. apply GrammarProofs.char_ok, H.
  - apply xh_ok_elem in H. destruct H as (H1 & H2 & H3 & H4). cbn [xnodes]. constructor.
    + split; [apply plain_is_name, H1|discriminate].
    + constructor.
    + rewrite Forall_map. unfold attr_names in H2. apply andb_prop in H2. destruct H2 as [H2 _]. rewrite forallb_forall in H2.
      rewrite Forall_forall in *. intros [kk v] HI. split.
      * split; [|discriminate]. cbn. apply plain_is_name. specialize (H2 kk). rewrite in_map_iff in H2.
        assert (X : plain_name kk && negb (str_eqb kk "xmlns") = true) by (apply H2; exists (kk, v); auto). apply andb_prop in X. apply X.
      * cbn. specialize (H3 _ HI). cbn in H3. eapply Forall_impl; [|exact H3]. intros c [HC _]. apply GrammarProofs.char_ok, HC.
    + rewrite Forall_map. unfold forest_ok in H4. rewrite Forall_forall in *. auto.
Qed.
Lemma put_end hex f level q n d i a k : exists t, put hex f level (El q n d i a k) = t ++ [62%N].
Proof.
  cbn [put]. destruct k.
  - exists ("<" ++ qualified (prefix_of q) n ++ flat_map put_def d ++ flat_map (put_attr hex) a ++ "/"). rewrite <- !app_assoc. reflexivity.
  - set (kk := n0 :: k). clearbody kk. eexists. rewrite !app_assoc. reflexivity.
Qed.
Lemma rstrip_keep t c r : py_space c = false -> rstrip ((t ++ [c]) ++ r) = (t ++ [c]) ++ rstrip r.
Proof.
  intros H. unfold rstrip. rewrite !rev_app_distr. cbn [rev app].
  assert (E : forall l, lstrip (l ++ c :: rev t) = lstrip l ++ c :: rev t).
  { induction l as [|x l IH]; [cbn [lstrip app]; rewrite H; reflexivity|]. cbn [app lstrip]. destruct (py_space x); [exact IH|reflexivity]. }
  rewrite E, rev_app_distr. cbn [rev]. rewrite rev_involutive. reflexivity.
Qed.
Lemma put_char_end c : put_char c = [c] \/ exists t, put_char c = t ++ [59%N].
Proof.
  unfold put_char. destruct (N.eqb c 60); [right; exists "&lt"; reflexivity|]. destruct (N.eqb c 62); [right; exists "&gt"; reflexivity|].
  destruct (N.eqb c 38); [right; exists "&amp"; reflexivity|]. destruct (N.eqb c 13); [right; exists "&#13"; reflexivity|]. left. reflexivity.
Qed.
Lemma rstrip_tail tail : exists tail' w, tail = tail' ++ w /\ Forall python_blank w
  /\ rstrip (flat_map put_char tail ++ nl) = flat_map put_char tail'.
Proof.
  rewrite rstrip_app_ws by reflexivity. induction tail as [|c tail IH] using rev_ind; [exists [], []; repeat split; constructor|].
  rewrite flat_map_app. cbn [flat_map]. rewrite app_nil_r. destruct (put_char_end c) as [E|(t & E)]; rewrite E.
  - destruct (py_space c) eqn:ES.
    + rewrite rstrip_app_ws by (cbn [forallb]; rewrite ES; reflexivity). destruct IH as (t' & w & -> & HW & EW).
      exists t', (w ++ [c]). split; [rewrite app_assoc; reflexivity|]. split; [|exact EW]. apply Forall_app. split; [exact HW|].
      constructor; [apply py_space_blank, ES|constructor].
    + exists (tail ++ [c]), []. rewrite app_nil_r. split; [reflexivity|]. split; [constructor|].
      rewrite <- (app_nil_r (flat_map put_char tail ++ [c])), rstrip_keep by exact ES. rewrite app_nil_r, flat_map_app. cbn [flat_map]. rewrite E. reflexivity.
  - exists (tail ++ [c]), []. rewrite app_nil_r. split; [reflexivity|]. split; [constructor|].
    rewrite app_assoc, <- (app_nil_r ((flat_map put_char tail ++ t) ++ [59%N])), rstrip_keep by reflexivity.
    rewrite !app_nil_r, flat_map_app. cbn [flat_map]. rewrite E, app_nil_r, <- app_assoc. reflexivity.
Qed.
Lemma tail_content s : Forall SpecXml.char s -> SpecXml.content (flat_map put_char s) (map XChar s) /\ GrammarInv.free (flat_map put_char s).
Proof.
  intros H. induction H as [|c s HC _ [IH IF]]; [split; [constructor|apply GrammarInv.free_nil]|]. cbn [flat_map map]. split.
  - apply (SerialiseProofs.content_put_char false c); assumption.
  - apply GrammarInv.free_app; [apply (SerialiseProofs.free_put_char false c)|exact IF].
Qed.
Lemma tail_no_cr s : ~ In 13%N (flat_map put_char s).
Proof.
  apply SerialiseProofs.no_cr_flat. apply Forall_forall. intros c _. unfold put_char.
  destruct (N.eqb c 60); [apply SerialiseProofs.no_cr_lit; reflexivity|]. destruct (N.eqb c 62); [apply SerialiseProofs.no_cr_lit; reflexivity|].
  destruct (N.eqb c 38); [apply SerialiseProofs.no_cr_lit; reflexivity|]. destruct (N.eqb_spec c 13) as [->|N]; [apply SerialiseProofs.no_cr_lit; reflexivity|].
  intros [E|[]]. congruence.
Qed.
Lemma convert_from_x hex q m n a k tail :
  exists tail' w, tail = tail' ++ w /\ Forall python_blank w
    /\ convert_from_reqif_ns hex (xnodes q m (XE n a k)) tail = Ok (put hex true 0 (xnodes None [] (XE n a k)) ++ flat_map put_char tail').
Proof.
  destruct (rstrip_tail tail) as (t' & w & E1 & E2 & E3). exists t', w. split; [exact E1|]. split; [exact E2|].
  unfold convert_from_reqif_ns, deepcopy. cbn [xnodes strip_ns app]. rewrite map_opt_strip.
  cbn [cleanup]. set (at_ := map (fun kv : str * str => Attr None (fst kv) (snd kv)) a).
  assert (EO : own_refs None at_ = []).
  { unfold own_refs, at_. cbn [app]. apply flat_map_nil. intros y Hy. apply in_map_iff in Hy. destruct Hy as (b & <- & _). reflexivity. }
  cbn [negb andb]. rewrite EO, flat_uses_x. cbn [app].
  assert (F : forall L : nsmap, filter (fun d => ostr_mem (fst d) []) L = []) by (induction L as [|y L IH]; [reflexivity|exact IH]).
  rewrite F, extend_nil, map_map. rewrite (map_ext _ (xnodes None [])) by (intros; apply cleanup_x).
  f_equal. destruct (put_end hex true 0 None n [] [] at_ (map (xnodes None []) k)) as (t & ET).
  match goal with |- rstrip (?P ++ _) = _ => change P with (put hex true 0 (El None n [] [] at_ (map (xnodes None []) k))) end.
  rewrite ET, rstrip_keep by reflexivity. rewrite E3. reflexivity.
Qed.
