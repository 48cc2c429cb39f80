(** Prop_Escape.v -- C01, C02, C03: escaping *)
From Verif Require Import Base Xml Lxml XmlProofs SpecEscape EscapeProofs.

Lemma doc_attr n k raw v :
  is_name n = true -> is_name k = true -> aval raw v ->
  read_text ("<" ++ n ++ " " ++ k ++ "=""" ++ raw ++ """/>") = Some (XDoc None (XElem n [(k, v)] [])).
Proof.
  intros H1 H2 H3. unfold read_text, skip_bom.
  assert (E : "<" ++ n ++ " " ++ k ++ "=""" ++ raw ++ """/>" = "<" ++ n ++ render_attrs [PA k raw v] ++ "/>").
  { unfold render_attrs, render_attr. cbn [flat_map pa_key pa_raw]. rewrite app_nil_r, <- !app_assoc. reflexivity. }
  rewrite E. change ("<" ++ n ++ render_attrs [PA k raw v] ++ "/>") with (60%N :: n ++ render_attrs [PA k raw v] ++ "/>") at 1.
  cbv iota. unfold init. rewrite run_empty; [reflexivity|exact H1|].
  constructor; [split; assumption|constructor].
Qed.
Lemma doc_text n raw v :
  is_name n = true -> reads raw (map XChar v) ->
  read_text ("<" ++ n ++ ">" ++ raw ++ "</" ++ n ++ ">") = Some (XDoc None (XElem n [] (map XChar v))).
Proof.
  intros H1 H2. unfold read_text, skip_bom.
  change ("<" ++ n ++ ">" ++ raw ++ "</" ++ n ++ ">") with (60%N :: n ++ render_attrs [] ++ ">" ++ raw ++ "</" ++ n ++ ">") at 1.
  cbv iota.
  change (60%N :: n ++ render_attrs [] ++ ">" ++ raw ++ "</" ++ n ++ ">") with ("<" ++ n ++ render_attrs [] ++ ">" ++ raw ++ "</" ++ n ++ ">").
  unfold init. rewrite (run_elem n [] raw (map XChar v)); [reflexivity|exact H1|constructor|apply reads_reads0, H2].
Qed.

(** ** C01: attributes.  The reader is the one of Xml.v; names are XML names. *)
Theorem C01_attribute_escape_is_undone :
  forall elem key s, is_name elem = true -> is_name key = true -> xml_text_without [10; 13]%N s ->
    read_text ("<" ++ elem ++ " " ++ key ++ "=""" ++ lxml_escape_for_html s ++ """/>")
    = Some (XDoc None (XElem elem [(key, s)] [])).
Proof. intros elem key s H1 H2 H. apply doc_attr; [exact H1|exact H2|apply lxml_aval, H]. Qed.
Theorem C01_reqif_escape_is_undone :
  forall elem key s, is_name elem = true -> is_name key = true -> xml_text_without [10; 13]%N s ->
    read_text ("<" ++ elem ++ " " ++ key ++ "=""" ++ reqif_escape s ++ """/>")
    = Some (XDoc None (XElem elem [(key, s)] [])).
Proof. intros elem key s H1 H2 H. apply doc_attr; [exact H1|exact H2|apply reqif_aval, H]. Qed.
(** html.escape does not escape tabs *)
Theorem C01_html_escape_is_undone :
  forall elem key s, is_name elem = true -> is_name key = true -> xml_text_without [10; 13; 9]%N s ->
    read_text ("<" ++ elem ++ " " ++ key ++ "=""" ++ html_escape s ++ """/>")
    = Some (XDoc None (XElem elem [(key, s)] [])).
Proof. intros elem key s H1 H2 H. apply doc_attr; [exact H1|exact H2|apply html_aval, H]. Qed.
Theorem C01_escaped_text_is_clean :
  forall s x, In x (lxml_escape_for_html s) -> ~ In x [60; 62; 34; 39; 9; 160]%N.
Proof.
  intros s x. rewrite lxml_escape_eq. intros H N.
  apply substitute_clean in H. destruct H as [(c & e & H1 & H2)|[H1 _]].
  - assert (F : forallb (fun p => forallb (fun y => negb (existsb (N.eqb y) [60; 62; 34; 39; 9; 160]%N)) (snd p)) lxml_table = true)
      by reflexivity.
    rewrite forallb_forall in F. specialize (F _ H1). rewrite forallb_forall in F. specialize (F _ H2).
    apply negb_true_iff in F. assert (T : existsb (N.eqb x) [60; 62; 34; 39; 9; 160]%N = true).
    { apply existsb_exists. exists x. split; [exact N|apply N.eqb_refl]. }
    congruence.
  - apply H1. cbn in *. tauto.
Qed.
(** The restriction is needed. *)
Theorem C01_line_feed_refuted :
  exists s, Forall (fun c => is_xml_char c = true) s
    /\ read_text ("<a b=""" ++ lxml_escape_for_html s ++ """/>") = Some (XDoc None (XElem "a" [("b", "x y")] []))
    /\ s <> "x y".
Proof. exists ("x" ++ nl ++ "y"). split; [repeat constructor|]. split; [vm_compute; reflexivity|discriminate]. Qed.
Theorem C01_html_escape_tab_refuted :
  exists s, xml_text_without [10; 13]%N s
    /\ read_text ("<a b=""" ++ html_escape s ++ """/>") = Some (XDoc None (XElem "a" [("b", "x y")] []))
    /\ s <> "x y".
Proof.
  exists ("x" ++ [9%N] ++ "y"). split; [|split; [vm_compute; reflexivity|discriminate]].
  repeat (constructor; [split; [reflexivity|cbn; intros [H|[H|[]]]; discriminate]|]). constructor.
Qed.
Example C01_example :
  let s := "a<b> & ""c"" 'd'" ++ [9; 160; 8364; 128512]%N in
  xml_text_without [10; 13]%N s
  /\ lxml_escape_for_html s = "a&lt;b&gt; &amp; &quot;c&quot; &#x27;d&#x27;&#9;&#xA0;" ++ [8364; 128512]%N.
Proof.
  split; [|vm_compute; reflexivity].
  repeat (constructor; [split; [reflexivity|cbn; intros [H|[H|[]]]; discriminate]|]). constructor.
Qed.

(** ** C02: element content *)
Theorem C02_text_escape_is_undone :
  forall elem s, is_name elem = true -> xml_text_without [13]%N s ->
    read_text ("<" ++ elem ++ ">" ++ lxml_escape_for_html s ++ "</" ++ elem ++ ">")
    = Some (XDoc None (XElem elem [] (map XChar s))).
Proof. intros elem s H1 H. apply doc_text; [exact H1|apply lxml_reads, H]. Qed.
Theorem C02_reqif_escape_is_undone :
  forall elem s, is_name elem = true -> xml_text_without [13]%N s ->
    read_text ("<" ++ elem ++ ">" ++ reqif_escape s ++ "</" ++ elem ++ ">")
    = Some (XDoc None (XElem elem [] (map XChar s))).
Proof. intros elem s H1 H. apply doc_text; [exact H1|apply reqif_reads, H]. Qed.
(** At every place in a document: inside any open element, with anything
    before and after. *)
Theorem C02_text_escape_in_context :
  forall s before_ after_ st sibs j,
    xml_text_without [13]%N s -> st <> [] ->
    run init before_ = Conf false st sibs (MText j) ->
    exists j',
      run init (before_ ++ lxml_escape_for_html s ++ after_)
      = run (Conf false st (rev (map XChar s) ++ sibs) (MText j')) after_.
Proof.
  intros s x y st d j H N E. destruct (lxml_reads s H st d j N) as [j' EJ]. exists j'. rewrite run_app, E, run_app, EJ. reflexivity.
Qed.
Theorem C02_carriage_return_refuted :
  exists s, Forall (fun c => is_xml_char c = true) s
    /\ read_text ("<a>" ++ lxml_escape_for_html s ++ "</a>") = Some (XDoc None (XElem "a" [] (map XChar ("x" ++ nl))))
    /\ s <> "x" ++ nl.
Proof. exists ("x" ++ [13%N]). split; [repeat constructor|]. split; [vm_compute; reflexivity|discriminate]. Qed.
Example C02_example :
  let s := "1 < 2 && ""x""" ++ nl ++ [9; 160]%N in
  xml_text_without [13]%N s /\ lxml_escape_for_html s = "1 &lt; 2 &amp;&amp; &quot;x&quot;" ++ nl ++ "&#9;&#xA0;".
Proof.
  split; [|vm_compute; reflexivity].
  repeat (constructor; [split; [reflexivity|cbn; intros [H|[]]; discriminate]|]). constructor.
Qed.

(** ** C03: one simultaneous substitution *)
Theorem C03_lxml_escape_is_one_substitution : forall s, lxml_escape_for_html s = substitute lxml_table s.
Proof. exact lxml_escape_eq. Qed.
Theorem C03_reqif_escape_is_one_substitution : forall s, reqif_escape s = substitute reqif_table s.
Proof. exact reqif_escape_eq. Qed.
Theorem C03_html_escape_is_one_substitution : forall s, html_escape s = substitute markup_table s.
Proof. exact html_escape_eq. Qed.
Theorem C03_escapes_are_injective :
  forall s1 s2,
    (lxml_escape_for_html s1 = lxml_escape_for_html s2 -> s1 = s2)
    /\ (reqif_escape s1 = reqif_escape s2 -> s1 = s2)
    /\ (html_escape s1 = html_escape s2 -> s1 = s2).
Proof.
  intros s1 s2. rewrite !lxml_escape_eq, !reqif_escape_eq, !html_escape_eq.
  repeat split; apply substitute_inj; [apply lxml_good|apply reqif_good|apply markup_good].
Qed.
(** The title escape replaces ampersands only. *)
Theorem C03_title_escape : forall s, lxml_escape_title s = substitute [(38%N, "&amp;")] s.
Proof.
  intros s. apply flat_map_ext. intros c. cbn [entry]. destruct (N.eqb c 38); reflexivity.
Qed.
Example C03_example : lxml_escape_for_html "&lt;" = "&amp;lt;" /\ reqif_escape "<&>" = "&lt;&amp;&gt;".
Proof. vm_compute. auto. Qed.

Print Assumptions C01_attribute_escape_is_undone.
Print Assumptions C01_reqif_escape_is_undone.
Print Assumptions C01_html_escape_is_undone.
Print Assumptions C01_escaped_text_is_clean.
Print Assumptions C01_line_feed_refuted.
Print Assumptions C01_html_escape_tab_refuted.
Print Assumptions C02_text_escape_is_undone.
Print Assumptions C02_reqif_escape_is_undone.
Print Assumptions C02_text_escape_in_context.
Print Assumptions C02_carriage_return_refuted.
Print Assumptions C03_lxml_escape_is_one_substitution.
Print Assumptions C03_reqif_escape_is_one_substitution.
Print Assumptions C03_html_escape_is_one_substitution.
Print Assumptions C03_escapes_are_injective.
Print Assumptions C03_title_escape.
