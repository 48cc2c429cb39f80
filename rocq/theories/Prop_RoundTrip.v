(** Prop_RoundTrip.v -- C04, C22 ... C28: each kind of object is read back as
    it was written *)
From Verif Require UriProofs.
From Verif Require Import Base Xml Utf8 Lxml Py LxmlStr Models AttrDef DataType Header AttrValue SpecObj Hierarchy
  SpecTypes Parser Unparser XmlProofs DictProofs SpecEscape EscapeProofs SpecPrint SpecXhtml SpecTraversal
  SpecDocument SpecRoundTrip Frag RT RT_Header RT_DataType RT_AttrDef RT_SpecTypes RT_Values RT_Objects RT_Hier
  RT_Xhtml RT_Content RT_Document RT_Strip RT_Public RT_OneLine.

(** ** Tools for the examples *)
Definition plain_text (bad : list N) (s : str) : bool :=
  forallb (fun c => is_xml_char c && negb (existsb (N.eqb c) bad)) s.
Lemma plain_text_ok bad s : plain_text bad s = true -> xml_text_without bad s.
Proof.
  unfold plain_text, xml_text_without. rewrite forallb_forall, Forall_forall. intros H c Hc. specialize (H c Hc).
  apply andb_prop in H. destruct H as [H1 H2]. split; [exact H1|]. intros HI. apply negb_true_iff in H2.
  assert (existsb (N.eqb c) bad = true) by (apply existsb_exists; exists c; split; [exact HI|apply N.eqb_refl]). congruence.
Qed.
Fixpoint section_end_free (s : str) : bool :=
  match s with
  | [] => true
  | _ :: t => negb (starts_with "]]>" s) && section_end_free t
  end.
Lemma no_section_end_ok s : section_end_free s = true -> no_section_end s.
Proof.
  intros H a. revert s H. induction a as [|c a IH]; intros s H b ->.
  - cbn [app section_end_free] in H. apply andb_prop in H. destruct H as [H _]. apply negb_true_iff in H.
    assert (starts_with "]]>" ("]]>" ++ b) = true) by reflexivity. cbn [app] in *. congruence.
  - cbn [app section_end_free] in H. apply andb_prop in H. destruct H as [_ H]. apply (IH _ H b eq_refl).
Qed.
Lemma text_raw_ok s : plain_text [13; 38; 60]%N s && section_end_free s = true -> text_raw s.
Proof. intros H. apply andb_prop in H. split; [apply plain_text_ok, H|apply no_section_end_ok, H]. Qed.
Lemma text_title_ok s : plain_text [13; 60]%N s && section_end_free s = true -> text_title s.
Proof. intros H. apply andb_prop in H. split; [apply plain_text_ok, H|apply no_section_end_ok, H]. Qed.
Ltac texts := repeat match goal with
  | |- _ /\ _ => split
  | |- exists s, Some ?x = Some s /\ _ => exists x
  | |- when _ _ => cbn [when]
  | |- each _ _ => cbn [each]
  | |- Forall _ _ => constructor
  | |- True => exact I
  | |- ref_ok (Some ?x) => exists x
  | |- attr_raw _ => apply plain_text_ok; reflexivity
  | |- attr_escaped _ => apply plain_text_ok; reflexivity
  | |- attr_html _ => apply plain_text_ok; reflexivity
  | |- text_raw _ => apply text_raw_ok; reflexivity
  | |- text_title _ => apply text_title_ok; reflexivity
  | |- xml_text_without _ _ => apply plain_text_ok; reflexivity
  | |- printable_enum_value _ => unfold printable_enum_value; cbn
  | |- false = true -> _ => discriminate
  | |- printable_attr_def _ _ => unfold printable_attr_def, printable_default, ad_order, order_of; cbn
  | |- printable_value _ _ => unfold printable_value, value_order, order_of; cbn
  | |- In _ _ => cbn
  | |- _ \/ _ => first [left; reflexivity | right; reflexivity | right; left; reflexivity | right; right; left; reflexivity | right; right; right; left; reflexivity]
  | |- _ = _ => reflexivity
  | |- _ <> _ => discriminate
  end.

Fixpoint xh_okb (x : xh) : bool :=
  match x with
  | XT c => is_xml_char c && negb (N.eqb c 13)
  | XE n attrs kids =>
      plain_name n && attr_names (map fst attrs) && forallb (fun kv => plain_text [10; 13]%N (snd kv)) attrs
      && forallb xh_okb kids
  end.
Lemma forest_okb f : forallb xh_okb f = true -> forest_ok f.
Proof.
  assert (X : forall x, xh_okb x = true -> xh_ok x).
  { induction x as [c|n a k IH] using xh_ind'; intros H.
    - cbn [xh_okb] in H. apply andb_prop in H. destruct H as [H1 H2]. split; [exact H1|]. apply negb_true_iff, N.eqb_neq in H2. exact H2.
    - cbn [xh_okb] in H. rewrite !andb_true_iff in H. destruct H as [[[H1 H2] H3] H4]. apply xh_ok_elem.
      split; [exact H1|]. split; [exact H2|]. split.
      + rewrite forallb_forall in H3. rewrite Forall_forall. intros kv Hk. apply plain_text_ok, H3, Hk.
      + unfold forest_ok. rewrite forallb_forall in H4. rewrite Forall_forall in *. intros y Hy. apply IH; auto. }
  intros H. rewrite forallb_forall in H. unfold forest_ok. rewrite Forall_forall. intros x Hx. apply X, H, Hx.
Qed.
(** computing what is read back *)
Definition reread {X Y} (r : root_tag) (unp : X -> result str) (parse : node -> result Y) (x : X) : option (str * Y) :=
  match unp x with
  | Ok s => match lxml_parse (root_text r ++ s ++ "</REQ-IF>") with
            | Some (None, root) => match children root with
                                   | [n] => match parse n with Ok y => Some (s, y) | _ => None end
                                   | _ => None end
            | _ => None end
  | _ => None end.
Lemma reread_ok {X Y} r (unp : X -> result str) (parse : node -> result Y) x s y :
  reread r unp parse x = Some (s, y) -> unp x = Ok s /\ exists n, stands_in r s n /\ parse n = Ok y.
Proof.
  unfold reread. destruct (unp x) as [s'|]; [|discriminate]. destruct (lxml_parse _) as [[[d|] root]|] eqn:E; try discriminate.
  destruct (children root) as [|n [|? ?]] eqn:EC; try discriminate. destruct (parse n) as [y'|] eqn:EP; [|discriminate].
  intros H. injection H as <- <-. split; [reflexivity|]. exists n. split; [exists root; auto|exact EP].
Qed.
(** [g] of the object read back, by computation *)
Lemma reread_shows {X Y Z} r (unp : X -> result str) (parse : node -> result Y) x (g : Y -> Z) z :
  option_map (fun r => g (snd r)) (reread r unp parse x) = Some z ->
  exists s n y, unp x = Ok s /\ stands_in r s n /\ parse n = Ok y /\ g y = z.
Proof.
  destruct (reread r unp parse x) as [[s y]|] eqn:E; [|discriminate]. cbn [option_map snd]. intros H. injection H as <-.
  apply reread_ok in E. destruct E as (E1 & n & E2 & E3). exists s, n, y. auto.
Qed.

(** ** C22: the header *)
Theorem C22_header_round_trip :
  forall h, printable_header h ->
    round_trip plain_root unparse_header parse_header (fun x => x) normal_header h.
Proof. intros h H. eapply rt_plain. intros p u. apply rt_header, H. Qed.
Print Assumptions C22_header_round_trip.
(** without empty texts it is read back equal *)
Theorem C22_header_equal :
  forall h, printable_header h ->
    (forall f, In f [hd_comment h; hd_creation_time h; hd_req_if_tool_id h; hd_req_if_version h;
                     hd_source_tool_id h; hd_title h] -> f <> Some []) ->
    exists s n, unparse_header h = Ok s /\ stands_in plain_root s n /\ parse_header n = Ok h.
Proof.
  intros h H HE. destruct (C22_header_round_trip h H) as (s & n & x & H1 & H2 & H3 & H4 & _).
  exists s, n. split; [exact H1|]. split; [exact H2|]. rewrite H3, H4. f_equal.
  assert (D : forall o, o <> Some [] -> drop_empty o = o) by (intros [[|c t]|]; cbn; congruence).
  unfold normal_header. rewrite !D by (apply HE; cbn; tauto). destruct h; reflexivity.
Qed.
Print Assumptions C22_header_equal.
Theorem C22_header_needs_identifier :
  forall h, hd_identifier h = None \/ hd_identifier h = Some [] <-> unparse_header h = Raise ENotImplementedError.
Proof.
  intros h. unfold unparse_header. destruct (hd_identifier h) as [[|c s]|]; split; intros H; auto; try discriminate.
  destruct H; discriminate.
Qed.
Print Assumptions C22_header_needs_identifier.
Definition ex_header : header :=
  Header (Some "id-1") (Some "first ""comment"" -> ]>") (Some "2020-01-01T00:00:00.000+02:00") RepoEmptyTag
    None (Some "1.0") (Some "tool's") (Some "A & B > ]]C").
Example ex_header_ok : printable_header ex_header.
Proof. unfold printable_header, ex_header. cbn. texts. intros r H; discriminate. Qed.
Example ex_header_written : exists s n, unparse_header ex_header = Ok s /\ stands_in plain_root s n /\ parse_header n = Ok ex_header.
Proof. apply C22_header_equal; [apply ex_header_ok|]. cbn. intros f H. intuition congruence. Qed.
(** Not so with markup characters: they are not escaped, and the result is not XML. *)
Definition ex_bad_header : header := Header (Some "id-1") (Some "a < b & c") None RepoNone None None None None.
Theorem C22_comment_not_escaped_refuted :
  exists h s, unparse_header h = Ok s /\ ~ exists n, stands_in plain_root s n.
Proof.
  exists ex_bad_header. eexists. split; [reflexivity|]. intros (n & root & H & _).
  match type of H with ?a = _ => assert (E : a = None) by (vm_compute; reflexivity) end. congruence.
Qed.
(** Nor with the end of a CDATA section, not even in the title, which is escaped. *)
Definition ex_section_header : header := Header (Some "id-1") None None RepoNone None None None (Some "a[b[0]]>c & d").
Theorem C22_title_section_end_refuted :
  exists h s, unparse_header h = Ok s /\ xml_text_without [13; 60]%N "a[b[0]]>c & d" /\ hd_title h = Some "a[b[0]]>c & d"
    /\ ~ exists n, stands_in plain_root s n.
Proof.
  exists ex_section_header. eexists. split; [reflexivity|]. split; [apply plain_text_ok; reflexivity|]. split; [reflexivity|]. intros (n & root & H & _).
  match type of H with ?a = _ => assert (E : a = None) by (vm_compute; reflexivity) end. congruence.
Qed.
Print Assumptions C22_title_section_end_refuted.
(** An empty repository id is written as a pair of tags, read as "empty tag",
    and written differently the next time. *)
Theorem C22_empty_repository_id_refuted :
  exists h s n h' s', unparse_header h = Ok s /\ stands_in plain_root s n /\ parse_header n = Ok h'
    /\ hd_repository_id h' <> hd_repository_id h /\ unparse_header h' = Ok s' /\ s' <> s.
Proof.
  set (h := Header (Some "i") None None (RepoStr []) None None None None). exists h.
  destruct (reread_shows plain_root unparse_header parse_header h (fun h' => h') (Header (Some "i") None None RepoEmptyTag None None None None))
    as (s & n & h' & H1 & H2 & H3 & H4); [vm_compute; reflexivity|]. subst h'.
  exists s, n. eexists. eexists. split; [exact H1|]. split; [exact H2|]. split; [exact H3|]. split; [discriminate|].
  split; [reflexivity|]. apply Ok_inj in H1. subst s. discriminate.
Qed.

(** ** C23: data types *)
Theorem C23_data_type_round_trip :
  forall d, printable_data_type d ->
    round_trip plain_root (fun d => Ok (unparse_data_type d)) parse_data_type (fun x => x) normal_data_type d.
Proof. intros d H. eapply rt_plain. intros p u. apply rt_data_type, H. Qed.
Print Assumptions C23_data_type_round_trip.
Definition ex_enum : data_type :=
  DTEnumeration (DTC "dt-1" (Some "a < ""b""") (Some "2021") (Some "T & U") false)
    (Some [EnumValue "ev-1" "0" None (Some "x") (Some "c") (Some "<one>"); EnumValue "ev-2" "1" None None None None]).
Example ex_enum_ok : printable_data_type ex_enum /\ normal_data_type ex_enum = ex_enum.
Proof. split; [|reflexivity]. unfold printable_data_type, printable_common, ex_enum. cbn. texts. Qed.
Definition ex_real : data_type := DTReal (DTC "dt-2" None None (Some "R") true) (Some (-12)%Z) (Some "1.5") (Some "-1.5").
Example ex_real_ok : printable_data_type ex_real /\ normal_data_type ex_real = ex_real.
Proof. split; [|reflexivity]. unfold printable_data_type, printable_common, ex_real. cbn. texts. Qed.
(** the long name of an INTEGER type is not escaped *)
Theorem C23_integer_long_name_not_escaped_refuted :
  exists d, ~ exists n, stands_in plain_root (unparse_data_type d) n.
Proof.
  exists (DTInteger (DTC "i" None None (Some "a < b") true) None None). intros (n & root & H & _).
  match type of H with ?a = _ => assert (E : a = None) by (vm_compute; reflexivity) end. congruence.
Qed.
(** a self-closed enumeration that has values is written as two elements, the
    second one being the values *)
Theorem C23_self_closed_enumeration_refuted :
  exists d, ~ exists n, stands_in plain_root (unparse_data_type d) n.
Proof.
  exists (DTEnumeration (DTC "i" None None None true) (Some [EnumValue "e" "0" None None None None])). intros (n & root & H & HC).
  match type of H with ?a = _ => assert (E : option_map (fun r => length (children (snd r))) a = Some 2) by (vm_compute; reflexivity) end.
  rewrite H in E. cbn [option_map snd] in E. rewrite HC in E. discriminate.
Qed.

(** ** C24: attribute definitions and spec types *)
Theorem C24_attribute_definition_round_trip :
  forall p u a, xhtml_ns p u -> printable_attr_def (xhtml_text p) a ->
    round_trip (xhtml_root p u) unparse_attribute_definition parse_attribute_definition
      erase_attr_def normal_attr_def a.
Proof. intros p u a HX H. eapply rt_xhtml; [exact HX|]. apply (rt_attr_def p u _ (xhtml_text p) lt_in (DX_here p u HX)), H. Qed.
Print Assumptions C24_attribute_definition_round_trip.
Theorem C24_spec_type_round_trip :
  forall p u t, xhtml_ns p u -> printable_spec_type (xhtml_text p) t ->
    round_trip_opt (xhtml_root p u) unparse_spec_type parse_spec_type erase_spec_type normal_spec_type t.
Proof.
  intros p u t HX H. apply round_trip_solid. eapply rt_xhtml; [exact HX|].
  apply (rt_spec_type p u _ (xhtml_text p) lt_in (DX_here p u HX)), H.
Qed.
Print Assumptions C24_spec_type_round_trip.
Example ex_ns : xhtml_ns "xhtml" "http://www.w3.org/1999/xhtml".
Proof.
  split; [|reflexivity]. assert (R : forall s, forallb (fun c => is_xml_char c && N.ltb c 128 && negb (existsb (N.eqb c) [9; 10; 13; 34; 38; 60; 62]%N)) s = true -> root_value s).
  { intros s H. unfold root_value. rewrite forallb_forall in H. rewrite Forall_forall. intros c Hc. specialize (H c Hc).
    rewrite !andb_true_iff, negb_true_iff in H. destruct H as [[H1 H2] H3]. split; [exact H1|]. split; [apply N.ltb_lt, H2|].
    intros HI. assert (existsb (N.eqb c) [9; 10; 13; 34; 38; 60; 62]%N = true) by (apply existsb_exists; exists c; split; [exact HI|apply N.eqb_refl]). congruence. }
  split; [discriminate|]. split; [discriminate|]. split; [split; [apply R; reflexivity|split; [apply UriProofs.uri_reference_spec; reflexivity|discriminate]]|]. split; [|split; discriminate].
  split; [reflexivity|]. repeat constructor.
Qed.
(** <xhtml:p class="x">a <xhtml:br/>&amp;</xhtml:p> *)
Definition ex_forest : list xh :=
  [XE "p" [("class", "x<")] [XT 97; XT 32; XE "br" [] []; XT 38]]%N.
Example ex_forest_ok : forest_ok ex_forest.
Proof. apply forest_okb. reflexivity. Qed.
Example ex_forest_text : show "xhtml" ex_forest = "<xhtml:p class=""x&lt;"">a <xhtml:br/>&amp;</xhtml:p>".
Proof. reflexivity. Qed.
Lemma ex_text : xhtml_text "xhtml" "<xhtml:p class=""x&lt;"">a <xhtml:br/>&amp;</xhtml:p>".
Proof. exists ex_forest. split; [apply ex_forest_ok|reflexivity]. Qed.
Definition ex_def_enum : attr_def :=
  AttrDef AT_ENUMERATION "ad-1" (Some "dt-1") None (Some "d") None (Some "Status") (Some true) (Some "ad-1") (DVStr "ev-1") (Some false).
Definition ex_def_xhtml : attr_def :=
  AttrDef AT_XHTML "ad-2" (Some "dt-3") None None (Some "2021") (Some "Text & more") None (Some "ad-2")
    (DVStr "<xhtml:p class=""x&lt;"">a <xhtml:br/>&amp;</xhtml:p>") None.
Definition ex_type : spec_type :=
  STObject (SpecObjectType "t-1" None (Some "2021") (Some "Req <1>") (Some [ex_def_enum; ex_def_xhtml])).
Example ex_type_ok : printable_spec_type (xhtml_text "xhtml") ex_type.
Proof.
  unfold printable_spec_type, ex_type, ex_def_enum, ex_def_xhtml. cbn. texts; try apply ex_text; intros H; try exact H; texts; congruence.
Qed.
(** a self-closed type with an empty list of definitions comes back without one *)
Definition ex_closed_type : spec_type := STRelation (SpecRelationType "t-2" None None (Some "Link") true (Some [])).
Example ex_closed_type_ok : printable_spec_type (xhtml_text "xhtml") ex_closed_type
  /\ normal_spec_type ex_closed_type = STRelation (SpecRelationType "t-2" None None (Some "Link") true None)
  /\ unparse_spec_type ex_closed_type = Ok ("        <SPEC-RELATION-TYPE IDENTIFIER=""t-2"" LONG-NAME=""Link""/>" ++ nl).
Proof.
  split; [|split; reflexivity]. unfold printable_spec_type, ex_closed_type. cbn. texts.
Qed.
(** MULTI-VALUED is only written for ENUMERATION *)
Theorem C24_multi_valued_dropped_refuted :
  exists a s n a', unparse_attribute_definition a = Ok s /\ stands_in plain_root s n
    /\ parse_attribute_definition n = Ok a' /\ ad_multi_valued a' <> ad_multi_valued a.
Proof.
  exists (AttrDef AT_STRING "i" (Some "d") None None None None None None DVNone (Some true)).
  destruct (reread_shows plain_root unparse_attribute_definition parse_attribute_definition
    (AttrDef AT_STRING "i" (Some "d") None None None None None None DVNone (Some true)) ad_multi_valued None)
    as (s & n & a & H1 & H2 & H3 & H4); [vm_compute; reflexivity|].
  exists s, n, a. split; [exact H1|]. split; [exact H2|]. split; [exact H3|]. rewrite H4. discriminate.
Qed.

(** ** C04: STRING attribute values *)
Definition string_value (ref v : str) : spec_attr := SpecAttr AT_STRING (Some ref) (VStr v) None None.
Lemma string_text ref v : exists pre rest, 
  (forall st d j, st <> [] -> exists d', run (Conf false st d (MText j)) pre = Conf false st d' (MVal "ATTRIBUTE-VALUE-STRING" [] "THE-VALUE" 34 []))
  /\ (forall w, value_template AT_STRING w (Some ref) = pre ++ w ++ """" ++ rest)
  /\ unparse_attribute_value (string_value ref v) = Ok (pre ++ html_escape v ++ """" ++ rest).
Proof.
  exists ("            <ATTRIBUTE-VALUE-STRING THE-VALUE=""").
  exists (">" ++ nl ++ "              <DEFINITION>" ++ nl ++ "                <ATTRIBUTE-DEFINITION-STRING-REF>" ++ ref
  ++ "</ATTRIBUTE-DEFINITION-STRING-REF>" ++ nl ++ "              </DEFINITION>" ++ nl ++ "            </ATTRIBUTE-VALUE-STRING>" ++ nl).
  split; [|split].
  - intros st d j H. destruct st as [|fr st]; [congruence|]. exists (rev (map XChar "            ") ++ d). vm_compute. reflexivity.
  - intros w. reflexivity.
  - reflexivity.
Qed.
(** Whatever the value, it is written and read back as if it were on one line. *)
Theorem C04_string_value_read_back :
  forall ref v, ref <> [] -> text_raw ref -> Forall (fun c => is_xml_char c = true) v ->
    exists s n a, unparse_attribute_value (string_value ref v) = Ok s /\ stands_in plain_root s n
      /\ parse_attribute_value n = Ok (Some a) /\ sa_value a = VStr (on_one_line false v)
      /\ sa_definition_ref a = Some ref /\ sa_type a = AT_STRING.
Proof.
  intros ref v H1 H2 H3. destruct (string_text ref v) as (pre & rest & HP & HT & HS).
  destruct (rt_value "xhtml" xhtml_uri (fun _ => True) (fun _ => False) (fun v => v) (fun _ => false) ltac:(intros ? []) (string_value ref (on_one_line false v)))
    as (f & F1 & F2 & F3 & F4).
  { split; [exists ref; auto|]. apply on_one_line_html, H3. }
  destruct (F4 [] I) as (n & a & A1 & A2 & A3 & _).
  exists (pre ++ html_escape v ++ """" ++ rest), n, a. split; [exact HS|].
  set (f' := Frag (pre ++ html_escape v ++ """" ++ rest) (f_x f) (f_n f) (f_use f)).
  assert (E : f_str f = pre ++ html_escape (on_one_line false v) ++ """" ++ rest).
  { rewrite <- HT. apply Ok_inj. rewrite <- F2. reflexivity. }
  assert (G : good "xhtml" xhtml_uri f').
  { destruct F1 as [G1 G2 G3]. split; [|exact G2|exact G3]. unfold f'. cbn [f_str f_x]. intros st d j HN.
    destruct (G1 st d j HN) as [j' EG]. exists j'. rewrite <- EG, E. rewrite !run_app. destruct (HP st d j HN) as (d' & ED). rewrite ED, <- !run_app.
    rewrite !html_escape_eq. apply run_one_line, H3. }
  split; [|split; [apply solid_ok, A2|]].
  - change (pre ++ html_escape v ++ """" ++ rest) with (f_str f').
    eapply frag_stands_in; [apply plain_root_ok|reflexivity| |exact G|exact A1]. unfold f'. cbn [f_use]. rewrite F3. discriminate.
  - apply (f_equal (fun a => (sa_value a, sa_definition_ref a, sa_type a))) in A3. cbn [erase_value normal_value sa_value sa_definition_ref sa_type string_value] in A3.
    injection A3 as E1 E2 E3. auto.
Qed.
Print Assumptions C04_string_value_read_back.
(** So exactly the values without tab, line feed and carriage return survive. *)
Theorem C04_string_value_survives :
  forall ref v, ref <> [] -> text_raw ref -> Forall (fun c => is_xml_char c = true) v ->
    (exists s n a, unparse_attribute_value (string_value ref v) = Ok s /\ stands_in plain_root s n
       /\ parse_attribute_value n = Ok (Some a) /\ sa_value a = VStr v)
    <-> (forall c, In c v -> ~ In c [9; 10; 13]%N).
Proof.
  intros ref v H1 H2 H3. destruct (C04_string_value_read_back ref v H1 H2 H3) as (s & n & a & A1 & A2 & A3 & A4 & _). split.
  - intros (s' & n' & a' & B1 & B2 & B3 & B4). rewrite A1 in B1. apply Ok_inj in B1. subst s'.
    destruct A2 as (r1 & E1 & E2), B2 as (r2 & E3 & E4). rewrite E1 in E3. injection E3 as <-. rewrite E2 in E4. injection E4 as <-.
    rewrite A3 in B3. injection B3 as <-. rewrite A4 in B4. injection B4 as B4. intros c Hc. rewrite <- B4 in Hc. apply (on_one_line_clean _ _ _ Hc).
  - intros H. exists s, n, a. rewrite (on_one_line_id v H) in A4. auto.
Qed.
Print Assumptions C04_string_value_survives.
Example C04_applies : Forall (fun c => is_xml_char c = true) "a < b & ""c"" 'd'" /\ forall c, In c "a < b & ""c"" 'd'" -> ~ In c [9; 10; 13]%N.
Proof.
  assert (H : xml_text_without [9; 10; 13]%N "a < b & ""c"" 'd'") by (apply plain_text_ok; reflexivity).
  unfold xml_text_without in H. rewrite Forall_forall in H. split; [rewrite Forall_forall|]; intros c Hc; apply (H c Hc).
Qed.
(** two lines become one *)
Theorem C04_line_feed_lost_refuted :
  exists ref v s n a, unparse_attribute_value (string_value ref v) = Ok s /\ stands_in plain_root s n
    /\ parse_attribute_value n = Ok (Some a) /\ sa_value a = VStr "one two" /\ sa_value (string_value ref v) <> VStr "one two".
Proof.
  exists "ad", ("one" ++ nl ++ "two"). destruct (C04_string_value_read_back "ad" ("one" ++ nl ++ "two")) as (s & n & a & A1 & A2 & A3 & A4 & _).
  - discriminate.
  - apply text_raw_ok. reflexivity.
  - repeat constructor.
  - exists s, n, a. split; [exact A1|]. split; [exact A2|]. split; [exact A3|]. split; [exact A4|discriminate].
Qed.

(** ** C25: attribute values and spec objects *)
Theorem C25_spec_object_round_trip :
  forall p u o, xhtml_ns p u -> printable_spec_object (xhtml_text p) o ->
    exists strip, strips p strip
      /\ round_trip (xhtml_root p u) unparse_spec_object parse_spec_object erase_spec_object (normal_spec_object strip) o.
Proof.
  intros p u o HX H. destruct (xhtml_ns_parts p u HX) as (H1 & H2 & H3). exists (strip_text p).
  split; [apply strip_text_strips; assumption|]. eapply rt_xhtml; [exact HX|].
  apply (rt_spec_object p u _ (xhtml_text p) (strip_text p) lt_in (VX_here p u HX)), H.
Qed.
Print Assumptions C25_spec_object_round_trip.
Theorem C25_attribute_value_round_trip :
  forall p u a, xhtml_ns p u -> printable_value (xhtml_text p) a ->
    exists strip, strips p strip
      /\ round_trip_opt (xhtml_root p u) unparse_attribute_value parse_attribute_value erase_value (normal_value strip) a.
Proof.
  intros p u a HX H. destruct (xhtml_ns_parts p u HX) as (H1 & H2 & H3). exists (strip_text p).
  split; [apply strip_text_strips; assumption|]. apply round_trip_solid. eapply rt_xhtml; [exact HX|].
  apply (rt_value p u _ (xhtml_text p) (strip_text p) lt_in (VX_here p u HX)), H.
Qed.
Print Assumptions C25_attribute_value_round_trip.
Definition ex_values : list spec_attr :=
  [SpecAttr AT_STRING (Some "ad-1") (VStr "a < ""b"" & 'c'") None None;
   SpecAttr AT_XHTML (Some "ad-2") (VStr "<xhtml:p class=""x&lt;"">a <xhtml:br/>&amp;</xhtml:p>") None None;
   SpecAttr AT_ENUMERATION (Some "ad-3") (VList [Some "ev-1"; Some "ev-2"]) None None;
   SpecAttr AT_BOOLEAN (Some "ad-4") (VStr "true") None None].
Definition ex_object : spec_object := SpecObject "so-1" ex_values (Some "t-1") (Some "d") None (Some "R-1") None.
Example ex_object_ok : printable_spec_object (xhtml_text "xhtml") ex_object.
Proof.
  unfold printable_spec_object, ex_object, ex_values, so_order, order_of. cbn. texts; try apply ex_text.
Qed.
(** a LONG-NAME with markup makes the output malformed *)
Theorem C25_long_name_not_escaped_refuted :
  exists o s, unparse_spec_object o = Ok s /\ ~ exists n, stands_in plain_root s n.
Proof.
  exists (SpecObject "i" [] (Some "t") None None (Some "Salt & pepper") None). eexists. split; [reflexivity|]. intros (n & root & H & _).
  match type of H with ?a = _ => assert (E : a = None) by (vm_compute; reflexivity) end. congruence.
Qed.

(** ** C26: spec relations *)
Theorem C26_spec_relation_round_trip :
  forall p u r, xhtml_ns p u -> printable_spec_relation (xhtml_text p) r ->
    exists strip, strips p strip
      /\ round_trip (xhtml_root p u) unparse_spec_relation parse_spec_relation erase_spec_relation (normal_spec_relation strip) r.
Proof.
  intros p u r HX H. destruct (xhtml_ns_parts p u HX) as (H1 & H2 & H3). exists (strip_text p).
  split; [apply strip_text_strips; assumption|]. eapply rt_xhtml; [exact HX|].
  apply (rt_spec_relation p u _ (xhtml_text p) (strip_text p) lt_in (VX_here p u HX)), H.
Qed.
Print Assumptions C26_spec_relation_round_trip.
Definition ex_relation : spec_relation :=
  SpecRelation "sr-1" (Some "rt-1") (Some "so-1") (Some "so-2") None None (Some "2021") (Some "x & y")
    (Some (SpecAttr AT_STRING (Some "ad-1") (VStr "v""") None None)).
Example ex_relation_ok : printable_spec_relation (xhtml_text "xhtml") ex_relation.
Proof.
  unfold printable_spec_relation, ex_relation, sr_order, order_of. cbn. texts. intros a E. injection E as <-. cbn. texts.
Qed.

(** ** C27: specifications with hierarchies of any depth *)
Theorem C27_specification_round_trip :
  forall p u s, xhtml_ns p u -> printable_specification (xhtml_text p) s ->
    exists strip, strips p strip
      /\ round_trip (xhtml_root p u) unparse_specification parse_specification erase_specification (normal_specification strip) s.
Proof.
  intros p u s HX H. destruct (xhtml_ns_parts p u HX) as (H1 & H2 & H3). exists (strip_text p).
  split; [apply strip_text_strips; assumption|]. eapply rt_xhtml; [exact HX|].
  apply (rt_specification p u _ (xhtml_text p) (strip_text p) lt_in (VX_here p u HX)), H.
Qed.
Print Assumptions C27_specification_round_trip.
(** a hierarchy alone, at any level *)
Theorem C27_hierarchy_round_trip :
  forall h k, leveled (S k) h -> printable_hier h ->
    round_trip plain_root unparse_hier (parse_hier (S k)) erase_hier normal_hier h.
Proof. intros h k HL HP. eapply rt_plain. intros p u. apply rt_hier; assumption. Qed.
Print Assumptions C27_hierarchy_round_trip.
Definition ex_hier : hier :=
  Hier "h-1" (Some "so-1") 1
    (Some [Hier "h-2" (Some "so-2") 2 (Some [Hier "h-3" (Some "so-3") 3 None (Some "L") false None (Some true) (Some false) false None]) None true (Some "2021") None None false None;
           Hier "h-4" (Some "so-4") 2 (Some []) None true None None None true None])
    None true None None None false None.
Example ex_hier_ok : leveled 1 ex_hier /\ printable_hier ex_hier /\ normal_hier ex_hier = ex_hier.
Proof. split; [|split; [|reflexivity]]. - cbn. texts. - cbn. texts. Qed.
Definition ex_specification : specification :=
  Specification "sp-1" (Some "d<") None (Some "S & T") (Some []) (Some "spt-1") (Some [ex_hier]) None.
Example ex_specification_ok : printable_specification (xhtml_text "xhtml") ex_specification.
Proof.
  unfold printable_specification, ex_specification, sp_order, order_of. cbn [sp_identifier sp_description sp_last_change sp_long_name sp_values sp_specification_type sp_children sp_xml_node].
  destruct ex_hier_ok as (H1 & H2 & _). cbn [each when]. texts; try assumption; intros _; texts.
Qed.

(** ** C28: relation groups *)
Theorem C28_relation_group_round_trip :
  forall g, printable_relation_group g ->
    round_trip plain_root (fun g => Ok (unparse_relation_group g)) parse_relation_group (fun x => x) normal_relation_group g.
Proof. intros g H. eapply rt_plain. intros p u. apply rt_relation_group, H. Qed.
Print Assumptions C28_relation_group_round_trip.
Definition ex_group : relation_group :=
  RelationGroup "rg-1" (Some "d") (Some "2021") (Some "G") (Some "rgt-1") (Some "sp-1") (Some "sp-2") (Some [Some "sr-1"; Some "sr-2"]) false.
Example ex_group_ok : printable_relation_group ex_group /\ normal_relation_group ex_group = ex_group.
Proof. split; [|reflexivity]. unfold printable_relation_group, ex_group. cbn. texts; intros _; texts. Qed.
