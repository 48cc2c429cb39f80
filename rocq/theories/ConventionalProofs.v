(** ConventionalProofs.v -- what is read from a conventional document can be
    written and read again *)
From Verif Require Import Base Xml Lxml Py LxmlStr Models Header Parser SpecEscape SpecTraversal SpecPrint SpecXhtml SpecDocument SpecParse SpecSettle SpecConventional
  DictProofs EscapeProofs XhtmlInverse RT_Xhtml Frag LayoutProofs CleanProofs.

(** ** XHTML *)
Lemma markup_ind' u (P : node -> xh -> Prop) :
  (forall c, P (Chr c) (XT c)) ->
  (forall q l i attrs kids f, ~ In (None, u) i -> Forall2 P kids f ->
     P (El (Some (q, u)) l [] i (map (fun kv => Attr None (fst kv) (snd kv)) attrs) kids) (XE l attrs f)) ->
  forall n x, markup u n x -> P n x.
Proof.
  intros HC HE. fix REC 3. intros n x H. destruct H as [c|q l i attrs kids f H1 H2]; [apply HC|].
  apply HE; [exact H1|]. clear -REC H2. induction H2 as [|k x kids f HK HF IH]; constructor; [apply REC, HK|exact IH].
Qed.
Definition shown (p : str) (n : node) (x : xh) : Prop :=
  match n, x with
  | Chr c, XT d => c = d
  | El _ _ _ _ _ _, XE _ _ _ => stringify_ns_node (Some p) false n = Ok (show_node (fun _ => false) (p ++ ":") x)
  | _, _ => False
  end.
Lemma shown_kids p kids f : Forall2 (shown p) kids f ->
  stringify_ns_kids (Some p) false kids = Ok (show p f).
Proof.
  unfold show, show_forest. induction 1 as [|k x kids f HK _ IH]; [reflexivity|]. unfold stringify_ns_kids in *.
  destruct k as [c|ns l d i a ks|s|s], x as [c'|nm at_ kf]; try contradiction; cbn [shown] in HK.
  - subst c'. cbn [flat_map]. rewrite IH. cbn [bind show_node]. rewrite lxml_escape_eq. reflexivity.
  - rewrite HK. cbn [bind]. rewrite IH. cbn [bind flat_map]. reflexivity.
Qed.
Lemma shown_markup p u n x : markup u n x -> shown p n x.
Proof.
  revert n x. apply markup_ind'; [reflexivity|]. intros q l i attrs kids f HI IH. cbn [shown].
  rewrite stringify_ns_el, extend_nil, own_ns_false by exact HI. cbv zeta. cbn [orb fmt].
  rewrite print_attrs_x. cbn [show_node]. rewrite (shown_kids _ _ _ IH).
  cbn [bind]. unfold needs_close. rewrite clark_not_object. destruct IH as [|k x kids f HK IH]; rewrite <- !app_assoc; reflexivity.
Qed.
Lemma markup_stored p u kids f : Forall2 (markup u) kids f -> stringify_ns_kids (Some p) false kids = Ok (show p f).
Proof. intros H. apply shown_kids. induction H as [|k x kids f HK _ IH]; constructor; [apply (shown_markup p u), HK|exact IH]. Qed.
Lemma markup_text u kids f : Forall2 (markup u) kids f -> has_markup f = false -> kids = map Chr (leading f).
Proof.
  induction 1 as [|k x kids f HK _ IH]; [reflexivity|]. intros HM. destruct HK as [c|]; [|discriminate]. cbn. rewrite <- IH by exact HM. reflexivity.
Qed.
Lemma chars_stored k p s : stringify_ns_kids k false (map Chr s) = Ok (show p (map XT s)).
Proof.
  unfold show, show_forest, stringify_ns_kids. induction s as [|c s IH]; [reflexivity|]. cbn [map flat_map show_node]. rewrite IH. cbn [bind]. rewrite lxml_escape_eq. reflexivity.
Qed.
Lemma chars_lead s : lead (map Chr s) = s.
Proof. induction s as [|c s IH]; [reflexivity|]. cbn. rewrite IH. reflexivity. Qed.
Lemma chars_tails s : tails (map Chr s) = [].
Proof. induction s as [|c s IH]; [reflexivity|]. exact IH. Qed.
Lemma text_forest f : has_markup f = false -> f = map XT (leading f).
Proof. induction f as [|x f IH]; [reflexivity|]. destruct x as [c|]; [|discriminate]. intros H. cbn. rewrite <- IH by exact H. reflexivity. Qed.
Lemma markup_children u kids f : Forall2 (markup u) kids f -> has_markup f = true <-> filter (fun k => negb (is_chr k)) kids <> [].
Proof.
  induction 1 as [|k x kids f HK _ IH]; [split; [discriminate|intros H; exfalso; apply H; reflexivity]|].
  destruct HK as [c|]; [exact IH|]. cbn. split; [discriminate|reflexivity].
Qed.

Section Conventional.
Variables (r : root_tag) (p u : str) (root : node).
Hypothesis C : conventional r p u root.
(** the text stored for a value *)
Lemma value_text tv v : value_fits r p u root tv -> stored_text tv v ->
  exists f, forest_ok f /\ v = show p f /\ (has_markup f = true <-> children tv <> [])
    /\ (has_markup f = true -> hd_error (visible r p true) = Some (Some p, u))
    /\ (has_markup f = false -> stays_visible r p root \/ substitute lxml_table (leading f) = leading f).
Proof.
  intros (f & F1 & F2 & F3 & F4) HS. exists f. split; [exact F1|].
  assert (HC := markup_children _ _ _ F2). 
  split; [|split; [exact HC|split; [intros HM; apply F3, HM|intros HM; destruct (F4 HM) as [G|G]; [left; apply G|right; exact G]]]].
  unfold stored_text in HS. destruct (has_markup f) eqn:HM.
  - destruct (F3 eq_refl) as [G _]. unfold stringify_namespaced_children in HS. destruct (node_nsmap tv) as [|[k w] m]; [discriminate|].
    injection G as -> ->. rewrite (markup_stored p u _ _ F2) in HS. congruence.
  - assert (EK := markup_text _ _ _ F2 HM). assert (EF := text_forest _ HM). destruct (node_nsmap tv) as [|[k w] m] eqn:EN.
    + destruct (F4 eq_refl) as [[G _]|G]; [congruence|]. unfold stringify_children in HS. rewrite EK, chars_tails, chars_lead in HS. cbn [mapM bind concat] in HS.
      rewrite app_nil_r in HS. rewrite (text_show p f HM), G. congruence.
    + unfold stringify_namespaced_children in HS. rewrite EN, EK, (chars_stored k p) in HS. rewrite <- EF in HS. congruence.
Qed.

(** ** Places *)
Lemma tag_found t n k : find_child t n = Some k -> tag k = Some t /\ In k (children n).
Proof.
  rewrite find_children. unfold find_list. intros H. apply find_some in H. destruct H as [H1 H2]. split; [|exact H1].
  unfold tag_is in H2. destruct (tag k) as [x|]; [|discriminate]. apply str_eqb_eq in H2. congruence.
Qed.
Definition deep (t own : str) : bool :=
  negb (str_eqb t "ATTRIBUTE-VALUE-XHTML" && str_eqb own "THE-VALUE") && negb (str_eqb t "REQ-IF" && str_eqb own "TOOL-EXTENSIONS").
Definition here (n : node) : Prop := exists t own, placed root t n /\ tag n = Some own /\ deep t own = true.
Lemma deep_not t n own : deep t own = true -> tag n = Some own -> ~ xhtml_place t n /\ ~ tool_place t n.
Proof.
  intros H HT. unfold xhtml_place, tool_place. rewrite HT. split; intros [-> E]; injection E as ->; discriminate.
Qed.
Lemma placed_in n k : here n -> In k (children n) -> exists t, tag n = Some t /\ placed root t k.
Proof.
  intros (t0 & own & H1 & H2 & H3) HI. exists own. split; [exact H2|]. destruct (deep_not _ _ _ H3 H2) as [A B]. eapply placed_below; eassumption.
Qed.
Lemma child_placed n t k : here n -> tag n = Some t -> In k (children n) -> placed root t k.
Proof. intros H HT HI. destruct (placed_in _ _ H HI) as (t' & E & K). congruence. Qed.
Lemma found_placed n t t' k : here n -> tag n = Some t -> find_child t' n = Some k -> placed root t k /\ tag k = Some t'.
Proof. intros H HT HF. destruct (tag_found _ _ _ HF). split; [eapply child_placed; eassumption|assumption]. Qed.
(** below a tag of a section, everything is followed; and so is every tag but two *)
Definition inner (t : str) : bool := negb (str_mem t ["THE-VALUE"; "TOOL-EXTENSIONS"]).
Lemma deep_inner t own : inner own = true -> deep t own = true.
Proof.
  unfold inner, deep. cbn [str_mem existsb]. intros H. unfold str_mem in H. cbn [existsb] in H. rewrite orb_false_r in H. apply negb_true_iff, orb_false_iff in H.
  destruct H as [H1 H2]. rewrite H1, H2, !andb_false_r. reflexivity.
Qed.
Definition outer (t : str) : bool := negb (str_mem t ["ATTRIBUTE-VALUE-XHTML"; "REQ-IF"]).
Lemma deep_outer t own : outer t = true -> deep t own = true.
Proof.
  unfold outer, deep. intros H. unfold str_mem in H. cbn [existsb] in H. rewrite orb_false_r in H. apply negb_true_iff, orb_false_iff in H.
  destruct H as [H1 H2]. rewrite H1, H2. reflexivity.
Qed.
Lemma found_here n t' k : here n -> find_child t' n = Some k -> inner t' = true -> here k.
Proof.
  intros H HF HD. assert (H0 := H). destruct H0 as (t0 & own & H1 & H2 & H3). destruct (found_placed n own t' k H H2 HF) as [K1 K2].
  exists own, t'. split; [exact K1|]. split; [exact K2|apply deep_inner, HD].
Qed.
Lemma path_here path : forall n k, here n -> forallb inner path = true -> path_node path n = Some k -> here k.
Proof.
  induction path as [|t path IH]; intros n k H HD HP; cbn [path_node] in HP; [injection HP as <-; exact H|].
  cbn [forallb] in HD. apply andb_prop in HD. destruct HD as [D1 D2]. destruct (find_child t n) as [x|] eqn:E; [|discriminate].
  apply (IH x k); [eapply found_here; eassumption|exact D2|exact HP].
Qed.
Lemma item_here t n own : placed root t n -> tag n = Some own -> outer t = true -> here n.
Proof. intros HP HT HO. exists t, own. split; [exact HP|]. split; [exact HT|apply deep_outer, HO]. Qed.
Lemma attr_tag k n v : attr_opt k n = Some v -> exists own, tag n = Some own.
Proof. destruct n; try discriminate. intros _. eexists. reflexivity. Qed.
Lemma section_placed t n ks k : here n -> section_items t n = Some ks -> inner t = true -> In k ks -> placed root t k.
Proof.
  intros H HS HI HK. unfold section_items in HS. destruct (find_child t n) as [x|] eqn:E; [|discriminate]. injection HS as <-.
  apply (child_placed x); [eapply found_here; eassumption|apply (tag_found _ _ _ E)|exact HK].
Qed.

(** ** Texts in their places *)
Lemma weaker a b s : (forall c, In c a -> In c b) -> xml_text_without b s -> xml_text_without a s.
Proof. intros H. unfold xml_text_without. apply Forall_impl. intros c [H1 H2]. split; [exact H1|intros HI; apply H2, H, HI]. Qed.
Lemma raw_html s : attr_raw s -> attr_html s.
Proof. apply weaker. intros c HC. cbn in *. tauto. Qed.
Lemma html_escaped s : attr_html s -> attr_escaped s.
Proof. apply weaker. intros c HC. cbn in *. tauto. Qed.
Lemma raw_title s : text_raw s -> text_title s.
Proof. intros [H1 H2]. split; [|exact H2]. revert H1. apply weaker. intros c HC. cbn in *. tauto. Qed.
Definition ordinary (t own k : str) : Prop := ~ escaped_lxml t own k /\ ~ escaped_html t own k.
Lemma attr_place t n own k v : placed root t n -> tag n = Some own -> attr_opt k n = Some v -> attribute_fits t own k v.
Proof. intros. eapply (cv_attributes _ _ _ _ C); eassumption. Qed.
Lemma when_raw t n own k : placed root t n -> tag n = Some own -> ordinary t own k -> when attr_raw (attr_opt k n).
Proof. intros HP HT [N1 N2]. destruct (attr_opt k n) as [v|] eqn:E; [|exact I]. destruct (attr_place _ _ _ _ _ HP HT E) as [H|[[H _]|[H _]]]; [exact H|contradiction|contradiction]. Qed.
Lemma when_html t n own k : placed root t n -> tag n = Some own -> ~ escaped_lxml t own k -> when attr_html (attr_opt k n).
Proof. intros HP HT N1. destruct (attr_opt k n) as [v|] eqn:E; [|exact I]. destruct (attr_place _ _ _ _ _ HP HT E) as [H|[[H _]|[_ H]]]; [apply raw_html, H|contradiction|exact H]. Qed.
Lemma when_escaped t n own k : placed root t n -> tag n = Some own -> when attr_escaped (attr_opt k n).
Proof. intros HP HT. destruct (attr_opt k n) as [v|] eqn:E; [|exact I]. destruct (attr_place _ _ _ _ _ HP HT E) as [H|[[_ H]|[_ H]]]; [apply html_escaped, raw_html, H|exact H|apply html_escaped, H]. Qed.
Lemma ordinary_key t own k : ~ In k ["DESC"; "LONG-NAME"; "THE-VALUE"] -> ordinary t own k.
Proof.
  intros N. split.
  - intros [[_ ->]|[(_ & -> & _)|[(_ & ->)|[(_ & _ & H)|[(_ & H)|(_ & H)]]]]]; apply N; cbn in *; tauto.
  - intros [(_ & _ & ->)|[(_ & ->)|(_ & _ & ->)]]; apply N; cbn; tauto.
Qed.
Lemma ordinary_parent t own k :
  ~ In t ["DATATYPES"; "SPECIFIED-VALUES"; "SPEC-TYPES"; "SPEC-ATTRIBUTES"; "SPECIFICATIONS"; "SPEC-RELATIONS"; "VALUES"] -> ordinary t own k.
Proof.
  intros N. split.
  - intros [[-> _]|[(-> & _)|[(-> & _)|[(-> & _)|[(-> & _)|(-> & _)]]]]]; apply N; cbn; tauto.
  - intros [(-> & _)|[(-> & _)|(-> & _)]]; apply N; cbn; tauto.
Qed.
Lemma text_place t n : placed root t n -> text_counts t n -> t <> "REQ-IF-HEADER" -> plain_ref (text n).
Proof.
  intros HP HC HT. destruct (text n) as [v|] eqn:E; [|exact I]. destruct (cv_texts _ _ _ _ C _ _ _ HP HC E) as [N [H|[H _]]]; [split; assumption|contradiction].
Qed.
Lemma text_elem_counts t n own : tag n = Some own -> own <> "THE-VALUE" -> text_counts t n.
Proof. intros HT HN. split; [intros [_ H]; congruence|]. destruct n; discriminate. Qed.
(** the text at the end of a path whose last tag and its parent are known *)
Lemma ref_at a b n : here n -> inner a = true -> inner b = true -> a <> "REQ-IF-HEADER" -> plain_ref (path_text [a; b] n).
Proof.
  intros H DA DB NA. unfold path_text. cbn [path_node]. destruct (find_child a n) as [x|] eqn:E1; [|exact I]. destruct (find_child b x) as [k|] eqn:E2; [|exact I].
  destruct (found_placed x a b k) as [K1 K2]; [eapply found_here; eassumption|apply (tag_found _ _ _ E1)|exact E2|].
  apply (text_place a); [exact K1|eapply text_elem_counts; [exact K2|]|exact NA]. intros ->. discriminate.
Qed.
Lemma ref_text o : plain_ref o -> when text_raw o.
Proof. destruct o; [intros [_ H]; exact H|exact id]. Qed.

(** ** Objects *)
(** the texts of XHTML values and defaults *)
Definition read_value (v : str) : Prop :=
  exists f, forest_ok f /\ v = show p f
    /\ (has_markup f = true -> hd_error (visible r p true) = Some (Some p, u))
    /\ (has_markup f = false -> stays_visible r p root \/ substitute lxml_table (leading f) = leading f).
Definition read_default (v : str) : Prop :=
  read_value v /\ (lt_in v = true \/ stays_visible r p root).
Lemma value_read tv v : placed root "ATTRIBUTE-VALUE-XHTML" tv -> tag tv = Some "THE-VALUE" -> stored_text tv v ->
  read_value v /\ (children tv <> [] -> lt_in v = true).
Proof.
  intros HP HT HS. destruct (value_text tv v) as (f & F1 & F2 & F3 & F4 & F5); [|exact HS|].
  - apply (cv_values _ _ _ _ C _ _ HP). split; [reflexivity|exact HT].
  - split; [exists f; auto|]. intros HC. subst v. unfold lt_in. rewrite show_markup. apply F3, HC.
Qed.
Ltac absent := let H := fresh in intros H; cbn in H; repeat destruct H as [H|H]; try discriminate H; try contradiction.
Ltac refute := repeat match goal with
  | H : _ \/ _ |- _ => destruct H as [H|H]
  | H : _ /\ _ |- _ => let H' := fresh in destruct H as [H H']
  | H : ?a = ?b |- _ => first [discriminate H|clear H]
  end.
Ltac unescaped := let H := fresh in intros H; unfold escaped_lxml, escaped_html in H; cbn [In] in H; refute; try contradiction.
Ltac ordinary_ := first [solve [apply ordinary_key; absent]|solve [apply ordinary_parent; absent]|solve [split; unescaped]].
Lemma some_when (P : str -> Prop) o i : o = Some i -> when P o -> P i.
Proof. intros ->. exact id. Qed.
Ltac raw HP HT := eapply when_raw; [exact HP|exact HT|ordinary_].
Lemma enum_value_read n v : placed root "SPECIFIED-VALUES" n -> enum_value_of n v -> printable_enum_value v.
Proof.
  unfold printable_enum_value. intros HP ((H1 & <- & <- & <-) & e & H2 & H3 & <-). destruct (attr_tag _ _ _ H1) as (own & HT).
  assert (HE : exists t o, placed root t e /\ tag e = Some o /\ t = "PROPERTIES").
  { pose proof (item_here _ _ _ HP HT eq_refl) as HH. cbn [path_node] in H2. destruct (find_child "PROPERTIES" n) as [x|] eqn:E1; [|discriminate].
    destruct (find_child "EMBEDDED-VALUE" x) as [y|] eqn:E2; [|discriminate]. injection H2 as <-.
    destruct (found_placed x "PROPERTIES" "EMBEDDED-VALUE" y) as [K1 K2]; [apply (found_here _ _ _ HH E1 eq_refl)|apply (tag_found _ _ _ E1)|exact E2|]. eauto 6. }
  destruct HE as (t & o & E1 & E2 & ->).
  split; [apply (some_when _ _ _ H1); raw HP HT|]. split; [apply (some_when _ _ _ H3); raw E1 E2|].
  split; [raw HP HT|].
  split; [raw HP HT|]. split; [raw E1 E2|eapply when_escaped; eassumption].
Qed.
Lemma images_read {A} t (R : node -> A -> Prop) (Q : A -> Prop) n o : here n -> inner t = true ->
  (forall k x, placed root t k -> R k x -> Q x) -> images t R n o -> each Q o.
Proof.
  intros HH HI HQ H. unfold images in H. destruct (section_items t n) as [ks|] eqn:E, o as [l|]; try contradiction; [|exact I].
  assert (HP : forall k, In k ks -> placed root t k) by (intros k HK; eapply section_placed; eassumption). clear E HH.
  cbn [each]. induction H as [|k x ks l HR _ IH]; constructor; [apply (HQ k); [apply HP; left; reflexivity|exact HR]|apply IH; intros y HY; apply HP; right; exact HY].
Qed.
Lemma list_read {A} t (R : node -> A -> Prop) (Q : A -> Prop) ks l :
  (forall k, In k ks -> placed root t k) -> (forall k x, placed root t k -> R k x -> Q x) -> Forall2 R ks l -> Forall Q l.
Proof.
  intros HP HQ H. induction H as [|k x ks l HR _ IH]; constructor; [apply (HQ k); [apply HP; left; reflexivity|exact HR]|apply IH; intros y HY; apply HP; right; exact HY].
Qed.
Lemma data_type_read n d : placed root "DATATYPES" n -> data_type_of n d -> plain_data_type d.
Proof.
  intros HP ((H1 & H2 & H3 & H4) & H5). destruct (attr_tag _ _ _ H1) as (own & HT).
  assert (HC : attr_raw (dt_identifier (dt_c d)) /\ when attr_escaped (dt_description (dt_c d)) /\ when attr_raw (dt_last_change (dt_c d)) /\ when attr_escaped (dt_long_name (dt_c d))).
  { rewrite <- H2, <- H3, <- H4. split; [apply (some_when _ _ _ H1); raw HP HT|]. split; [eapply when_escaped; eassumption|]. split; [raw HP HT|eapply when_escaped; eassumption]. }
  assert (HL : tag n = Some "DATATYPE-DEFINITION-INTEGER" \/ tag n = Some "DATATYPE-DEFINITION-REAL" \/ tag n = Some "DATATYPE-DEFINITION-DATE" ->
               when attr_raw (dt_long_name (dt_c d))).
  { rewrite <- H4. intros [HL|[HL|HL]]; raw HP HL. }
  destruct HC as (C1 & C2 & C3 & C4). destruct d as [c m|c|c mx mn|c a mx mn|c vs|c|c]; cbn [dt_c] in *; unfold plain_data_type, printable_common.
  - destruct H5 as [_ <-]. repeat split; try assumption. raw HP HT.
  - repeat split; assumption.
  - destruct H5 as (E & <- & <-). split; [repeat (split; [assumption|]); apply HL; tauto|]. split; raw HP HT.
  - destruct H5 as (E & <- & <- & _). split; [repeat (split; [assumption|]); apply HL; tauto|]. split; raw HP HT.
  - destruct H5 as (E & H5). split; [auto|]. apply (images_read "SPECIFIED-VALUES" _ _ _ _ (item_here _ _ _ HP HT eq_refl) eq_refl enum_value_read H5).
  - repeat split; assumption.
  - repeat (split; [assumption|]). apply HL; tauto.
Qed.
Lemma attr_def_read n a : placed root "SPEC-ATTRIBUTES" n -> attr_def_of n a -> plain_attr_def read_default a.
Proof.
  unfold plain_attr_def. intros HP (HT & (H1 & <- & <- & <-) & _ & <- & H5 & _). pose proof (item_here _ _ _ HP HT eq_refl) as HH.
  split; [apply (some_when _ _ _ H1); raw HP HT|]. split; [apply ref_at; [exact HH|reflexivity|destruct (ad_type a); reflexivity|discriminate]|].
  split; [eapply when_escaped; eassumption|]. split; [raw HP HT|]. split; [eapply when_escaped; eassumption|].
  unfold default_of in H5. destruct (find_child "DEFAULT-VALUE" n) as [d|] eqn:ED.
  2: { destruct H5 as [-> ->]. split; [exact I|discriminate]. }
  destruct (found_placed n _ _ d HH HT ED) as [PD TD]. pose proof (found_here _ _ _ HH ED eq_refl) as HD.
  destruct H5 as [(_ & -> & -> & _)|(v & HV & H4 & H5)]; [split; [exact I|discriminate]|].
  destruct (found_placed d _ _ v HD TD HV) as [PV TV]. assert (HHV : here v) by (apply (item_here _ _ _ PV TV eq_refl)).
  split.
  - rewrite H5. destruct (ad_type a); try exact I; apply ref_at; first [exact HHV|reflexivity|discriminate].
  - intros w EW. assert (G : forall s, attr_opt "THE-VALUE" v = Some s /\ ad_default_value a = DVStr s -> attr_raw w).
    { intros s [G1 G2]. assert (s = w) by congruence. subst s. apply (some_when _ _ _ G1). raw PV TV. }
    destruct (ad_type a) eqn:EA; try (destruct H4 as (s & H4); apply (G s H4)).
    + rewrite EW in H4. pose proof (ref_at "VALUES" "ENUM-VALUE-REF" v HHV eq_refl eq_refl ltac:(discriminate)) as P.
      destruct (path_text ["VALUES"; "ENUM-VALUE-REF"] v) as [s|]; [|discriminate]. assert (s = w) by congruence. subst s. exact P.
    + destruct H4 as (s & tv & E & HF & _ & HS). assert (s = w) by congruence. subst s.
      destruct (found_placed v _ _ tv HHV TV HF) as [PT TT]. destruct (value_read tv w PT TT HS) as [R1 R2]. split; [exact R1|].
      destruct (cv_defaults _ _ _ _ C _ d tv PD TD) as [K|K]; [|left; apply R2, K|right; exact K].
      cbn [path_node]. change ("ATTRIBUTE-VALUE-" ++ at_name AT_XHTML) with ("ATTRIBUTE-VALUE-XHTML" : str) in HV. rewrite HV, HF. reflexivity.
Qed.
Lemma spec_type_read n t : placed root "SPEC-TYPES" n -> spec_type_of n t -> plain_spec_type read_default t.
Proof.
  intros HP H.
  assert (HI : forall o, here n -> images "SPEC-ATTRIBUTES" attr_def_of n o -> Forall (plain_attr_def read_default) (items o)).
  { intros o HH HI. pose proof (images_read "SPEC-ATTRIBUTES" _ _ _ _ HH eq_refl attr_def_read HI) as E. destruct o; [exact E|constructor]. }
  destruct t as [t|t|t|t]; destruct H as (HT & (H1 & H2 & H3 & H4) & H5); pose proof (item_here _ _ _ HP HT eq_refl) as HH; (split; [apply HI; assumption|]);
    rewrite <- H2, <- H3, <- H4; (split; [apply (some_when _ _ _ H1); raw HP HT|]).
  - split; [eapply when_escaped; eassumption|]. split; [raw HP HT|eapply when_escaped; eassumption].
  - split; [eapply when_html; [exact HP|exact HT|unescaped]|]. split; raw HP HT.
  - split; [raw HP HT|]. split; raw HP HT.
  - split; [eapply when_html; [exact HP|exact HT|unescaped]|]. split; raw HP HT.
Qed.
Lemma grandchild_read n own o : here n -> tag n = Some own -> In (Some own) [Some "ATTRIBUTE-VALUE-STRING"; Some "ATTRIBUTE-VALUE-INTEGER"] ->
  (exists d x more more', children n = d :: more /\ children d = x :: more' /\ text x = o) -> plain_ref o.
Proof.
  intros HH HT HO (d & x & m & m' & H1 & H2 & <-). assert (TD : tag d = Some "DEFINITION").
  { destruct HH as (t & ? & HP & _). rewrite <- HT in HO. apply (cv_definitions _ _ _ _ C t n d m HP HO H1). }
  assert (PD : placed root own d) by (apply (child_placed n); [exact HH|exact HT|rewrite H1; left; reflexivity]).
  assert (PX : placed root "DEFINITION" x).
  { apply (child_placed d); [|exact TD|rewrite H2; left; reflexivity]. exists own, "DEFINITION". split; [exact PD|]. split; [exact TD|]. apply deep_inner. reflexivity. }
  apply (text_place "DEFINITION"); [exact PX| |discriminate]. split; [intros [K _]; discriminate|]. intros _. cbn. tauto.
Qed.
Lemma attr_value_read n a : placed root "VALUES" n -> attr_value_of n a -> plain_value read_value a.
Proof.
  intros HP (HT & H1 & H2). pose proof (item_here _ _ _ HP HT eq_refl) as HH. split.
  - destruct (sa_type a) eqn:ET; try (rewrite <- H1; apply ref_at; first [exact HH|reflexivity|discriminate]).
    apply (grandchild_read n _ _ HH HT); [left; reflexivity|exact H1].
  - assert (G : (sa_type a <> AT_STRING) -> forall v, attr_opt "THE-VALUE" n = Some v /\ sa_value a = VStr v -> attr_raw v).
    { intros NS v [G1 _]. apply (some_when _ _ _ G1). destruct (sa_type a); try contradiction; raw HP HT. }
    destruct (sa_type a) eqn:ET.
    + destruct H2 as (v & G1 & ->). apply (some_when _ _ _ G1). eapply when_html; [exact HP|exact HT|unescaped].
    + destruct H2 as (vs & HV & ->). destruct (found_placed n _ _ vs HH HT HV) as [PV TV]. pose proof (found_here _ _ _ HH HV eq_refl) as HHV.
      apply Forall_forall. intros o HO. apply in_map_iff in HO. destruct HO as (k & <- & HK). pose proof (child_placed vs _ k HHV TV HK) as PK.
      apply (text_place "VALUES"); [exact PK| |discriminate]. split; [intros [K _]; discriminate|]. intros _. cbn. tauto.
    + destruct H2 as (v & H2). rewrite (proj2 H2). apply (G ltac:(discriminate) v H2).
    + destruct H2 as (v & H2). rewrite (proj2 H2). apply (G ltac:(discriminate) v H2).
    + destruct H2 as (v & H2). rewrite (proj2 H2). apply (G ltac:(discriminate) v H2).
    + destruct H2 as (v & H2). rewrite (proj2 H2). apply (G ltac:(discriminate) v H2).
    + destruct H2 as (v & tv & -> & HF & HS). destruct (found_placed n _ _ tv HH HT HF) as [PT TT]. apply (value_read tv v PT TT HS).
Qed.
Lemma in_no_comments k ks : In k (no_comments ks) -> In k ks.
Proof. intros H. apply filter_In in H. apply H. Qed.
Lemma spec_object_read n o : placed root "SPEC-OBJECTS" n -> spec_object_of n o -> plain_spec_object read_value o.
Proof.
  unfold plain_spec_object. intros HP ((H1 & <- & <- & <-) & <- & H3). destruct (attr_tag _ _ _ H1) as (own & HT). pose proof (item_here _ _ _ HP HT eq_refl) as HH.
  split; [apply (some_when _ _ _ H1); raw HP HT|]. split; [apply ref_at; first [exact HH|reflexivity|discriminate]|].
  split; [raw HP HT|]. split; [raw HP HT|]. split; [raw HP HT|].
  destruct (section_items "VALUES" n) as [ks|] eqn:E; [|rewrite H3; constructor].
  eapply list_read; [|exact attr_value_read|exact H3]. intros k HK. apply in_no_comments in HK. eapply section_placed; [exact HH|exact E|reflexivity|exact HK].
Qed.
Lemma relation_value_read n a : placed root "VALUES" n -> relation_value_of n a -> plain_value read_value a.
Proof.
  intros HP (HT & H1). pose proof (item_here _ _ _ HP HT eq_refl) as HH. destruct (sa_type a) eqn:ET; try contradiction.
  - destruct H1 as (H1 & v & H2 & H3). split; [apply (grandchild_read n _ _ HH HT); [left; reflexivity|exact H1]|]. rewrite H3, ET.
    apply (some_when _ _ _ H2). eapply when_html; [exact HP|exact HT|unescaped].
  - destruct H1 as (H1 & v & H2 & H3). split; [apply (grandchild_read n _ _ HH HT); [right; left; reflexivity|exact H1]|]. rewrite H3, ET.
    apply (some_when _ _ _ H2). raw HP HT.
  - apply (attr_value_read n a HP H1).
Qed.
Lemma spec_relation_read n x : placed root "SPEC-RELATIONS" n -> spec_relation_of n x -> plain_spec_relation read_value x.
Proof.
  unfold plain_spec_relation. intros HP (HT & (H1 & <- & <- & <-) & <- & <- & <- & H5). pose proof (item_here _ _ _ HP HT eq_refl) as HH.
  split; [apply (some_when _ _ _ H1); raw HP HT|]. do 3 (split; [apply ref_at; first [exact HH|reflexivity|discriminate]|]).
  split; [raw HP HT|]. split; [raw HP HT|]. split; [eapply when_html; [exact HP|exact HT|unescaped]|].
  intros a EA. rewrite EA in H5. unfold relation_values_of in H5. destruct (section_items "VALUES" n) as [[|v ks]|] eqn:E; try contradiction.
  apply (relation_value_read v); [|exact H5]. eapply section_placed; [exact HH|exact E|reflexivity|left; reflexivity].
Qed.
Lemma hier_read : forall h level n, placed root "CHILDREN" n -> hier_of level n h -> plain_hier h.
Proof.
  fix REC 1. intros h level n HP H. inversion H as [? ? ? HT H1 H2 H3 _ _ H4 _ H5 H6]; subst. pose proof (item_here _ _ _ HP HT eq_refl) as HH.
  assert (HS : attr_raw (h_identifier h) /\ plain_ref (h_spec_object h) /\ when attr_raw (h_long_name h) /\ when attr_raw (h_last_change h)).
  { rewrite <- H2, <- H3, <- H4. split; [apply (some_when _ _ _ H1); raw HP HT|]. split; [apply ref_at; first [exact HH|reflexivity|discriminate]|]. split; raw HP HT. }
  assert (HK : forall k, In k (h_kids h) -> plain_hier k).
  { destruct h as [id obj lv ch ln ord lc ed tb sc x]. cbn [h_children h_kids] in *. clear H HS. destruct ch as [l0|]; [|intros k []].
    destruct (section_items "CHILDREN" n) as [ks|] eqn:EK; [|exfalso; discriminate (proj1 H5 eq_refl)].
    specialize (H6 ks l0 eq_refl eq_refl).
    assert (PK : forall k, In k ks -> placed root "CHILDREN" k) by (intros k IK; eapply section_placed; [exact HH|exact EK|reflexivity|exact IK]).
    clear -REC H6 PK C. revert ks H6 PK. induction l0 as [|y l0 IH]; intros ks H6 PK k IK; [destruct IK|]. inversion H6 as [|k0 ? ks' ? K1 K2]; subst.
    destruct IK as [<-|IK]; [apply (REC y (S level) k0); [apply PK; left; reflexivity|exact K1]|apply (IH ks'); [exact K2|intros z HZ; apply PK; right; exact HZ|exact IK]]. }
  intros y HY. inversion HY as [|? k ? IK WK]; subst; [exact HS|apply (HK k IK y WK)].
Qed.
Lemma specification_read n s : placed root "SPECIFICATIONS" n -> specification_of n s -> plain_specification read_value s.
Proof.
  unfold plain_specification. intros HP ((H1 & <- & <- & <-) & <- & H3 & H4). destruct (attr_tag _ _ _ H1) as (own & HT). pose proof (item_here _ _ _ HP HT eq_refl) as HH.
  split; [apply (some_when _ _ _ H1); raw HP HT|]. split; [eapply when_escaped; eassumption|]. split; [raw HP HT|]. split; [eapply when_escaped; eassumption|].
  split; [apply ref_text, ref_at; first [exact HH|reflexivity|discriminate]|]. split.
  - unfold values_of in H4. destruct (section_items "VALUES" n) as [ks|] eqn:E; destruct (sp_values s) as [l|]; try contradiction; [|exact I].
    eapply list_read; [|exact attr_value_read|exact H4]. intros k HK. apply in_no_comments in HK. eapply section_placed; [exact HH|exact E|reflexivity|exact HK].
  - destruct (last_section "CHILDREN" n) as [ks|] eqn:E; destruct (sp_children s) as [l|]; try contradiction; [|exact I].
    assert (HK : forall k, In k ks -> placed root "CHILDREN" k).
    { unfold last_section in E. destruct (find_list _ _) as [x|] eqn:EX; [|discriminate]. injection E as <-. unfold find_list in EX. apply find_some in EX.
      destruct EX as [EX ET]. apply in_rev in EX. unfold tag_is in ET. destruct (tag x) as [tx|] eqn:TX; [|discriminate]. apply str_eqb_eq in ET. subst tx.
      intros k IK. apply (child_placed x); [|exact TX|exact IK]. exists own, "CHILDREN". split; [|split; [exact TX|apply deep_inner; reflexivity]].
      apply (child_placed n); [exact HH|exact HT|]. unfold children. apply filter_In. split; [exact EX|]. destruct x; [discriminate|reflexivity|reflexivity|reflexivity]. }
    eapply list_read; [exact HK|intros k h; apply (hier_read h 1 k)|exact H3].
Qed.
Lemma relation_group_read n g : placed root "SPEC-RELATION-GROUPS" n -> relation_group_of n g -> plain_relation_group g.
Proof.
  unfold plain_relation_group. intros HP ((H1 & <- & <- & <-) & <- & <- & <- & ->). destruct (attr_tag _ _ _ H1) as (own & HT). pose proof (item_here _ _ _ HP HT eq_refl) as HH.
  split; [apply (some_when _ _ _ H1); raw HP HT|]. do 3 (split; [raw HP HT|]). do 3 (split; [apply ref_at; first [exact HH|reflexivity|discriminate]|]).
  destruct (section_items "SPEC-RELATIONS" n) as [ks|] eqn:E; [|exact I]. cbn [option_map each].
  apply Forall_forall. intros o HO. apply in_map_iff in HO. destruct HO as (k & <- & HK).
  apply (text_place "SPEC-RELATIONS"); [eapply section_placed; [exact HH|exact E|reflexivity|exact HK]| |discriminate]. split; [intros [K _]; discriminate|]. intros _. cbn. tauto.
Qed.
Lemma header_read n h : here n -> parse_header n = Ok h -> plain_header h.
Proof.
  intros HH H. unfold parse_header in H. destruct (py_assert _); [|discriminate]. cbn [bind] in H.
  destruct (find_child "REQ-IF-HEADER" n) as [x|] eqn:E; [|discriminate]. destruct (tag_found _ _ _ E) as [TX _]. pose proof (found_here _ _ _ HH E eq_refl) as HX.
  destruct (or_not_impl (attr_req "IDENTIFIER" x)) as [i|] eqn:EI; [|discriminate]. cbn [bind] in H. apply CleanProofs.Ok_inj in H. subst h.
  assert (P0 : forall t k, find_child t x = Some k -> inner t = true -> forall v, text k = Some v -> text_fits "REQ-IF-HEADER" k v /\ tag k = Some t).
  { intros t k EK HI v HV. destruct (found_placed x _ _ k HX TX EK) as [PK TK]. split; [|exact TK]. apply (cv_texts _ _ _ _ C _ _ _ PK); [|exact HV].
    eapply text_elem_counts; [exact TK|]. intros ->. discriminate. }
  assert (G : forall t, inner t = true -> t <> "TITLE" -> when text_raw (child_text t x)).
  { intros t HI HN. unfold child_text. destruct (find_child t x) as [k|] eqn:EK; [|exact I]. destruct (text k) as [v|] eqn:EV; [|exact I].
    destruct (P0 t k EK HI v EV) as [[_ [K|(_ & K & _)]] TK]; [exact K|congruence]. }
  unfold plain_header. cbn [hd_identifier hd_comment hd_creation_time hd_repository_id hd_req_if_tool_id hd_req_if_version hd_source_tool_id hd_title].
  split; [|split; [|split; [|split; [|split; [|split; [|split]]]]]]; try (apply G; [reflexivity|discriminate]).
  - unfold attr_req in EI. destruct (attr_opt "IDENTIFIER" x) as [v|] eqn:EV; [|discriminate]. cbn in EI. injection EI as <-. cbn [when].
    destruct HX as (t & ow & PX & TX' & _). apply (some_when _ _ _ EV). raw PX TX'.
  - intros v EV. destruct (find_child "REPOSITORY-ID" x) as [k|] eqn:EK; [|discriminate]. destruct (text k) as [w|] eqn:EW; [|discriminate]. injection EV as <-.
    destruct (P0 _ k EK eq_refl w EW) as [[N [K|(_ & K & _)]] TK]; [split; assumption|congruence].
  - unfold child_text. destruct (find_child "TITLE" x) as [k|] eqn:EK; [|exact I]. destruct (text k) as [v|] eqn:EV; [|exact I].
    destruct (P0 _ k EK eq_refl v EV) as [[_ [K|(_ & _ & K)]] _]; [apply raw_title, K|exact K].
Qed.
End Conventional.
