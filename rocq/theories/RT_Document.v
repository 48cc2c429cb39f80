(** RT_Document.v -- the round trip of a whole document *)
From Verif Require UriProofs.
From Verif Require Import Base Xml Utf8 Lxml Py LxmlStr Models AttrDef DataType Header AttrValue SpecObj Hierarchy
  SpecTypes Progress Parser Unparser BundleModel XmlProofs DictProofs SpecEscape EscapeProofs SpecPrint SpecXhtml
  SpecDocument SpecAccept SpecTraversal SpecProgress SpecLookup ProgressProofs ParserProofs
  Frag RT RT_Header RT_Values RT_Xhtml RT_Content.

(** ** Names *)
Lemma plain_okname s : plain_name s = okname s.
Proof. reflexivity. Qed.
Lemma name_char_no c k : is_name_char k = false -> is_name_char c = true -> c <> k.
Proof. intros H1 H2 ->. congruence. Qed.
Lemma okname_not_in s k : is_name_char k = false -> okname s = true -> ~ In k s.
Proof.
  intros HK H HI. unfold okname in H. apply andb_prop in H. destruct H as [H _]. apply name_char_all in H.
  rewrite forallb_forall in H. specialize (H _ HI). congruence.
Qed.
Lemma split_last (a b c d : str) k : ~ In k b -> ~ In k d -> a ++ k :: b = c ++ k :: d -> a = c /\ b = d.
Proof.
  intros HB HD H. apply app_split in H. destruct H as [(m & -> & E)|(m & -> & E)].
  - destruct m as [|x m]; cbn in E; [injection E as E1; rewrite app_nil_r; auto|]. injection E as E1 E2. exfalso. apply HD. rewrite E2. apply in_or_app. right. left. reflexivity.
  - destruct m as [|x m]; cbn in E; [injection E as E1; rewrite app_nil_r; auto|]. injection E as E1 E2. exfalso. apply HB. rewrite E2. apply in_or_app. right. left. reflexivity.
Qed.
Lemma clark_inj u1 n1 u2 n2 : okname n1 = true -> okname n2 = true ->
  "{" ++ u1 ++ "}" ++ n1 = "{" ++ u2 ++ "}" ++ n2 -> u1 = u2 /\ n1 = n2.
Proof.
  intros H1 H2 E. change ("{" ++ ?x) with (123%N :: x) in E. injection E as E.
  change ("}" ++ ?x) with (125%N :: x) in E. apply (split_last _ _ _ _ 125%N) in E; [exact E| |]; apply okname_not_in; auto.
Qed.
Lemma clark_plain u n1 n2 : okname n2 = true -> "{" ++ u ++ "}" ++ n1 <> n2.
Proof.
  intros H E. destruct n2 as [|c n2]; [discriminate|]. change ("{" ++ ?x) with (123%N :: x) in E.
  injection E as <- _. unfold okname, is_name in H. rewrite !andb_true_iff in H. destruct H as [[H _] _]. discriminate.
Qed.
Lemma no_colon_app s : no_colon s = true -> forall t, split_colon (s ++ ":" ++ t) = (s, Some t).
Proof.
  unfold no_colon. induction s as [|c s IH]; intros H t; [reflexivity|]. cbn [existsb] in H. rewrite negb_orb, andb_true_iff, negb_true_iff in H.
  destruct H as [H1 H2]. rewrite N.eqb_sym in H1. rewrite <- app_comm_cons. cbn [split_colon]. rewrite H1, (IH H2). reflexivity.
Qed.
Lemma okname_parts s : okname s = true -> is_name s = true /\ no_colon s = true.
Proof. unfold okname. apply andb_prop. Qed.
Lemma qname_with q n : okname n = true -> (forall q', q = Some q' -> okname q' = true) -> qname (with_prefix q n) = Some (q, n).
Proof.
  intros HN HQ. destruct q as [q|]; [|apply qname_plain, HN]. specialize (HQ q eq_refl). cbn [with_prefix].
  destruct (okname_parts _ HQ) as [Q1 Q2]. destruct (okname_parts _ HN) as [N1 N2].
  unfold qname. rewrite no_colon_app by exact Q2. destruct q as [|c q]; [discriminate|]. destruct n as [|c' n]; [discriminate|].
  unfold no_colon in N2. apply negb_true_iff in N2. rewrite N2. cbn in N1. apply andb_prop in N1. destruct N1 as [-> _]. reflexivity.
Qed.
Lemma decl_of_with q n : okname n = true -> (forall q', q = Some q' -> okname q' = true /\ q' <> "xmlns") ->
  (q = None -> n <> "xmlns") -> decl_of (with_prefix q n) = None.
Proof.
  intros HN HQ HX. destruct q as [q|]; cbn [with_prefix].
  - destruct (HQ q eq_refl) as [Q1 Q2]. destruct (okname_parts _ Q1) as [Q3 Q4]. unfold decl_of.
    destruct (str_eqb_spec (q ++ ":" ++ n) "xmlns") as [E|_].
    { exfalso. pose proof (no_colon_app q Q4 n) as HS. rewrite E in HS. discriminate. }
    rewrite no_colon_app by exact Q4. destruct (str_eqb_spec q "xmlns"); [congruence|reflexivity].
  - apply okname_decl; [exact HN|]. destruct (str_eqb_spec n "xmlns"); [|reflexivity]. exfalso. apply HX; auto.
Qed.
Lemma name_with q n : okname q = true -> okname n = true -> is_name (q ++ ":" ++ n) = true.
Proof.
  intros HQ H. apply okname_name in H, HQ. apply name_char_all in H. destruct q as [|c q]; [discriminate|].
  cbn in *. apply andb_prop in HQ. destruct HQ as [-> HQ]. rewrite forallb_app, HQ. cbn. exact H.
Qed.
Definition decl_key (d : option str * str) : str :=
  "xmlns" ++ (match fst d with Some p => ":" ++ p | None => [] end).
Lemma decl_of_key d : decl_of (decl_key d) = Some (fst d).
Proof.
  unfold decl_key, decl_of. destruct (fst d) as [q|]; [|reflexivity].
  destruct (str_eqb_spec ("xmlns" ++ ":" ++ q) "xmlns") as [E|_]; [discriminate|]. reflexivity.
Qed.

(** ** The opening tag as attributes *)
Definition pdecl (d : option str * str) : pattr := PA (decl_key d) (snd d) (snd d).
Definition pattr_of (a : option str * str * str) : pattr := PA (with_prefix (fst (fst a)) (snd (fst a))) (in_ascii (snd a)) (snd a).
Definition root_pattrs (r : root_tag) : list pattr := map pdecl (rt_decls r) ++ map pattr_of (rt_attrs r).
Lemma root_text_eq r : root_text r = "<REQ-IF" ++ render_attrs (root_pattrs r) ++ ">".
Proof.
  unfold root_text, root_pattrs. rewrite render_app. unfold render_attrs.
  assert (E1 : forall l, flat_map render_attr (map pdecl l) = flat_map decl_text l).
  { induction l as [|d l IH]; [reflexivity|]. cbn [map flat_map]. rewrite IH. reflexivity. }
  assert (E2 : forall l, flat_map render_attr (map pattr_of l) = flat_map attr_text l).
  { induction l as [|a l IH]; [reflexivity|]. cbn [map flat_map]. rewrite IH. f_equal. }
  rewrite E1, E2, <- !app_assoc. reflexivity.
Qed.
Lemma root_value_raw s : root_value s -> attr_raw s.
Proof.
  unfold root_value, attr_raw, xml_text_without. apply Forall_impl. intros c (H1 & _ & H3). split; [exact H1|].
  cbn in *. tauto.
Qed.
(** ** Attribute values in ASCII *)
Definition below (k : nat) (n : N) : Prop := (n < 16 ^ N.of_nat k)%N.
Lemma below_div k n : below (S k) n -> below k (n / 16).
Proof.
  unfold below. rewrite Nat2N.inj_succ, N.pow_succ_r'. intros H. apply N.div_lt_upper_bound; [discriminate|exact H].
Qed.
Lemma digit_char d : (d < 16)%N -> nth (N.to_nat d) "0123456789ABCDEF" 48%N = hex_char d.
Proof.
  intros H. assert (K : In d (map N.of_nat (seq 0 16))) by (apply in_map_iff; exists (N.to_nat d); split; [lia|apply in_seq; lia]).
  cbn [map seq] in K. repeat (destruct K as [<-|K]; [reflexivity|]). destruct K.
Qed.
Lemma div16_zero n : N.eqb (n / 16) 0 = N.ltb n 16.
Proof.
  destruct (N.ltb_spec n 16) as [H|H]; [rewrite N.div_small by exact H; reflexivity|].
  apply N.eqb_neq. intros E. apply N.div_small_iff in E; [lia|discriminate].
Qed.
Lemma hex_digits_eq f : forall n acc, (f <> 0)%nat -> below f n -> hex_digits f n acc = hexadecimal f n ++ acc.
Proof.
  induction f as [|f IH]; intros n acc HF HB; [congruence|]. cbn [hex_digits hexadecimal]. cbv zeta. rewrite div16_zero.
  rewrite digit_char by (apply N.mod_lt; discriminate). destruct (N.ltb_spec n 16) as [H|H]; [reflexivity|].
  rewrite IH; [rewrite <- app_assoc; reflexivity| |apply below_div, HB].
  intros ->. apply below_div in HB. unfold below in HB. cbn in HB. apply N.lt_1_r, N.div_small_iff in HB; [lia|discriminate].
Qed.
Lemma hexadecimal_fuel f : forall g n, below f n -> below g n -> (f <> 0)%nat -> (g <> 0)%nat -> hexadecimal f n = hexadecimal g n.
Proof.
  induction f as [|f IH]; intros g n HF HG N1 N2; [congruence|]. destruct g as [|g]; [congruence|]. cbn [hexadecimal]. f_equal.
  destruct (N.ltb_spec n 16) as [H|H]; [reflexivity|]. apply below_div in HF, HG.
  assert (Z : forall k, below k (n / 16) -> (k <> 0)%nat).
  { intros k HK ->. unfold below in HK. cbn in HK. apply N.lt_1_r, N.div_small_iff in HK; [lia|discriminate]. }
  apply IH; auto.
Qed.
Lemma xml_char_below c : is_xml_char c = true -> below 6 c.
Proof.
  unfold is_xml_char, below. rewrite !orb_true_iff, !andb_true_iff, !N.leb_le, !N.eqb_eq. change (16 ^ N.of_nat 6)%N with 16777216%N. lia.
Qed.
Lemma size_below n : below (S (N.to_nat (N.size n))) n.
Proof.
  unfold below. pose proof (N.size_gt n) as H. rewrite Nat2N.inj_succ, N2Nat.id, N.pow_succ_r'.
  assert (K : (2 ^ N.size n <= 16 ^ N.size n)%N) by (apply N.pow_le_mono_l; lia). lia.
Qed.
Lemma dump_in_ascii s : xml_text_without [] s -> dump_attr_value s = in_ascii s.
Proof.
  unfold dump_attr_value, in_ascii. induction 1 as [|c s [H1 _] HS IH]; [reflexivity|]. cbn [flat_map]. rewrite IH. f_equal.
  unfold dump_attr_char. destruct (N.ltb_spec c 128) as [H|H].
  - unfold substitute, ascii_table. cbn [flat_map entry]. rewrite app_nil_r.
    repeat match goal with |- context [N.eqb c ?k] => destruct (N.eqb c k); [reflexivity|] end. reflexivity.
  - repeat match goal with |- context [N.eqb c ?k] => destruct (N.eqb_spec c k); [exfalso; subst c; lia|] end.
    unfold str_of_hex. rewrite hex_digits_eq by (discriminate || apply size_below). rewrite app_nil_r.
    rewrite (hexadecimal_fuel _ 6 c) by (discriminate || apply size_below || apply xml_char_below, H1). reflexivity.
Qed.
Lemma hex_char_digit d : (d < 16)%N -> hex_digit (hex_char d) = Some d /\ ref_char (hex_char d) = true.
Proof.
  intros H. assert (K : In d (map N.of_nat (seq 0 16))) by (apply in_map_iff; exists (N.to_nat d); split; [lia|apply in_seq; lia]).
  cbn [map seq] in K. repeat (destruct K as [<-|K]; [split; reflexivity|]). destruct K.
Qed.
Lemma hexadecimal_reads f : forall n, (f <> 0)%nat -> below f n -> hex_val (hexadecimal f n) = Some n /\ forallb ref_char (hexadecimal f n) = true.
Proof.
  induction f as [|f IH]; intros n HF HB; [congruence|]. cbn [hexadecimal].
  pose proof (N.mod_lt n 16 ltac:(discriminate)) as HM. rewrite digit_char by exact HM. destruct (hex_char_digit _ HM) as [D1 D2].
  destruct (N.ltb_spec n 16) as [H|H].
  - cbn [app forallb]. unfold hex_val. cbn [fold_left]. rewrite D1, D2. rewrite N.mod_small by exact H. split; reflexivity.
  - apply below_div in HB.
    assert (Z : (f <> 0)%nat).
    { intros ->. unfold below in HB. cbn in HB. apply N.lt_1_r, N.div_small_iff in HB; [lia|discriminate]. }
    destruct (IH _ Z HB) as [I1 I2]. rewrite forallb_app, I2. cbn [forallb]. rewrite D2. split; [|reflexivity].
    unfold hex_val in *. destruct (hexadecimal f (n / 16)) as [|x l] eqn:E; [discriminate|]. rewrite <- app_comm_cons, app_comm_cons, fold_left_app, I1.
    cbn [fold_left]. rewrite D1. f_equal. rewrite N.mul_comm. symmetry. apply N.div_mod. discriminate.
Qed.
Lemma in_ascii_aval s : xml_text_without [] s -> aval (in_ascii s) s.
Proof.
  intros H. apply aval_flat_map. intros c Hc. unfold xml_text_without in H. rewrite Forall_forall in H. destruct (H c Hc) as [X _].
  destruct (N.ltb_spec c 128) as [L|L].
  - unfold substitute. cbn [flat_map]. rewrite app_nil_r. unfold ascii_table. cbn [entry].
    repeat match goal with |- context [N.eqb c ?k] => destruct (N.eqb_spec c k) as [->|]; [match goal with |- aval ?e _ => let b := eval vm_compute in (removelast (tl e)) in apply (aval_ref b); reflexivity end|] end.
    apply aval_char. unfold attr_plain. rewrite X. unfold is_ws.
    repeat match goal with H : c <> ?k |- _ => apply N.eqb_neq in H; rewrite ?H; clear H end. destruct (N.eqb c 32); reflexivity.
  - assert (B : below 6 c) by (apply xml_char_below, X). destruct (hexadecimal_reads 6 c ltac:(discriminate) B) as [R1 R2].
    change ("&#x" ++ hexadecimal 6 c ++ ";") with ("&" ++ ("#x" ++ hexadecimal 6 c) ++ ";"). apply aval_ref.
    + rewrite forallb_app, R2. reflexivity.
    + unfold decode_ref. change ("#x" ++ ?h) with (35%N :: 120%N :: h). cbn [str_eqb N.eqb Pos.eqb andb]. rewrite R1, X. reflexivity.
Qed.
Lemma root_value_ascii s : root_value s -> in_ascii s = s.
Proof.
  unfold in_ascii. induction 1 as [|c s (H1 & H2 & H3) HS IH]; [reflexivity|]. cbn [flat_map]. rewrite IH. apply N.ltb_lt in H2. rewrite H2.
  unfold substitute, ascii_table. cbn [flat_map entry]. cbn in H3.
  repeat match goal with |- context [N.eqb c ?k] => destruct (N.eqb_spec c k); [exfalso; subst; tauto|] end. reflexivity.
Qed.

Section Root.
Variable r : root_tag.
Hypothesis OK : root_ok r.
Lemma decl_fact d : In d (rt_decls r) -> decl_ok d.
Proof. destruct OK as (_ & _ & H & _). rewrite Forall_forall in H. apply H. Qed.
Lemma attr_fact a : In a (rt_attrs r) -> attr_ok r a.
Proof. destruct OK as (_ & _ & _ & _ & H). rewrite Forall_forall in H. apply H. Qed.
Lemma prefix_fact q : In (Some q) (declared_prefixes r) -> okname q = true /\ q <> "xml" /\ q <> "xmlns".
Proof.
  intros H. apply in_map_iff in H. destruct H as (d & E & Hd). destruct (decl_fact d Hd) as (_ & _ & _ & H).
  rewrite E in H. destruct H as ([H _] & H2 & H3). auto.
Qed.
Lemma attr_prefix a q : In a (rt_attrs r) -> fst (fst a) = Some q -> okname q = true /\ q <> "xmlns".
Proof.
  intros H E. destruct (attr_fact a H) as (_ & _ & H3). rewrite E in H3. destruct H3 as [->|H3]; [split; [reflexivity|discriminate]|].
  destruct (prefix_fact q H3) as (? & ? & ?). auto.
Qed.
Lemma attr_name a : In a (rt_attrs r) -> okname (snd (fst a)) = true.
Proof. intros H. destruct (attr_fact a H) as ([H1 _] & _). exact H1. Qed.
Lemma attr_decl a : In a (rt_attrs r) -> decl_of (with_prefix (fst (fst a)) (snd (fst a))) = None.
Proof.
  intros H. apply decl_of_with; [apply attr_name, H|intros q' E; apply (attr_prefix a q' H E)|].
  intros E. destruct (attr_fact a H) as (_ & _ & H3). rewrite E in H3. exact H3.
Qed.
Lemma attr_qname a : In a (rt_attrs r) -> qname (with_prefix (fst (fst a)) (snd (fst a))) = Some (fst a).
Proof.
  intros H. rewrite qname_with; [destruct (fst a); reflexivity|apply attr_name, H|]. intros q' E. apply (attr_prefix a q' H E).
Qed.
Lemma root_wf : Forall wf_attr (root_pattrs r).
Proof.
  apply Forall_app. split; rewrite Forall_map; apply Forall_forall; intros x Hx; split.
  - destruct (decl_fact x Hx) as (_ & _ & _ & H). unfold pdecl, decl_key. cbn [pa_key]. destruct (fst x) as [q|]; [|reflexivity].
    destruct H as ([H _] & _). destruct (okname_parts _ H) as [H1 _]. apply name_char_all in H1. cbn. exact H1.
  - destruct (decl_fact x Hx) as (_ & _ & [H _] & _). apply raw_aval, root_value_raw, H.
  - unfold pattr_of. cbn [pa_key]. pose proof (attr_name x Hx) as HN. destruct (fst (fst x)) as [q|] eqn:E; [|apply okname_parts, HN].
    cbn [with_prefix]. apply name_with; [|exact HN]. apply (attr_prefix x q Hx E).
  - destruct (attr_fact x Hx) as (_ & H & _). apply in_ascii_aval, H.
Qed.
Lemma root_decls : decls (map attr_of (root_pattrs r)) = rt_decls r.
Proof.
  unfold decls, root_pattrs. rewrite map_app, flat_map_app.
  assert (E1 : forall l, flat_map (fun kv : str * str => match decl_of (fst kv) with Some p => [(p, snd kv)] | None => [] end) (map attr_of (map pdecl l)) = l).
  { induction l as [|d l IH]; [reflexivity|]. cbn [map flat_map]. rewrite IH. unfold attr_of, pdecl. cbn [fst snd pa_key pa_val]. rewrite decl_of_key.
    destruct d; reflexivity. }
  rewrite E1. rewrite flat_map_nil; [apply app_nil_r|]. intros kv H. apply in_map_iff in H. destruct H as (x & <- & H).
  apply in_map_iff in H. destruct H as (a & <- & H). unfold attr_of, pattr_of. cbn [fst snd pa_key]. rewrite attr_decl by exact H. reflexivity.
Qed.
Lemma root_allowed : forallb decl_allowed (map attr_of (root_pattrs r)) = true.
Proof.
  apply forallb_forall. intros kv Hk. unfold root_pattrs in Hk. rewrite map_app in Hk. apply in_app_or in Hk. unfold decl_allowed.
  destruct Hk as [Hk|Hk]; apply in_map_iff in Hk; destruct Hk as (x & <- & Hk); apply in_map_iff in Hk; destruct Hk as (y & <- & Hk).
  - unfold attr_of, pdecl. cbn [fst snd pa_key pa_val]. rewrite decl_of_key. destruct (decl_fact y Hk) as (N1 & N2 & (_ & N3 & N4) & HP).
    apply UriProofs.uri_reference_spec in N3.
    assert (E1 : str_eqb (snd y) xml_uri = false) by (destruct (str_eqb_spec (snd y) xml_uri); [contradiction|reflexivity]).
    assert (E2 : str_eqb (snd y) xmlns_uri = false) by (destruct (str_eqb_spec (snd y) xmlns_uri); [contradiction|reflexivity]).
    destruct (snd y) as [|c u] eqn:EY; [congruence|]. rewrite N3, E1, E2. destruct (fst y) as [q|]; [|reflexivity].
    destruct HP as ([HP _] & P1 & P2). destruct (str_eqb_spec q "xml") as [|_]; [contradiction|].
    destruct (str_eqb_spec q "xmlns") as [|_]; [contradiction|]. destruct (okname_parts _ HP) as [Q1 Q2].
    unfold ncname. destruct q as [|c' q]; [discriminate|]. unfold no_colon in Q2. rewrite Q2. cbn in Q1. apply andb_prop in Q1. destruct Q1 as [-> _].
    reflexivity.
  - unfold attr_of, pattr_of. cbn [fst snd pa_key]. rewrite attr_decl by exact Hk. reflexivity.
Qed.
Lemma nodupb_NoDup l : NoDup l -> nodupb l = true.
Proof.
  induction 1 as [|x l H _ IH]; [reflexivity|]. cbn. rewrite IH, andb_true_r. apply negb_true_iff.
  destruct (str_mem x l) eqn:E; [|reflexivity]. apply str_mem_In in E. contradiction.
Qed.
Lemma NoDup_by {A B C} (f : A -> B) (g : A -> C) l :
  (forall x y, In x l -> In y l -> f x = f y -> g x = g y) -> NoDup (map g l) -> NoDup (map f l).
Proof.
  induction l as [|x l IH]; intros HI H; [constructor|]. cbn [map] in *. inversion H as [|? ? H1 H2]; subst. constructor.
  - intros HX. apply in_map_iff in HX. destruct HX as (y & E & Hy). apply H1. apply in_map_iff. exists y. split; [|exact Hy].
    apply HI; [right; exact Hy|left; reflexivity|exact E].
  - apply IH; [|exact H2]. intros y z Hy Hz. apply HI; right; assumption.
Qed.
Lemma NoDup_app_of {A} (a b : list A) : NoDup a -> (forall x, In x a -> In x b -> False) -> NoDup b -> NoDup (a ++ b).
Proof.
  induction 1 as [|x a H1 H2 IH]; intros HD HB; [exact HB|]. cbn [app]. constructor.
  - intros H. apply in_app_or in H. destruct H as [H|H]; [exact (H1 H)|]. apply (HD x); [left; reflexivity|exact H].
  - apply IH; [|exact HB]. intros y Hy. apply HD. right. exact Hy.
Qed.
Lemma root_keys : nodupb (map fst (map attr_of (root_pattrs r))) = true.
Proof.
  apply nodupb_NoDup. unfold root_pattrs. rewrite !map_app, !map_map. cbn [attr_of fst pdecl pattr_of pa_key].
  destruct OK as (N1 & _ & _ & N2 & _). apply NoDup_app_of.
  - apply (NoDup_by _ fst); [|exact N1]. intros x y _ _ E. assert (E2 : Some (fst x) = Some (fst y)) by (rewrite <- !decl_of_key, E; reflexivity). congruence.
  - intros k H1 H2. apply in_map_iff in H1. destruct H1 as (d & E1 & _). apply in_map_iff in H2. destruct H2 as (a & E2 & Ha).
    pose proof (attr_decl a Ha) as HD. rewrite E2, <- E1, decl_of_key in HD. discriminate.
  - apply (NoDup_by _ fst); [|exact N2]. intros x y Hx Hy E. assert (E2 : Some (fst x) = Some (fst y)) by (rewrite <- (attr_qname x Hx), <- (attr_qname y Hy), E; reflexivity). congruence.
Qed.

(** ** Resolution *)
Definition uri (q : str) : str :=
  if str_eqb q "xml" then xml_uri else match ns_get (rt_decls r) (Some q) with Some u => u | None => [] end.
Definition rattr (a : option str * str * str) : attr :=
  Attr (match fst (fst a) with Some q => Some (Some q, uri q) | None => None end) (snd (fst a)) (snd a).
Lemma dict_get_in {X} (l : dict X) k v : NoDup (map fst l) -> In (k, v) l -> dict_get l k = Some v.
Proof.
  induction l as [|[k' v'] l IH]; intros HN HI; [destruct HI|]. cbn [dict_get]. inversion HN as [|? ? H1 H2]; subst.
  destruct HI as [E|HI].
  - injection E as -> ->. rewrite ostr_eqb_refl. reflexivity.
  - destruct (ostr_eqb_spec k k') as [->|_]; [|apply IH; assumption]. exfalso. apply H1. apply (in_map fst _ _ HI).
Qed.
Lemma dict_get_inv {X} (l : dict X) k v : dict_get l k = Some v -> In (k, v) l.
Proof.
  induction l as [|[k' v'] l IH]; [discriminate|]. cbn [dict_get]. destruct (ostr_eqb_spec k k') as [->|_].
  - intros E. injection E as ->. left. reflexivity.
  - intros E. right. apply IH, E.
Qed.
Lemma get_decl q u : In (q, u) (rt_decls r) -> ns_get (rt_decls r) q = Some u.
Proof. apply dict_get_in, OK. Qed.
Lemma get_declared q : In (Some q) (declared_prefixes r) -> q <> "xml" -> ns_get (rt_decls r) (Some q) = Some (uri q) /\ In (Some q, uri q) (rt_decls r).
Proof.
  intros H N. apply in_map_iff in H. destruct H as ([q' u] & E & Hd). cbn in E. subst q'. pose proof (get_decl _ _ Hd) as HG.
  unfold uri. destruct (str_eqb_spec q "xml"); [congruence|]. rewrite HG. auto.
Qed.
Lemma root_resolve_attr a : In a (rt_attrs r) -> resolve_attr (rt_decls r) (attr_of (pattr_of a)) = Some [rattr a].
Proof.
  intros H. unfold resolve_attr, attr_of, pattr_of. cbn [fst snd pa_key pa_val]. rewrite attr_decl, attr_qname by exact H.
  destruct a as [[q n] v]. cbn [fst snd]. unfold rattr. cbn [fst snd]. destruct q as [q|]; [|reflexivity]. cbn [attr_ns elem_ns].
  destruct (str_eqb_spec q "xml") as [->|N]; [reflexivity|].
  destruct (attr_fact _ H) as (_ & _ & HP). cbn [fst snd] in HP. destruct HP as [->|HP]; [congruence|].
  destruct (get_declared q HP N) as [-> _]. reflexivity.
Qed.
Lemma root_resolve_attrs : map_opt (resolve_attr (rt_decls r)) (map attr_of (root_pattrs r))
  = Some (map (fun _ => []) (rt_decls r) ++ map (fun a => [rattr a]) (rt_attrs r)).
Proof.
  unfold root_pattrs. rewrite map_app. apply map_opt_app; rewrite map_map.
  - induction (rt_decls r) as [|d l IH] at 2 3; [reflexivity|]. cbn [map map_opt]. unfold resolve_attr at 1, attr_of at 1. cbn [fst pdecl pa_key].
    rewrite decl_of_key, IH. reflexivity.
  - assert (E : forall l, (forall a, In a l -> In a (rt_attrs r)) -> map_opt (resolve_attr (rt_decls r)) (map (fun x => attr_of (pattr_of x)) l) = Some (map (fun a => [rattr a]) l)).
    { induction l as [|a l IH]; intros HL; [reflexivity|]. cbn [map map_opt]. rewrite root_resolve_attr by (apply HL; left; reflexivity).
      rewrite IH by (intros; apply HL; right; assumption). reflexivity. }
    apply E. auto.
Qed.
Lemma concat_root : concat (map (fun _ : option str * str => @nil attr) (rt_decls r) ++ map (fun a => [rattr a]) (rt_attrs r)) = map rattr (rt_attrs r).
Proof.
  rewrite concat_app, concat_singles. induction (rt_decls r) as [|d l IH]; [reflexivity|exact IH].
Qed.
Definition usable (q : str) : Prop := q = "xml" \/ In (Some q) (declared_prefixes r).
Lemma uri_inj q1 q2 : usable q1 -> usable q2 -> uri q1 = uri q2 -> q1 = q2.
Proof.
  assert (X : forall q, In (Some q) (declared_prefixes r) -> uri q <> xml_uri).
  { intros q H E. destruct (prefix_fact q H) as (_ & N & _). destruct (get_declared q H N) as [_ HI].
    destruct (decl_fact _ HI) as (_ & HX & _). exact (HX E). }
  intros [->|H1] [->|H2] E; [reflexivity|exfalso; apply (X q2 H2); symmetry; exact E|exfalso; apply (X q1 H1); exact E|].
  destruct (prefix_fact q1 H1) as (_ & N1 & _). destruct (prefix_fact q2 H2) as (_ & N2 & _).
  destruct (get_declared q1 H1 N1) as [_ I1]. destruct (get_declared q2 H2 N2) as [_ I2]. rewrite E in I1.
  destruct OK as (_ & ND & _). clear - ND I1 I2.
  remember (filter (fun d => negb (is_default d)) (rt_decls r)) as l eqn:EL.
  assert (J1 : In (Some q1, uri q2) l) by (subst l; apply filter_In; auto).
  assert (J2 : In (Some q2, uri q2) l) by (subst l; apply filter_In; auto).
  clear EL I1 I2. induction l as [|[k v] l IH]; [destruct J1|]. cbn [map snd] in ND. inversion ND as [|? ? K1 K2]; subst.
  destruct J1 as [J1|J1], J2 as [J2|J2].
  - congruence.
  - injection J1 as -> ->. exfalso. apply K1. apply (in_map snd _ _ J2).
  - injection J2 as -> ->. exfalso. apply K1. apply (in_map snd _ _ J1).
  - apply IH; assumption.
Qed.
Lemma attr_usable a q : In a (rt_attrs r) -> fst (fst a) = Some q -> usable q.
Proof. intros H E. destruct (attr_fact a H) as (_ & _ & HP). rewrite E in HP. exact HP. Qed.
Lemma rattr_key_inj a b : In a (rt_attrs r) -> In b (rt_attrs r) -> a_key (rattr a) = a_key (rattr b) -> fst a = fst b.
Proof.
  intros Ha Hb. pose proof (attr_name a Ha) as NA. pose proof (attr_name b Hb) as NB.
  pose proof (attr_usable a) as UA. pose proof (attr_usable b) as UB.
  destruct a as [[[q|] n] v], b as [[[q'|] n'] v']; unfold rattr, a_key; cbn [fst snd a_ns a_local clark] in *; intros E.
  - apply clark_inj in E; [|assumption..]. destruct E as [E ->]. apply uri_inj in E; [congruence|apply UA; auto|apply UB; auto].
  - exfalso. exact (clark_plain _ _ _ NB E).
  - exfalso. symmetry in E. exact (clark_plain _ _ _ NA E).
  - congruence.
Qed.
Lemma root_attr_nodup : nodupb (map a_key (map rattr (rt_attrs r))) = true.
Proof.
  apply nodupb_NoDup. rewrite map_map. destruct OK as (_ & _ & _ & N2 & _). apply (NoDup_by _ fst); [|exact N2].
  intros x y Hx Hy. apply rattr_key_inj; assumption.
Qed.

(** the looked up attributes *)
Lemma root_assoc q n : usable q -> okname n = true ->
  assoc ("{" ++ uri q ++ "}" ++ n) (map (fun x => (a_key x, a_val x)) (map rattr (rt_attrs r))) = value_of (rt_attrs r) q n.
Proof.
  intros HQ HN. assert (E : forall l, (forall a, In a l -> In a (rt_attrs r)) ->
    assoc ("{" ++ uri q ++ "}" ++ n) (map (fun x => (a_key x, a_val x)) (map rattr l)) = value_of l q n); [|apply E; auto].
  induction l as [|a l IH]; intros HL; [reflexivity|]. rewrite !map_cons. cbn [assoc].
  assert (Ha : In a (rt_attrs r)) by (apply HL; left; reflexivity). rewrite IH by (intros; apply HL; right; assumption).
  pose proof (attr_name a Ha) as NA. pose proof (attr_usable a) as UA.
  destruct a as [[[q'|] n'] v']; unfold rattr, a_key; cbn [fst snd a_ns a_local a_val clark value_of] in *.
  - destruct (str_eqb_spec ("{" ++ uri q ++ "}" ++ n) ("{" ++ uri q' ++ "}" ++ n')) as [E|E].
    + apply clark_inj in E; [|assumption..]. destruct E as [E ->]. apply uri_inj in E; [|exact HQ|apply UA; auto]. subst q'.
      rewrite !str_eqb_refl. reflexivity.
    + destruct (str_eqb_spec q' q) as [->|]; [|reflexivity]. destruct (str_eqb_spec n' n) as [->|]; [congruence|reflexivity].
  - destruct (str_eqb_spec ("{" ++ uri q ++ "}" ++ n) n') as [E|_]; [|reflexivity]. exfalso. exact (clark_plain _ _ _ NA E).
Qed.

(** ** The dump *)
Lemma dump_nsdecl_eq : flat_map dump_nsdecl (rt_decls r) = flat_map decl_text (rt_decls r).
Proof. reflexivity. Qed.
Lemma find_prefix q : In (Some q) (declared_prefixes r) ->
  find (fun d : nsref => match fst d with Some _ => str_eqb (snd d) (uri q) | None => false end) (rt_decls r) = Some (Some q, uri q).
Proof.
  intros H. destruct (prefix_fact q H) as (_ & N & _). destruct (get_declared q H N) as [_ HI].
  match goal with |- ?f = _ => destruct f as [[k v]|] eqn:E end.
  - apply find_some in E. destruct E as [E1 E2]. cbn [fst snd] in E2. destruct k as [k|]; [|discriminate]. apply str_eqb_eq in E2. subst v.
    f_equal. f_equal. f_equal. assert (HK : In (Some k) (declared_prefixes r)) by (apply (in_map fst _ _ E1)).
    apply uri_inj; [right; exact HK|right; exact H|]. destruct (prefix_fact k HK) as (_ & NK & _). destruct (get_declared k HK NK) as [G _].
    pose proof (get_decl _ _ E1). congruence.
  - exfalso. pose proof (List.find_none _ _ E _ HI) as F. cbn [fst snd] in F. rewrite str_eqb_refl in F. discriminate.
Qed.
Lemma dump_attr_eq a : In a (rt_attrs r) -> dump_attr (rt_decls r) (rattr a) = attr_text a.
Proof.
  intros H. destruct (attr_fact a H) as (_ & HV & HP). unfold dump_attr, attr_text, rattr. cbn [a_ns a_local a_val].
  rewrite dump_in_ascii by exact HV. destruct (fst (fst a)) as [q|] eqn:E; [|reflexivity].
  assert (D : dump_prefix (rt_decls r) (uri q) = q ++ ":").
  { unfold dump_prefix. destruct HP as [->|HP]; [reflexivity|]. destruct (prefix_fact q HP) as (_ & N & _). destruct (get_declared q HP N) as [_ HI].
    destruct (str_eqb_spec (uri q) xml_uri) as [EX|_]; [exfalso; destruct (decl_fact _ HI) as (_ & HX & _); exact (HX EX)|].
    rewrite find_prefix by exact HP. reflexivity. }
  rewrite D. cbn [with_prefix]. rewrite <- !app_assoc. reflexivity.
Qed.
Lemma dump_attrs_eq : flat_map (dump_attr (rt_decls r)) (map rattr (rt_attrs r)) = flat_map attr_text (rt_attrs r).
Proof.
  assert (E : forall l, (forall a, In a l -> In a (rt_attrs r)) -> flat_map (dump_attr (rt_decls r)) (map rattr l) = flat_map attr_text l).
  { induction l as [|a l IH]; intros HL; [reflexivity|]. cbn [map flat_map]. rewrite dump_attr_eq by (apply HL; left; reflexivity).
    rewrite IH by (intros; apply HL; right; assumption). reflexivity. }
  apply E. auto.
Qed.
Definition root_ns : option nsref := match ns_get (rt_decls r) None with Some d => Some (None, d) | None => None end.
Definition root_node (kids : list node) : node := El root_ns "REQ-IF" (rt_decls r) [] (map rattr (rt_attrs r)) kids.
Lemma extend_r m : extend m [] = m.
Proof. apply app_nil_r. Qed.
Lemma root_dump kids : original_reqif_tag_dump (root_node kids) = root_text r.
Proof.
  unfold original_reqif_tag_dump, root_node. rewrite extend_r, dump_nsdecl_eq, dump_attrs_eq.
  assert (E : dump_name (El root_ns "REQ-IF" (rt_decls r) [] (map rattr (rt_attrs r)) kids) = "REQ-IF").
  { unfold dump_name, root_ns. destruct (ns_get (rt_decls r) None) as [d|] eqn:E; [|reflexivity].
    rewrite extend_r, E, str_eqb_refl. reflexivity. }
  rewrite E. rewrite str_eqb_refl. unfold root_text. reflexivity.
Qed.

(** ** Reading the root *)
Lemma root_resolve kids xs : map_opt (resolve (rt_decls r)) xs = Some kids ->
  resolve [] (XElem "REQ-IF" (map attr_of (root_pattrs r)) xs) = Some (root_node kids).
Proof.
  intros H. cbn [resolve]. rewrite root_decls, extend_r, root_keys, root_allowed. cbn [negb].
  change (qname "REQ-IF") with (Some (@None str, "REQ-IF")).
  assert (E : elem_ns (rt_decls r) None = Some root_ns).
  { unfold elem_ns, root_ns. destruct (ns_get (rt_decls r) None) as [[|c d]|] eqn:E; [|reflexivity|reflexivity]. exfalso.
    apply dict_get_inv in E. destruct (decl_fact _ E) as (HX & _). apply HX. reflexivity. }
  cbv beta iota. rewrite E, root_resolve_attrs, concat_root, root_attr_nodup. cbn [negb].
  change (map_opt (resolve (rt_decls r)) xs) with (map_opt (resolve (rt_decls r)) xs). rewrite H. reflexivity.
Qed.
Variables p u : str.
Definition nons_node (body : frag) : node :=
  El None "REQ-IF" (visible r p (f_use body)) [] (map rattr (rt_attrs r)) (f_n body (visible r p (f_use body))).
Lemma own_refs_root q : ostr_mem q (own_refs None (map rattr (rt_attrs r))) = attr_uses r q.
Proof.
  unfold own_refs, attr_uses. rewrite app_nil_l. induction (rt_attrs r) as [|[[k n] v] l IH]; [reflexivity|].
  cbn [map flat_map existsb fst snd]. rewrite ostr_mem_app, IH. f_equal. unfold rattr. cbn [a_ns fst]. destruct k as [k|]; [|reflexivity].
  cbn. apply orb_false_r.
Qed.
Lemma root_nons body : good p u body -> (f_use body = true -> In (Some p, u) (rt_decls r)) ->
  exists kids, map_opt (resolve (rt_decls r)) (f_x body) = Some kids
    /\ strip_if_namespaced (root_node kids) = Ok (nons_node body).
Proof.
  intros [G1 G2 G3] HU. assert (HD : declared p u body (rt_decls r)) by (intros E; apply get_decl, HU, E).
  unfold strip_if_namespaced, nons_node, visible. destruct (ns_get (rt_decls r) None) as [d|] eqn:E.
  - assert (HI := E). apply dict_get_inv in HI. destruct (decl_fact _ HI) as (K1 & _ & _ & K2). cbn [fst snd] in K1, K2.
    destruct (G3 _ d HD E K1 K2) as (rs & ss & A1 & A2 & A3 & A4). exists rs. split; [exact A1|].
    assert (EX : existsb is_default (rt_decls r) = true) by (apply existsb_exists; exists (None, d); auto).
    rewrite EX. unfold root_node. cbn [node_nsmap]. rewrite extend_r, E. cbn [strip_ns]. unfold root_ns at 1. rewrite E. unfold clark.
    rewrite xhtml_clark by (exact K2 || reflexivity). cbn [negb andb]. rewrite A2. cbn [cleanup].
    f_equal. 
    assert (F : filter (fun d0 : option str * str => ostr_mem (fst d0) (own_refs None (map rattr (rt_attrs r)) ++ flat_map uses ss)) (rt_decls r)
      = filter (fun d0 => attr_uses r (fst d0) || f_use body && ostr_eqb (fst d0) (Some p)) (rt_decls r)).
    { apply filter_ext. intros d0. rewrite ostr_mem_app, own_refs_root, A4. reflexivity. }
    rewrite F, extend_r, A3. reflexivity.
  - exists (f_n body (rt_decls r)). split; [apply G2; assumption|].
    assert (EX : existsb is_default (rt_decls r) = false).
    { destruct (existsb is_default (rt_decls r)) eqn:EE; [|reflexivity]. exfalso. apply existsb_exists in EE.
      destruct EE as ([k v] & HI & HK). unfold is_default in HK. cbn [fst] in HK. destruct k; [discriminate|].
      rewrite (get_decl _ _ HI) in E. discriminate. }
    rewrite EX. unfold root_node. cbn [node_nsmap]. rewrite extend_r, E. unfold root_ns. rewrite E. reflexivity.
Qed.
End Root.

(** ** The tag that is written *)
Lemma join_flat l : l <> [] -> " " ++ join " " l = flat_map (fun c => " " ++ c) l.
Proof.
  induction l as [|x l IH]; intros H; [congruence|]. destruct l as [|y l]; [cbn [join flat_map]; rewrite app_nil_r; reflexivity|].
  change (join " " (x :: y :: l)) with (x ++ " " ++ join " " (y :: l)). rewrite IH by discriminate.
  change (flat_map (fun c => " " ++ c) (x :: y :: l)) with ((" " ++ x) ++ flat_map (fun c => " " ++ c) (y :: l)).
  rewrite <- app_assoc. reflexivity.
Qed.
Lemma component_decl name q v : name = decl_key (q, []) ->
  flat_map (fun c => " " ++ c) (component name v) = flat_map decl_text (SpecDocument.given (fun s => (q, s)) v).
Proof.
  intros ->. destruct v as [s|]; [|reflexivity]. unfold decl_text, decl_key. cbn [component SpecDocument.given flat_map fst snd]. rewrite !app_nil_r, <- app_assoc. reflexivity.
Qed.
Definition raw_attr_text (a : option str * str * str) : str := " " ++ with_prefix (fst (fst a)) (snd (fst a)) ++ "=""" ++ snd a ++ """".
Lemma component_attr q n v :
  flat_map (fun c => " " ++ c) (component (q ++ ":" ++ n) v) = flat_map raw_attr_text (SpecDocument.given (fun s => (Some q, n, s)) v).
Proof.
  destruct v as [s|]; [|reflexivity]. cbn [component SpecDocument.given flat_map]. unfold raw_attr_text. cbn [fst snd with_prefix]. reflexivity.
Qed.
Lemma fields_text i : ni_dump i = None -> rt_decls (root_of_fields i) <> [] \/ rt_attrs (root_of_fields i) <> [] ->
  unparse_namespace_info i = Ok (unescaped_text (root_of_fields i) ++ nl).
Proof.
  intros HD HN. unfold unparse_namespace_info. rewrite HD. cbv zeta.
  match goal with |- match ?l with _ => _ end = _ => remember l as comps eqn:EC end.
  assert (EF : flat_map (fun c => " " ++ c) comps = flat_map decl_text (rt_decls (root_of_fields i)) ++ flat_map raw_attr_text (rt_attrs (root_of_fields i))).
  { subst comps. unfold root_of_fields. cbn [rt_decls rt_attrs]. rewrite !flat_map_app.
    rewrite (component_decl "xmlns" None), (component_decl "xmlns:xsi" (Some "xsi")), (component_decl "xmlns:configuration" (Some "configuration")),
      (component_decl "xmlns:id" (Some "id")), (component_decl "xmlns:xhtml" (Some "xhtml")) by reflexivity.
    change "xsi:schemaLocation" with ("xsi" ++ ":" ++ "schemaLocation"). change "xml:lang" with ("xml" ++ ":" ++ "lang").
    rewrite !component_attr, <- !app_assoc. reflexivity. }
  assert (HC : comps <> []).
  { intros E. rewrite E in EF. cbn [flat_map] in EF. symmetry in EF. apply app_eq_nil in EF. destruct EF as [E1 E2].
    destruct HN as [HN|HN].
    - destruct (rt_decls (root_of_fields i)) as [|d l]; [congruence|]. discriminate.
    - destruct (rt_attrs (root_of_fields i)) as [|d l]; [congruence|]. discriminate. }
  destruct comps as [|x l]; [congruence|]. f_equal. unfold unescaped_text. change (fun a => " " ++ _) with raw_attr_text.
  rewrite (app_assoc (flat_map decl_text _)), <- EF, <- join_flat by exact HC.
  change ("<REQ-IF ") with ("<REQ-IF" ++ " "). rewrite <- !app_assoc. reflexivity.
Qed.
Lemma unescaped_root_text r : Forall (fun a => root_value (snd a)) (rt_attrs r) -> unescaped_text r = root_text r.
Proof.
  intros H. unfold unescaped_text, root_text. do 2 f_equal. f_equal. induction H as [|a l H _ IH]; [reflexivity|]. cbn [flat_map]. rewrite IH. f_equal.
  unfold attr_text. rewrite root_value_ascii by exact H. reflexivity.
Qed.
Lemma writes_root_text i r : writes_root i r -> unparse_namespace_info i = Ok (root_text r ++ nl).
Proof.
  unfold writes_root. destruct (ni_dump i) as [d|] eqn:ED.
  - unfold unparse_namespace_info. rewrite ED. intros ->. reflexivity.
  - intros (-> & HN & HV). rewrite fields_text by assumption. rewrite unescaped_root_text by exact HV. reflexivity.
Qed.

(** ** Reading the whole text *)
Definition xml_decl : str := "xml version=""1.0"" encoding=""UTF-8""".
Lemma read_document r body : root_ok r -> reads (f_str body) (f_x body) ->
  etree_parse (("<?xml version=""1.0"" encoding=""UTF-8""?>" ++ nl) ++ root_text r ++ f_str body ++ "</REQ-IF>" ++ nl)
  = Some (XDoc (Some xml_decl) (XElem "REQ-IF" (map attr_of (root_pattrs r)) (f_x body))).
Proof.
  intros HR HB. assert (E : read_text (("<?xml version=""1.0"" encoding=""UTF-8""?>" ++ nl) ++ root_text r ++ f_str body ++ "</REQ-IF>" ++ nl)
    = Some (XDoc (Some xml_decl) (XElem "REQ-IF" (map attr_of (root_pattrs r)) (f_x body)))).
  { unfold read_text. 
    assert (SB : forall s, skip_bom (("<?xml version=""1.0"" encoding=""UTF-8""?>" ++ nl) ++ s) = ("<?xml version=""1.0"" encoding=""UTF-8""?>" ++ nl) ++ s) by reflexivity.
    rewrite SB, run_app.
    assert (R : run init ("<?xml version=""1.0"" encoding=""UTF-8""?>" ++ nl) = Conf false [] [XChar 10; XPI xml_decl] (MText 0)) by (vm_compute; reflexivity).
    rewrite R, root_text_eq.
    assert (T : ("<REQ-IF" ++ render_attrs (root_pattrs r) ++ ">") ++ f_str body ++ "</REQ-IF>" ++ nl
      = ("<" ++ "REQ-IF" ++ render_attrs (root_pattrs r) ++ ">" ++ f_str body ++ "</" ++ "REQ-IF" ++ ">") ++ nl) by (rewrite <- !app_assoc; reflexivity).
    rewrite T, run_app, (run_elem "REQ-IF" (root_pattrs r) (f_str body) (f_x body)); [|reflexivity|apply root_wf, HR|apply reads_reads0, HB].
    reflexivity. }
  unfold etree_parse. rewrite E. reflexivity.
Qed.

Lemma tag_is_other t t' n : tag_is t n = true -> str_eqb t t' = false -> tag_is t' n = false.
Proof.
  unfold tag_is. destruct (tag n) as [x|]; [|discriminate]. intros H E. apply str_eqb_eq in H. subst x. exact E.
Qed.
Lemma tagged_of t n : tag_is t n = true -> tagged t (Some n).
Proof. intros H k E. injection E as <-. split; [exact H|]. intros t'. apply tag_is_other, H. Qed.
Lemma tagged_none t : tagged t None.
Proof. intros n E. discriminate. Qed.
Lemma nsmap_get_visible r p use u : contains xhtml_uri u = true -> root_ok r -> ~ In (None, u) (visible r p use).
Proof.
  intros HU HR HI. unfold visible in HI. assert (HD : In (None, u) (rt_decls r)).
  { destruct (existsb is_default (rt_decls r)); [apply filter_In in HI; tauto|exact HI]. }
  destruct (decl_fact r HR _ HD) as (_ & _ & _ & H). change (contains xhtml_uri u = false) in H. congruence.
Qed.

Section Document.
Variables (r : root_tag) (p u : str) (strip_ : str -> str) (b : bundle).
Hypothesis HS : strips p strip_.
Hypothesis HP : printable_bundle r p u b.
Let M := visible r p (uses_markup b).

Lemma header_part : exists f, good p u f /\ f_use f = false
  /\ match b_header b with None => Ok [] | Some h => unparse_header h end = Ok (f_str f)
  /\ exists on, elements (f_n f M) = olist on /\ tagged "THE-HEADER" on
     /\ match on with None => Ok None | Some h => let! x := parse_header h in Ok (Some x) end
        = Ok (option_map normal_header (b_header b))
     /\ match option_map normal_header (b_header b) with None => Ok [] | Some h => unparse_header h end = Ok (f_str f)
     /\ (b_header b <> None -> on <> None).
Proof.
  destruct HP as (_ & _ & _ & _ & _ & _ & HH & _). destruct (b_header b) as [h|].
  - destruct (rt_header p u (fun m => m = M) h (HH h eq_refl)) as (f & F1 & F2 & F3 & F4). exists f.
    split; [exact F1|]. split; [exact F3|]. split; [exact F2|]. destruct (F4 M eq_refl) as (n & h' & A1 & A2 & A3 & A4).
    exists (Some n). subst h'. split; [exact A1|]. split; [|split; [|split]].
    + apply tagged_of. unfold parse_header in A2. destruct (tag_is "THE-HEADER" n); [reflexivity|discriminate].
    + rewrite A2. reflexivity.
    + cbn [option_map]. rewrite A4. exact F2.
    + discriminate.
  - exists fnil. split; [apply good_nil|]. split; [reflexivity|]. split; [reflexivity|]. exists None.
    split; [reflexivity|]. split; [apply tagged_none|]. split; [reflexivity|]. split; [reflexivity|congruence].
Qed.
Definition core_text (oc : option (option content)) : result str :=
  match oc with
  | None => Ok []
  | Some oc =>
      let! s := match oc with None => Ok [] | Some c => pure_unparse_content c end in
      Ok (("  <CORE-CONTENT>" ++ nl) ++ s ++ "  </CORE-CONTENT>" ++ nl)
  end.
Lemma core_part : exists f, good p u f /\ f_use f = uses_markup b
  /\ core_text (b_core_content b) = Ok (f_str f)
  /\ exists on core lk, elements (f_n f M) = olist on /\ tagged "CORE-CONTENT" on
     /\ match on with
        | None => Ok (None, lookup_empty, [])
        | Some c => match find_child "REQ-IF-CONTENT" c with
                    | None => Ok (Some None, lookup_empty, [])
                    | Some rc => let! (ct, lk, exns) := pure_content rc in Ok (Some (Some ct), lk, exns)
                    end
        end = Ok (core, lk, [])
     /\ option_map (option_map erase_content) core = option_map (option_map (normal_content strip_)) (b_core_content b)
     /\ core_text core = core_text (b_core_content b)
     /\ (b_core_content b <> None -> on <> None).
Proof.
  pose proof HP as HP0. destruct HP0 as (HR & _ & P1 & P2 & P3 & P4 & _ & HC & _). fold M in HC. unfold uses_markup, bundle_xhtml in *.
  destruct (b_core_content b) as [[c|]|].
  - assert (MD : ~ In (None, u) M) by (apply nsmap_get_visible; assumption).
    destruct (rt_content p u (fun m => m = M) (xhtml_value M p u) (xhtml_default M p u) strip_
      (DX_xhtml p u M P1 P2 P3 MD) (VX_xhtml p u M strip_ P1 P2 P3 MD HS) c (HC c eq_refl)) as (f & F1 & F2 & F3 & F4).
    exists (fws "  " +++ fel "CORE-CONTENT" [] (fws nl +++ f +++ fws "  ") +++ fws nl). split; [|split; [|split]].
    + repeat (first [assumption|apply good_app|apply good_ws; reflexivity|apply good_el; [reflexivity|split; [reflexivity|constructor]|]]).
    + cbn [fapp fel fws ftxt f_use orb]. rewrite !orb_false_r. exact F3.
    + cbn [core_text]. rewrite F2. cbn [bind]. f_equal. cbn [fapp fel fws ftxt f_str]. change (render_attrs []) with (@nil N). rewrite app_nil_l. strs.
    + destruct (F4 M eq_refl) as (n & c' & lk & A1 & A2 & A3 & A4 & A5).
      set (k := el "CORE-CONTENT" [] (fws nl +++ f +++ fws "  ") M).
      assert (EK : children k = [n]).
      { unfold k. rewrite children_el. cbn [fapp fws ftxt f_n]. rewrite !elements_app, !elements_chr, A1. reflexivity. }
      exists (Some k), (Some (Some c')), lk. split; [|split; [|split; [|split; [|split]]]].
      * cbn [fapp fel fws ftxt f_n]. rewrite !elements_app, !elements_chr, elements_el. reflexivity.
      * apply tagged_of. reflexivity.
      * rewrite find_child_elements, EK. unfold find_list. cbn [find]. rewrite A2, A3. reflexivity.
      * cbn [option_map]. rewrite A4. reflexivity.
      * cbn [core_text]. rewrite A5. reflexivity.
      * discriminate.
  - exists (fws "  " +++ fel "CORE-CONTENT" [] (fws (nl ++ "  ")) +++ fws nl). split; [|split; [|split]].
    + repeat (first [assumption|apply good_app|apply good_ws; reflexivity|apply good_el; [reflexivity|split; [reflexivity|constructor]|]]).
    + reflexivity.
    + reflexivity.
    + exists (Some (el "CORE-CONTENT" [] (fws (nl ++ "  ")) M)), (Some None), lookup_empty. split; [reflexivity|]. split; [apply tagged_of; reflexivity|].
      split; [reflexivity|]. split; [reflexivity|]. split; [reflexivity|discriminate].
  - exists fnil. split; [apply good_nil|]. split; [reflexivity|]. split; [reflexivity|]. exists None, None, lookup_empty.
    split; [reflexivity|]. split; [apply tagged_none|]. split; [reflexivity|]. split; [reflexivity|]. split; [reflexivity|congruence].
Qed.
Lemma tool_part : exists f, good p u f /\ f_use f = false
  /\ f_str f = (if b_tool_extensions b then "  <TOOL-EXTENSIONS>" ++ nl ++ "  </TOOL-EXTENSIONS>" ++ nl else [])
  /\ exists on, elements (f_n f M) = olist on /\ tagged "TOOL-EXTENSIONS" on
     /\ match on with Some _ => true | None => false end = b_tool_extensions b.
Proof.
  destruct (b_tool_extensions b).
  - exists (fws "  " +++ fel "TOOL-EXTENSIONS" [] (fws (nl ++ "  ")) +++ fws nl). split; [|split; [|split]].
    + repeat (first [assumption|apply good_app|apply good_ws; reflexivity|apply good_el; [reflexivity|split; [reflexivity|constructor]|]]).
    + reflexivity.
    + reflexivity.
    + exists (Some (el "TOOL-EXTENSIONS" [] (fws (nl ++ "  ")) M)). split; [reflexivity|]. split; [apply tagged_of; reflexivity|reflexivity].
  - exists fnil. split; [apply good_nil|]. split; [reflexivity|]. split; [reflexivity|]. exists None. split; [reflexivity|]. split; [apply tagged_none|reflexivity].
Qed.

Lemma info_ok root_kids nons_kids M' :
  root_ok r ->
  namespace_info_of (Some xml_decl) (root_node r root_kids)
    (El None "REQ-IF" M' [] (map (rattr r) (rt_attrs r)) nons_kids) = info_of r.
Proof.
  intros HR. unfold namespace_info_of, info_of. rewrite root_dump by exact HR.
  change (decl_encoding (Some xml_decl)) with (Some "UTF-8").
  assert (EM : node_nsmap (root_node r root_kids) = rt_decls r) by apply extend_r. rewrite EM. unfold uri_of.
  change (ns_get (rt_decls r)) with (dict_get (rt_decls r)).
  f_equal.
  - destruct (dict_get (rt_decls r) (Some "xsi")) as [w|] eqn:E; [|reflexivity].
    destruct w as [|c w]; [exfalso; apply dict_get_inv in E; destruct (decl_fact r HR _ E) as (H & _); apply H; reflexivity|].
    assert (EU : uri r "xsi" = c :: w) by (unfold uri, ns_get; rewrite E; reflexivity).
    rewrite <- EU. unfold attr_opt. cbn [attrib]. apply root_assoc; [exact HR| |reflexivity].
    right. apply dict_get_inv in E. apply (in_map fst _ _ E).
  - unfold attr_opt. cbn [attrib]. change xml_uri with (uri r "xml"). apply root_assoc; [exact HR|left; reflexivity|reflexivity].
Qed.

Theorem document_round_trip_scope : exists s b', unparse_string b = Ok s /\ parse_string s = Ok b'
  /\ reads_back_as strip_ r b b' /\ unparse_string b' = Ok s
  /\ exists root, document_root s = Some root /\ node_nsmap root = M.
Proof.
  destruct header_part as (fh & H1 & H2 & H3 & nh & H4 & H5 & H6 & H7 & H8).
  destruct core_part as (fc & C1 & C2 & C3 & nc & core & lk & C4 & C5 & C6 & C7 & C8 & C9).
  destruct tool_part as (ft & T1 & T2 & T3 & nt & T4 & T5 & T6).
  pose proof HP as HP0. destruct HP0 as (HR & HW & P1 & P2 & P3 & P4 & _ & _ & HNE).
  set (body := fws nl +++ fh +++ fc +++ ft).
  assert (GB : good p u body) by (repeat (first [assumption|apply good_app|apply good_ws; reflexivity])).
  assert (UB : f_use body = uses_markup b).
  { unfold body. cbn [fapp fws ftxt f_use orb]. rewrite H2, C2, T2. cbn [orb]. apply orb_false_r. }
  set (s := ("<?xml version=""1.0"" encoding=""UTF-8""?>" ++ nl) ++ root_text r ++ f_str body ++ "</REQ-IF>" ++ nl).
  destruct (root_nons r HR p u body GB) as (kids & K1 & K2); [rewrite UB; exact P4|].
  assert (EP : lxml_parse s = Some (Some xml_decl, root_node r kids)).
  { unfold lxml_parse. unfold s. rewrite read_document; [|exact HR|apply GB]. cbn [d_root d_decl]. rewrite (root_resolve r HR kids); [reflexivity|exact K1]. }
  assert (EM : nons_node r p body = El None "REQ-IF" M [] (map (rattr r) (rt_attrs r)) (f_n body M)) by (unfold nons_node; rewrite UB; reflexivity).
  assert (EC : children (nons_node r p body) = olist nh ++ olist nc ++ olist nt).
  { rewrite EM. unfold children. cbn [kids_of]. fold (elements (f_n body M)). unfold body. cbn [fapp fws ftxt f_n].
    rewrite !elements_app, elements_chr, H4, C4, T4. reflexivity. }
  assert (EB : parse_string s = Ok (Bundle (info_of r) (option_map normal_header (b_header b)) core (b_tool_extensions b) lk [])).
  { rewrite (proj2 (string_traced s)). unfold pure_string. rewrite EP.
    assert (ES : exists c0 s0, s = c0 :: s0) by (unfold s; eexists; eexists; reflexivity). destruct ES as (c0 & s0 & ->).
    unfold pure_reqif. rewrite K2. cbn [bind]. change (tag_is "REQ-IF" (nons_node r p body)) with true. cbn [negb].
    assert (F : forall t, find_child t (nons_node r p body) = match find_list t (olist nh) with Some x => Some x | None =>
       match find_list t (olist nc) with Some x => Some x | None => find_list t (olist nt) end end).
    { intros t. rewrite find_child_elements, EC, !find_list_app. reflexivity. }
    assert (F1 : find_child "THE-HEADER" (nons_node r p body) = nh).
    { rewrite F, (find_same _ _ H5), (find_other _ _ _ C5), (find_other _ _ _ T5) by reflexivity. destruct nh; reflexivity. }
    assert (F2 : find_child "CORE-CONTENT" (nons_node r p body) = nc).
    { rewrite F, (find_other _ _ _ H5), (find_same _ _ C5), (find_other _ _ _ T5) by reflexivity. destruct nc; reflexivity. }
    assert (F3 : find_child "TOOL-EXTENSIONS" (nons_node r p body) = nt).
    { rewrite F, (find_other _ _ _ H5), (find_other _ _ _ C5), (find_same _ _ T5) by reflexivity. reflexivity. }
    assert (EN : exists k l, children (nons_node r p body) = k :: l).
    { rewrite EC. destruct nh as [k|]; [eexists; eexists; reflexivity|]. destruct nc as [k|]; [eexists; eexists; reflexivity|].
      destruct nt as [k|]; [eexists; eexists; reflexivity|]. exfalso. destruct HNE as [HE|[HE|HE]]; [apply H8 in HE|apply C9 in HE|]; congruence. }
    destruct EN as (k & l & EN). rewrite EN. rewrite F1, F2, F3, H6. cbn [bind]. rewrite C6. cbn [bind]. rewrite T6.
    rewrite EM, info_ok by exact HR. reflexivity. }
  exists s. eexists. split; [|split; [exact EB|split; [|split]]].
  - rewrite (proj2 (unparse_traced b)). unfold pure_unparse. rewrite (writes_root_text _ _ HW). cbn [bind]. rewrite H3. cbn [bind].
    change (match b_core_content b with
      | Some oc => let! s0 := match oc with Some c => pure_unparse_content c | None => Ok [] end in
          Ok (("  <CORE-CONTENT>" ++ nl) ++ s0 ++ "  </CORE-CONTENT>" ++ nl) | None => Ok [] end) with (core_text (b_core_content b)).
    rewrite C3. cbn [bind]. f_equal. unfold s, body. cbn [fapp fws ftxt f_str]. rewrite T3. strs.
  - unfold reads_back_as. cbn [b_namespace_info b_header b_core_content b_tool_extensions b_exceptions]. repeat split. exact C7.
  - rewrite (proj2 (unparse_traced _)). unfold pure_unparse. cbn [b_namespace_info b_header b_core_content b_tool_extensions].
    unfold unparse_namespace_info, info_of. cbn [ni_dump bind]. rewrite H7. cbn [bind].
    change (match core with
      | Some oc => let! s0 := match oc with Some c => pure_unparse_content c | None => Ok [] end in
          Ok (("  <CORE-CONTENT>" ++ nl) ++ s0 ++ "  </CORE-CONTENT>" ++ nl) | None => Ok [] end) with (core_text core).
    rewrite C8, C3. cbn [bind]. f_equal. unfold s, body. cbn [fapp fws ftxt f_str]. rewrite T3. strs.
  - exists (nons_node r p body). unfold document_root. rewrite EP, K2. change (tag_is "REQ-IF" (nons_node r p body)) with true. split; [reflexivity|].
    rewrite EM. cbn [node_nsmap]. unfold extend. cbn [filter]. apply app_nil_r.
Qed.
Theorem document_round_trip : exists s b', unparse_string b = Ok s /\ parse_string s = Ok b'
  /\ reads_back_as strip_ r b b' /\ unparse_string b' = Ok s.
Proof. destruct document_round_trip_scope as (s & b' & H1 & H2 & H3 & H4 & _). eauto 7. Qed.
End Document.
