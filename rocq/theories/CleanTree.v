(** CleanTree.v -- the texts of a parsed bundle consist of XML characters *)
From Verif Require Import Base Xml Utf8 Lxml Py LxmlStr Models AttrDef DataType Header AttrValue SpecObj Hierarchy SpecTypes
  Progress Parser Unparser Serialise SpecXml SpecInteger SpecParse SpecLookup SpecProgress SpecTexts DictProofs ParserProofs ProgressProofs
  GrammarProofs GrammarDoc XmlChars SerialiseProofs CleanProofs NamespaceProofs.

Definition ns_xc (ns : option nsref) : Prop := match ns with Some (p, u) => oxc p /\ xc u | None => True end.
Definition def_xc (d : nsref) : Prop := oxc (fst d) /\ xc (snd d).
Definition attr_xc (x : attr) : Prop := ns_xc (a_ns x) /\ xc (a_local x) /\ xc (a_val x).
Inductive nok : node -> Prop :=
| nok_chr c : char c -> nok (Chr c)
| nok_cmt s : xc s -> nok (Cmt s)
| nok_pin s : xc s -> nok (Pin s)
| nok_el ns l defs inh attrs kids :
    ns_xc ns -> xc l -> Forall def_xc defs -> Forall def_xc inh -> Forall attr_xc attrs -> Forall nok kids ->
    nok (El ns l defs inh attrs kids).

(** ** Parsed trees *)
Lemma split_colon_xc s : xc s -> xc (fst (split_colon s)) /\ oxc (snd (split_colon s)).
Proof.
  induction 1 as [|c s HC HS [IH1 IH2]]; [split; [constructor|exact I]|]. cbn [split_colon]. destruct (N.eqb c 58).
  - split; [constructor|exact HS].
  - destruct (split_colon s) as [a b]. cbn [fst snd] in *. split; [constructor; assumption|exact IH2].
Qed.
Lemma qname_xc s p l : xc s -> qname s = Some (p, l) -> oxc p /\ xc l.
Proof.
  intros HS. apply split_colon_xc in HS. unfold qname. destruct (split_colon s) as [a [b|]]; cbn [fst snd] in HS; destruct HS as [H1 H2].
  - destruct a as [|x a]; [discriminate|]. destruct b as [|y b]; [discriminate|]. destruct (_ || _); [discriminate|].
    intros H. assert (Some (x :: a) = p) by congruence. assert (y :: b = l) by congruence. subst. split; assumption.
  - destruct a as [|x a]; [discriminate|]. intros H. assert (None = p) by congruence. assert (x :: a = l) by congruence. subst. split; [exact I|assumption].
Qed.
Lemma decl_of_xc s p : xc s -> decl_of s = Some p -> oxc p.
Proof.
  intros HS. unfold decl_of. destruct (str_eqb s _); [intros H; assert (E : p = None) by congruence; rewrite E; exact I|].
  apply split_colon_xc in HS. destruct (split_colon s) as [a [b|]]; [|discriminate]. cbn [fst snd] in HS. destruct (str_eqb a _); [|discriminate].
  intros H. assert (E : p = Some b) by congruence. rewrite E. apply HS.
Qed.
Lemma extend_xc d i : Forall def_xc d -> Forall def_xc i -> Forall def_xc (extend d i).
Proof.
  intros H1 H2. unfold extend. apply Forall_app. split; [exact H1|]. rewrite Forall_forall in *. intros x HX. apply filter_In in HX. apply H2, HX.
Qed.
Lemma decls_xc a : Forall (fun kv => name (fst kv) /\ Forall char (snd kv)) a -> Forall def_xc (decls a).
Proof.
  induction 1 as [|[k v] a [H1 H2] HA IH]; [constructor|]. unfold decls. cbn [flat_map fst snd] in *. apply Forall_app. split; [|exact IH].
  destruct (decl_of k) as [p|] eqn:E; [|constructor]. constructor; [|constructor]. split; [|exact H2]. apply (decl_of_xc k); [apply name_chars, H1|exact E].
Qed.
Lemma ns_get_xc m p u : Forall def_xc m -> ns_get m p = Some u -> xc u.
Proof.
  unfold ns_get. induction 1 as [|[k v] m HD _ IH]; [discriminate|]. cbn [dict_get]. destruct (ostr_eqb p k); [|exact IH].
  intros H. assert (E : v = u) by congruence. rewrite <- E. apply HD.
Qed.
Lemma ns_get_oxc m p : Forall def_xc m -> oxc (ns_get m p).
Proof. intros H. destruct (ns_get m p) as [u|] eqn:E; [apply (ns_get_xc _ _ _ H E)|exact I]. Qed.
Lemma elem_ns_xc m p ns : Forall def_xc m -> oxc p -> elem_ns m p = Some ns -> ns_xc ns.
Proof.
  intros HM HP. unfold elem_ns. intros H. destruct p as [x|].
  - destruct (str_eqb x "xml").
    + assert (E : ns = Some (Some x, xml_uri)) by congruence. rewrite E. split; [exact HP|]. apply xc_lit. vm_compute. reflexivity.
    + destruct (ns_get m (Some x)) as [u|] eqn:E; [|discriminate]. assert (E1 : ns = Some (Some x, u)) by congruence. rewrite E1.
      split; [exact HP|apply (ns_get_xc _ _ _ HM E)].
  - destruct (ns_get m None) as [[|c u]|] eqn:E.
    + assert (E1 : ns = None) by congruence. rewrite E1. exact I.
    + assert (E1 : ns = Some (None, c :: u)) by congruence. rewrite E1. split; [exact I|apply (ns_get_xc _ _ _ HM E)].
    + assert (E1 : ns = None) by congruence. rewrite E1. exact I.
Qed.
Lemma attrs_xc m a : Forall def_xc m -> Forall (fun kv => name (fst kv) /\ Forall char (snd kv)) a -> forall aa,
  map_opt (resolve_attr m) a = Some aa -> Forall attr_xc (concat aa).
Proof.
  intros HM. induction 1 as [|kv a [H1 H2] HA IH]; intros aa H; [injection H as <-; constructor|].
  change (map_opt (resolve_attr m) (kv :: a)) with (match resolve_attr m kv with Some z => match map_opt (resolve_attr m) a with Some zs => Some (z :: zs) | None => None end | None => None end) in H.
  destruct (resolve_attr m kv) as [z|] eqn:EZ; [|discriminate]. destruct (map_opt (resolve_attr m) a) as [zs|] eqn:ES; [|discriminate]. injection H as <-.
  cbn [concat]. apply Forall_app. split; [|apply IH; reflexivity]. unfold resolve_attr in EZ. destruct (decl_of (fst kv)); [injection EZ as <-; constructor|].
  destruct (qname (fst kv)) as [[p l]|] eqn:EQ; [|discriminate]. destruct (attr_ns m p) as [n|] eqn:EN; [|discriminate]. injection EZ as <-.
  destruct (qname_xc _ _ _ (name_chars _ H1) EQ) as [Q1 Q2]. constructor; [|constructor]. split; [|split; [exact Q2|exact H2]]. cbn [a_ns].
  unfold attr_ns in EN. destruct p as [p|]; [apply (elem_ns_xc _ _ _ HM Q1 EN)|]. injection EN as <-. exact I.
Qed.
Lemma resolve_nok : forall x env n, xsound x -> Forall def_xc env -> resolve env x = Some n -> nok n.
Proof.
  fix REC 1. intros x env n HS HE H. destruct x as [c|nm attrs kids|s|s].
  1: injection H as <-; inversion HS; subst; constructor; assumption.
  2: injection H as <-; inversion HS as [|? C| |]; subst; constructor; apply C.
  2: injection H as <-; inversion HS as [| |? C|]; subst; constructor; apply C.
  inversion HS as [| | |? ? ? HN HA HK]; subst. clear HS.
  cbn [resolve] in H. destruct (nodupb (map fst attrs)) eqn:ND; [|discriminate]. cbn [negb] in H.
  destruct (forallb decl_allowed attrs) eqn:AL; [|discriminate]. cbn [negb] in H.
  destruct (qname nm) as [[p l]|] eqn:EQ; [|discriminate]. destruct (elem_ns (extend (decls attrs) env) p) as [ns|] eqn:EN; [|discriminate].
  destruct (map_opt (resolve_attr (extend (decls attrs) env)) attrs) as [aa|] eqn:EA; [|discriminate].
  destruct (nodupb (map a_key (concat aa))) eqn:NK; [|discriminate]. cbn [negb] in H.
  destruct (map_opt (resolve (extend (decls attrs) env)) kids) as [ks|] eqn:EK; [|discriminate]. injection H as <-.
  pose proof (decls_xc _ HA) as HD. pose proof (extend_xc _ _ HD HE) as HM. destruct (qname_xc _ _ _ (name_chars _ HN) EQ) as [Q1 Q2].
  constructor; [apply (elem_ns_xc _ _ _ HM Q1 EN)|exact Q2|exact HD|exact HE|apply (attrs_xc _ _ HM HA _ EA)|].
  clear -REC EK HK HM. revert ks EK. induction kids as [|k kids IH]; intros ks EK; [injection EK as <-; constructor|].
    change (map_opt (resolve (extend (decls attrs) env)) (k :: kids)) with
      (match resolve (extend (decls attrs) env) k with Some y => match map_opt (resolve (extend (decls attrs) env)) kids with Some ys => Some (y :: ys) | None => None end | None => None end) in EK.
    destruct (resolve (extend (decls attrs) env) k) as [y|] eqn:E1; [|discriminate].
    destruct (map_opt (resolve (extend (decls attrs) env)) kids) as [ys|] eqn:E2; [|discriminate]. injection EK as <-.
    inversion HK as [|? ? HK1 HK2]; subst. constructor; [apply (REC k _ _ HK1 HM E1)|apply IH; [exact HK2|reflexivity]].
Qed.
Lemma strip_nok full : forall n m, nok n -> strip_ns full n = Some m -> nok m.
Proof.
  induction n as [c|s|s|ns l d i a ks IH] using node_ind'; intros m HN H; cbn [strip_ns] in H.
  1,2: injection H as <-; exact HN.
  - discriminate.
  - inversion HN as [| | |? ? ? ? ? ? H1 H2 H3 H4 H5 H6]; subst. destruct (map_opt (strip_ns full) ks) as [ks'|] eqn:E; [|discriminate]. injection H as <-.
    constructor; try assumption; [destruct (_ && _); [exact H1|exact I]|].
    clear -IH H6 E. revert ks' E. induction ks as [|k ks IHk]; intros ks' E; [injection E as <-; constructor|].
    change (map_opt (strip_ns full) (k :: ks)) with (match strip_ns full k with Some z => match map_opt (strip_ns full) ks with Some zs => Some (z :: zs) | None => None end | None => None end) in E.
    destruct (strip_ns full k) as [z|] eqn:E1; [|discriminate]. destruct (map_opt (strip_ns full) ks) as [zs|] eqn:E2; [|discriminate]. injection E as <-.
    inversion IH; subst. inversion H6; subst. constructor; [auto|apply IHk; auto].
Qed.
Lemma cleanup_nok : forall n inh, nok n -> Forall def_xc inh -> nok (cleanup inh n).
Proof.
  induction n as [c|s|s|ns l d i a ks IH] using node_ind'; intros inh HN HI; try exact HN.
  inversion HN as [| | |? ? ? ? ? ? H1 H2 H3 H4 H5 H6]; subst. cbn [cleanup]. cbv zeta. match goal with |- context [filter ?f d] => set (d' := filter f d) end.
  assert (HD : Forall def_xc d') by (rewrite Forall_forall in *; intros x HX; apply filter_In in HX; apply H3, HX).
  constructor; try assumption. apply Forall_forall. intros k HK. apply in_map_iff in HK. destruct HK as (k0 & <- & HK).
  rewrite Forall_forall in IH, H6. apply IH; [exact HK|apply H6, HK|apply extend_xc; assumption].
Qed.
Lemma root_nok s decl root : lxml_parse s = Some (decl, root) -> nok root.
Proof.
  unfold lxml_parse. destruct (etree_parse s) as [d|] eqn:E; [|discriminate]. destruct (resolve [] (d_root d)) as [r|] eqn:ER; [|discriminate].
  intros H. injection H as <- <-. pose proof (etree_parse_text _ _ E) as ET. apply (resolve_nok _ _ _ (read_root_sound _ _ ET)) in ER; [exact ER|constructor].
Qed.
Lemma bare_nok root r : nok root -> strip_if_namespaced root = Ok r -> nok r.
Proof.
  intros HN. unfold strip_if_namespaced. destruct (ns_get _ None); [|intros H; injection H as <-; exact HN].
  destruct (strip_ns false root) as [x|] eqn:E; [|discriminate]. intros H. injection H as <-. apply cleanup_nok; [apply (strip_nok _ _ _ HN E)|constructor].
Qed.

(** ** Accessors *)
Lemma kids_nok n : nok n -> Forall nok (kids_of n).
Proof. destruct 1; try constructor. cbn [kids_of]. assumption. Qed.
Lemma children_nok n : nok n -> Forall nok (children n).
Proof. intros H. apply kids_nok in H. unfold children. rewrite Forall_forall in *. intros k HK. apply filter_In in HK. apply H, HK. Qed.
Lemma find_list_nok t l n : Forall nok l -> find_list t l = Some n -> nok n.
Proof. intros H E. unfold find_list in E. apply find_some in E. rewrite Forall_forall in H. apply H, E. Qed.
Lemma find_child_nok t n k : nok n -> find_child t n = Some k -> nok k.
Proof. intros H. apply find_list_nok, kids_nok, H. Qed.
Lemma path_nok p : forall n k, nok n -> path_node p n = Some k -> nok k.
Proof.
  induction p as [|t p IH]; intros n k HN H; cbn [path_node] in H; [injection H as <-; exact HN|].
  destruct (find_child t n) as [x|] eqn:E; [|discriminate]. apply (IH x); [apply (find_child_nok _ _ _ HN E)|exact H].
Qed.
Lemma lead_xc l : Forall nok l -> xc (lead l).
Proof. induction 1 as [|k l HK HL IH]; [constructor|]. destruct HK; cbn [lead]; try constructor; assumption. Qed.
Lemma text_xc n : nok n -> oxc (text n).
Proof.
  destruct 1 as [| | |ns l d i a ks H1 H2 H3 H4 H5 H6]; cbn [text opt_text_is]; try exact I; try assumption.
  apply lead_xc in H6. unfold opt_text. destruct (lead ks); [exact I|exact H6].
Qed.
Lemma path_text_xc p n : nok n -> oxc (path_text p n).
Proof. intros H. unfold path_text. destruct (path_node p n) as [k|] eqn:E; [apply text_xc, (path_nok _ _ _ H E)|exact I]. Qed.
Lemma attr_xc_ k n : nok n -> oxc (attr_opt k n).
Proof.
  destruct 1 as [| | |ns l d i a ks H1 H2 H3 H4 H5 H6]; try exact I. unfold attr_opt. cbn [attrib].
  induction H5 as [|x a HX _ IH]; [exact I|]. cbn [map assoc]. destruct (str_eqb k (a_key x)); [apply HX|exact IH].
Qed.
Lemma section_nok t n ks : nok n -> section_items t n = Some ks -> Forall nok ks.
Proof.
  intros H. unfold section_items. destruct (find_child t n) as [x|] eqn:E; [|discriminate]. cbn [option_map]. intros E2. injection E2 as <-.
  apply children_nok, (find_child_nok _ _ _ H E).
Qed.
Lemma nsmap_xc n : nok n -> Forall def_xc (node_nsmap n).
Proof. destruct 1; try constructor. cbn [node_nsmap]. apply extend_xc; assumption. Qed.

(** ** XHTML text *)
Lemma clark_xc ns l : ns_xc ns -> xc l -> xc (clark ns l).
Proof. intros H1 H2. destruct ns as [[p u]|]; cbn [clark]; [|exact H2]. destruct H1. xa. Qed.
Lemma print_attrs_xc n : nok n -> xc (print_attrs n).
Proof.
  intros H. unfold print_attrs. apply xc_flat_map. destruct H as [| | |ns l d i a ks H1 H2 H3 H4 H5 H6]; try constructor. cbn [attrib].
  apply Forall_forall. intros kv HK. apply in_map_iff in HK. destruct HK as (x & <- & HX). cbn [fst snd].
  rewrite Forall_forall in H5. destruct (H5 x HX) as (A1 & A2 & A3). unfold a_key. xa. apply clark_xc; assumption.
Qed.
Lemma chr_xc c : char c -> xc (lxml_escape_for_html [c]).
Proof. intros H. apply xc_html_lxml. constructor; [exact H|constructor]. Qed.
Lemma ns_node_xc key forced : oxc key -> forall n s, nok n -> stringify_ns_node key forced n = Ok s -> xc s.
Proof.
  intros HK. induction n as [c|s0|s0|ns l d i a ks IH] using node_ind'; intros s HN H; try discriminate H.
  pose proof (print_attrs_xc _ HN) as HP. inversion HN as [| | |? ? ? ? ? ? H1 H2 H3 H4 H5 H6]; subst.
  cbn [stringify_ns_node] in H. cbv zeta in H.
  set (own := match ns with Some (_, u) => _ | None => false end) in H.
  set (tag_ := if own then l else _) in H.
  assert (HT : xc tag_).
  { unfold tag_. destruct own; [exact H2|]. destruct (_ || _); [xa|apply clark_xc; assumption]. }
  set (head := "<" ++ _) in H.
  assert (HH : xc head).
  { unfold head. xa. destruct own; xa. apply ns_get_oxc, extend_xc; assumption. }
  destruct (needs_close _ ks); [|apply Ok_inj in H; subst s; xa].
  match type of H with bind ?g _ = _ => destruct g as [inner|] eqn:E; [|discriminate] end. cbn [bind] in H. apply Ok_inj in H. subst s.
  assert (HI : xc inner).
  { clear -IH H6 E HK. revert inner E. induction ks as [|k ks IHk]; intros inner E; [injection E as <-; constructor|].
    inversion IH as [|? ? K1 K2]; subst. inversion H6 as [|? ? N1 N2]; subst. specialize (IHk K2 N2).
    destruct k as [c|ns' l' d' i' a' ks'|s'|s'].
    - match type of E with bind ?g _ = _ => destruct g as [r|] eqn:ER; [|discriminate] end. cbn [bind] in E. apply Ok_inj in E. subst inner.
      specialize (IHk _ eq_refl). inversion N1; subst. apply xc_app; [apply chr_xc; assumption|exact IHk].
    - match type of E with bind ?g _ = _ => destruct g as [t|] eqn:ET; [|discriminate] end. cbn [bind] in E.
      match type of E with bind ?g _ = _ => destruct g as [r|] eqn:ER; [|discriminate] end. cbn [bind] in E. apply Ok_inj in E. subst inner.
      specialize (IHk _ eq_refl). apply xc_app; [apply (K1 _ N1 eq_refl)|exact IHk].
    - discriminate E.
    - discriminate E. }
  xa.
Qed.
Lemma ns_kids_xc key forced ks : oxc key -> Forall nok ks -> forall s, stringify_ns_kids key forced ks = Ok s -> xc s.
Proof.
  intros HK HN. unfold stringify_ns_kids. induction HN as [|k ks N1 N2 IH]; intros s E; [injection E as <-; constructor|].
  destruct k as [c|ns' l' d' i' a' ks'|s'|s'].
  - match type of E with bind ?g _ = _ => destruct g as [r|] eqn:ER; [|discriminate] end. cbn [bind] in E. apply Ok_inj in E. subst s.
    specialize (IH _ eq_refl). inversion N1; subst. apply xc_app; [apply chr_xc; assumption|exact IH].
  - match type of E with bind ?g _ = _ => destruct g as [t|] eqn:ET; [|discriminate] end. cbn [bind] in E.
    match type of E with bind ?g _ = _ => destruct g as [r|] eqn:ER; [|discriminate] end. cbn [bind] in E. apply Ok_inj in E. subst s.
    specialize (IH _ eq_refl). apply xc_app; [apply (ns_node_xc _ _ HK _ _ N1 ET)|exact IH].
  - discriminate E.
  - discriminate E.
Qed.
Lemma ns_children_xc n o s : nok n -> oxc o -> stringify_namespaced_children n o = Ok s -> xc s.
Proof.
  intros HN HO H. unfold stringify_namespaced_children in H. destruct o as [t|].
  - apply (ns_kids_xc _ _ _ HO (kids_nok _ HN) _ H).
  - pose proof (nsmap_xc _ HN) as HM. destruct (node_nsmap n) as [|[k u] m]; [discriminate|]. inversion HM as [|? ? [D1 D2] _]; subst.
    apply (ns_kids_xc _ _ _ D1 (kids_nok _ HN) _ H).
Qed.
Lemma node_xc : forall n b s, nok n -> stringify_node b n = Ok s -> xc s.
Proof.
  induction n as [c|s0|s0|ns l d i a ks IH] using node_ind'; intros b s HN H; try discriminate H.
  { cbn [stringify_node] in H. apply Ok_inj in H. subst s. inversion HN; subst. xa. }
  pose proof (print_attrs_xc _ HN) as HP. inversion HN as [| | |? ? ? ? ? ? H1 H2 H3 H4 H5 H6]; subst.
  cbn [stringify_node] in H. cbv zeta in H. pose proof (extend_xc _ _ H3 H4) as HM. set (m := extend d i) in *.
  set (tag_ := match m with [] => l | _ => _ end) in H.
  assert (HT : xc tag_).
  { unfold tag_. destruct m as [|[[k|] v] m']; [exact H2| |exact H2]. inversion HM as [|? ? [D1 D2] _]; subst. destruct ns; [|exact H2].
    cbn [fst opt_text_is] in D1. xa. }
  set (head := "<" ++ _) in H.
  assert (HH : xc head).
  { unfold head. xa. destruct m as [|[k v] m']; [constructor|]. inversion HM as [|? ? [D1 D2] _]; subst. cbn [snd] in D2. destruct b; [|constructor]. xa. }
  destruct (needs_close _ ks); [|apply Ok_inj in H; subst s; xa].
  match type of H with bind ?g _ = _ => destruct g as [inner|] eqn:E; [|discriminate] end. cbn [bind] in H. apply Ok_inj in H. subst s.
  assert (HI : xc inner).
  { clear -IH H6 E. revert inner E. induction ks as [|k ks IHk]; intros inner E; [injection E as <-; constructor|].
    inversion IH as [|? ? K1 K2]; subst. inversion H6 as [|? ? N1 N2]; subst. specialize (IHk K2 N2).
    destruct k as [c|ns' l' d' i' a' ks'|s'|s'].
    1: { match type of E with bind ?g _ = _ => destruct g as [r|] eqn:ER; [|discriminate] end. cbn [bind] in E. apply Ok_inj in E. subst inner.
      specialize (IHk _ eq_refl). inversion N1; subst. apply xc_app; [apply chr_xc; assumption|exact IHk]. }
    1: { match type of E with bind ?g _ = _ => destruct g as [t|] eqn:ET; [|discriminate] end. cbn [bind] in E.
      match type of E with bind ?g _ = _ => destruct g as [r|] eqn:ER; [|discriminate] end. cbn [bind] in E. apply Ok_inj in E. subst inner.
      specialize (IHk _ eq_refl). apply xc_app; [apply (K1 _ _ N1 ET)|exact IHk]. }
    2: discriminate E.
    match type of E with bind ?g _ = _ => destruct g as [t|] eqn:ET; [|discriminate] end. cbn [bind] in E.
    match type of E with bind ?g _ = _ => destruct g as [r|] eqn:ER; [|discriminate] end. cbn [bind] in E. apply Ok_inj in E. subst inner.
    specialize (IHk _ eq_refl). apply xc_app; [apply (K1 _ _ N1 ET)|exact IHk]. }
  xa.
Qed.
Lemma tails_ok l : Forall nok l -> Forall (fun kt => nok (fst kt) /\ xc (snd kt)) (tails l).
Proof.
  induction 1 as [|k l HK HL IH]; [constructor|]. destruct k; cbn [tails]; try exact IH; constructor; try exact IH; split; try exact HK; apply lead_xc, HL.
Qed.
Lemma children_xc n s : nok n -> stringify_children n = Ok s -> xc s.
Proof.
  intros HN H. unfold stringify_children in H. destruct (mapM _ _) as [parts|] eqn:E; [|discriminate]. cbn [bind] in H. apply Ok_inj in H. subst s.
  apply (mapM_ok _ (fun kt => nok (fst kt) /\ xc (snd kt))) in E.
  - apply xc_concat in E. xa. apply lead_xc, kids_nok, HN.
  - intros [k t] u [K1 K2] HU. cbn [fst snd] in *. destruct (stringify_node true k) as [v|] eqn:EV; [|discriminate]. cbn [bind] in HU. apply Ok_inj in HU. subst u.
    apply node_xc in EV; [|exact K1]. xa.
  - apply tails_ok, kids_nok, HN.
Qed.
Lemma stored_xc tv v : nok tv -> stored_text tv v -> xc v.
Proof.
  intros HN. unfold stored_text. destruct (node_nsmap tv); intros H; [apply (children_xc _ _ HN H)|apply (ns_children_xc _ None _ HN I H)].
Qed.

(** ** Objects *)
Ltac ax H := first [apply attr_xc_; exact H|apply path_text_xc; exact H].
Lemma labels_xc n i d c l : nok n -> labels n i d c l -> label_texts xc i d c l.
Proof.
  intros HN (H1 & H2 & H3 & H4). split; [|split; [|split]].
  - pose proof (attr_xc_ "IDENTIFIER" _ HN) as G. rewrite H1 in G. exact G.
  - rewrite <- H2. ax HN.
  - rewrite <- H3. ax HN.
  - rewrite <- H4. ax HN.
Qed.
Lemma Forall2_texts {A} (R : node -> A -> Prop) (Q : A -> Prop) ks l :
  (forall n x, nok n -> R n x -> Q x) -> Forall nok ks -> Forall2 R ks l -> Forall Q l.
Proof. intros HQ HK HF. induction HF; [constructor|]. inversion HK; subst. constructor; [eapply HQ; eassumption|auto]. Qed.
Lemma images_texts {A} t (R : node -> A -> Prop) (Q : A -> Prop) n o :
  (forall n x, nok n -> R n x -> Q x) -> nok n -> images t R n o -> all_of Q o.
Proof.
  intros HQ HN. unfold images. destruct (section_items t n) as [ks|] eqn:E; destruct o as [l|]; try contradiction; try (intros; exact I).
  intros H. apply (Forall2_texts R Q ks l HQ (section_nok _ _ _ HN E) H).
Qed.
Lemma no_comments_nok ks : Forall nok ks -> Forall nok (no_comments ks).
Proof. intros H. unfold no_comments. rewrite Forall_forall in *. intros x HX. apply filter_In in HX. apply H, HX. Qed.
Lemma attr_some k n s : nok n -> attr_opt k n = Some s -> xc s.
Proof. intros HN H. pose proof (attr_xc_ k _ HN) as G. rewrite H in G. exact G. Qed.
Lemma enum_value_xc n v : nok n -> enum_value_of n v -> enum_value_texts xc v.
Proof.
  intros HN (H1 & e & H2 & H3 & H4). split; [apply (labels_xc _ _ _ _ _ HN H1)|]. apply path_nok in H2; [|exact HN].
  split; [apply (attr_some _ _ _ H2 H3)|rewrite <- H4; ax H2].
Qed.
Lemma data_type_xc n d : nok n -> data_type_of n d -> data_type_texts xc d.
Proof.
  intros HN (H1 & H2). split; [apply (labels_xc _ _ _ _ _ HN H1)|]. destruct d as [c m|c|c mx mn|c a mx mn|c vs|c|c]; try exact I.
  - destruct H2 as [_ <-]. ax HN.
  - destruct H2 as (_ & <- & <-). split; ax HN.
  - destruct H2 as (_ & <- & <- & _). split; ax HN.
  - destruct H2 as (_ & H2). apply (images_texts _ _ _ _ _ enum_value_xc HN H2).
Qed.
Lemma attr_def_xc n a : nok n -> attr_def_of n a -> attr_def_texts xc a.
Proof.
  intros HN (_ & H1 & _ & H2 & H3 & _). split; [apply (labels_xc _ _ _ _ _ HN H1)|]. split; [rewrite <- H2; ax HN|].
  unfold default_of in H3. destruct (find_child "DEFAULT-VALUE" n) as [d|] eqn:ED.
  2: { destruct H3 as [-> ->]. split; exact I. }
  apply find_child_nok in ED; [|exact HN]. destruct H3 as [(_ & -> & -> & _)|(v & HV & H4 & H5)]; [split; exact I|].
  apply find_child_nok in HV; [|exact ED]. split.
  - rewrite H5. destruct (ad_type a); try exact I; ax HV.
  - assert (G : forall s, attr_opt "THE-VALUE" v = Some s /\ ad_default_value a = DVStr s -> match ad_default_value a with DVStr s => xc s | _ => True end).
    { intros s [G1 ->]. apply (attr_some _ _ _ HV G1). }
    destruct (ad_type a); try (destruct H4 as (s & H4); apply (G s H4)).
    + rewrite H4. pose proof (path_text_xc ["VALUES"; "ENUM-VALUE-REF"] _ HV) as P. destruct (path_text _ v); [exact P|exact I].
    + destruct H4 as (s & tv & -> & HT & _ & HS). apply (stored_xc tv); [apply (find_child_nok _ _ _ HV HT)|exact HS].
Qed.
Lemma spec_type_xc n t : nok n -> spec_type_of n t -> spec_type_texts xc t.
Proof.
  intros HN. destruct t as [t|t|t|t]; intros (_ & H1 & H2); (split; [apply (labels_xc _ _ _ _ _ HN H1)|apply (images_texts _ _ _ _ _ attr_def_xc HN H2)]).
Qed.
Lemma grandchild_xc n r (o : option str) : nok n ->
  (exists d x more more', children n = d :: more /\ children d = x :: more' /\ text x = r) -> r = o -> oxc o.
Proof.
  intros HN (d & x & m & m' & H1 & H2 & H3) <-. apply children_nok in HN. rewrite H1 in HN. inversion HN as [|? ? HD _]; subst.
  apply children_nok in HD. rewrite H2 in HD. inversion HD as [|? ? HX _]; subst. apply text_xc, HX.
Qed.
Lemma attr_value_xc n a : nok n -> attr_value_of n a -> attr_value_texts xc a.
Proof.
  intros HN (_ & H1 & H2). split.
  - destruct (sa_type a); try (rewrite <- H1; ax HN). apply (grandchild_xc n _ _ HN H1 eq_refl).
  - assert (G : forall v, attr_opt "THE-VALUE" n = Some v /\ sa_value a = VStr v -> match sa_value a with VStr s => xc s | VList l => Forall oxc l end).
    { intros v [G1 ->]. apply (attr_some _ _ _ HN G1). }
    destruct (sa_type a); try (destruct H2 as (v & H2); apply (G v H2)).
    + destruct H2 as (vs & HV & ->). apply find_child_nok in HV; [|exact HN]. apply children_nok in HV.
      apply Forall_forall. intros o HO. apply in_map_iff in HO. destruct HO as (k & <- & HK). rewrite Forall_forall in HV. apply text_xc, HV, HK.
    + destruct H2 as (v & tv & -> & HT & HS). apply (stored_xc tv); [apply (find_child_nok _ _ _ HN HT)|exact HS].
Qed.
Lemma spec_object_xc n o : nok n -> spec_object_of n o -> spec_object_texts xc o.
Proof.
  intros HN (H1 & H2 & H3). split; [apply (labels_xc _ _ _ _ _ HN H1)|]. split; [rewrite <- H2; ax HN|].
  destruct (section_items "VALUES" n) as [ks|] eqn:E; [|rewrite H3; constructor].
  apply (Forall2_texts _ _ _ _ attr_value_xc (no_comments_nok _ (section_nok _ _ _ HN E)) H3).
Qed.
Lemma relation_value_xc n a : nok n -> relation_value_of n a -> attr_value_texts xc a.
Proof.
  intros HN (_ & H1). destruct (sa_type a) eqn:ET; try contradiction.
  1,2: destruct H1 as (H1 & v & H2 & H3); split; [apply (grandchild_xc n _ _ HN H1 eq_refl)|rewrite H3; apply (attr_some _ _ _ HN H2)].
  apply (attr_value_xc _ _ HN H1).
Qed.
Lemma spec_relation_xc n r : nok n -> spec_relation_of n r -> spec_relation_texts xc r.
Proof.
  intros HN (_ & H1 & H2 & H3 & H4 & H5). split; [apply (labels_xc _ _ _ _ _ HN H1)|]. split; [rewrite <- H2; ax HN|].
  split; [rewrite <- H3; ax HN|]. split; [rewrite <- H4; ax HN|].
  unfold relation_values_of in H5. destruct (section_items "VALUES" n) as [[|v ks]|] eqn:E; destruct (sr_values_attribute r) as [a|]; try contradiction; try exact I.
  apply section_nok in E; [|exact HN]. inversion E; subst. apply (relation_value_xc v); assumption.
Qed.
Lemma hier_xc : forall h level n, nok n -> hier_of level n h -> hierarchy_texts xc h.
Proof.
  fix REC 1. intros h level n HN H. inversion H as [? ? ? _ H1 H2 H3 _ _ H4 _ H5 H6]; subst. destruct h as [id obj lv ch ln ord lc ed tb sc x].
  cbn [h_identifier h_spec_object h_level h_children h_long_name h_last_change] in *. constructor.
  - apply (attr_some _ _ _ HN H1).
  - rewrite <- H4. ax HN.
  - rewrite <- H3. ax HN.
  - rewrite <- H2. ax HN.
  - clear H. destruct ch as [l0|]; [|discriminate]. intros l E. injection E as <-.
    destruct (section_items "CHILDREN" n) as [ks|] eqn:EK; [|exfalso; discriminate (proj1 H5 eq_refl)].
    specialize (H6 ks l0 eq_refl eq_refl). apply section_nok in EK; [|exact HN]. clear -REC H6 EK. revert ks H6 EK.
    induction l0 as [|y l0 IH]; intros ks H6 EK; [constructor|]. inversion H6 as [|k ? ks' ? K1 K2]; subst. inversion EK; subst.
    constructor; [apply (REC y (S level) k); assumption|apply (IH ks'); assumption].
Qed.
Lemma specification_xc n s : nok n -> specification_of n s -> specification_texts xc s.
Proof.
  intros HN (H1 & H2 & H3 & H4). split; [apply (labels_xc _ _ _ _ _ HN H1)|]. split; [rewrite <- H2; ax HN|]. split.
  - unfold values_of in H4. destruct (section_items "VALUES" n) as [ks|] eqn:E; destruct (sp_values s) as [l|]; try contradiction; [|exact I].
    apply (Forall2_texts _ _ _ _ attr_value_xc (no_comments_nok _ (section_nok _ _ _ HN E)) H4).
  - destruct (last_section "CHILDREN" n) as [ks|] eqn:E; destruct (sp_children s) as [l|]; try contradiction; [|exact I].
    assert (HK : Forall nok ks).
    { unfold last_section in E. destruct (find_list _ _) as [x|] eqn:EX; [|discriminate]. injection E as <-.
      apply children_nok. apply find_list_nok in EX; [exact EX|]. apply Forall_rev, kids_nok, HN. }
    apply (Forall2_texts _ _ _ _ (fun n h => hier_xc h 1 n) HK H3).
Qed.
Lemma relation_group_xc n g : nok n -> relation_group_of n g -> relation_group_texts xc g.
Proof.
  intros HN (H1 & H2 & H3 & H4 & H5). split; [apply (labels_xc _ _ _ _ _ HN H1)|]. split; [rewrite <- H2; ax HN|].
  split; [rewrite <- H3; ax HN|]. split; [rewrite <- H4; ax HN|]. rewrite H5.
  destruct (section_items "SPEC-RELATIONS" n) as [ks|] eqn:E; [|exact I]. cbn [option_map all_of]. apply section_nok in E; [|exact HN].
  apply Forall_forall. intros o HO. apply in_map_iff in HO. destruct HO as (k & <- & HK). rewrite Forall_forall in E. apply text_xc, E, HK.
Qed.
Lemma header_xc n h : nok n -> parse_header n = Ok h -> header_texts xc h.
Proof.
  intros HN H. unfold parse_header in H. destruct (py_assert _); [|discriminate]. cbn [bind] in H.
  destruct (find_child "REQ-IF-HEADER" n) as [x|] eqn:E; [|discriminate]. apply find_child_nok in E; [|exact HN].
  destruct (or_not_impl (attr_req "IDENTIFIER" x)) as [i|] eqn:EI; [|discriminate]. cbn [bind] in H. apply Ok_inj in H. subst h.
  assert (G : forall t, oxc (child_text t x)).
  { intros t. unfold child_text. destruct (find_child t x) as [k|] eqn:EK; [|exact I]. apply text_xc, (find_child_nok _ _ _ E EK). }
  unfold header_texts. cbn [hd_identifier hd_comment hd_creation_time hd_repository_id hd_req_if_tool_id hd_req_if_version hd_source_tool_id hd_title].
  split; [|repeat (split; [try apply G|]); try apply G].
  - unfold attr_req in EI. destruct (attr_opt "IDENTIFIER" x) as [v|] eqn:EV; [|discriminate]. cbn in EI. injection EI as <-. apply (attr_some _ _ _ E EV).
  - destruct (find_child "REPOSITORY-ID" x) as [k|] eqn:EK; [|exact I]. pose proof (text_xc _ (find_child_nok _ _ _ E EK)) as P.
    destruct (text k); [exact P|exact I].
Qed.
Lemma dump_prefix_xc m u : Forall def_xc m -> xc (dump_prefix m u).
Proof.
  intros HM. unfold dump_prefix. destruct (str_eqb u xml_uri); [xlit|]. 
  match goal with |- context [find ?f ?x] => destruct (find f x) as [[[p|] v]|] eqn:E end; try constructor.
  apply find_some in E. rewrite Forall_forall in HM. destruct (HM _ (proj1 E)) as [P _]. cbn [fst opt_text_is] in P. xa.
Qed.
Lemma dump_value_xc s : xc s -> xc (dump_attr_value s).
Proof.
  intros H. apply xc_flat_map. eapply Forall_impl; [|exact H]. intros c HC. unfold dump_attr_char.
  repeat match goal with |- xc (if ?b then _ else _) => destruct b end; try xlit.
  - constructor; [exact HC|constructor].
  - xa. unfold str_of_hex. apply xc_hex. constructor.
Qed.
Lemma dump_xc n : nok n -> xc (original_reqif_tag_dump n).
Proof.
  destruct 1 as [| | |ns l d i a ks H1 H2 H3 H4 H5 H6]; try constructor. unfold original_reqif_tag_dump. cbv zeta. pose proof (extend_xc _ _ H3 H4) as HM.
  assert (HN : xc (dump_name (El ns l d i a ks))).
  { cbn [dump_name]. destruct ns as [[p u]|]; [|exact H2]. pose proof (dump_prefix_xc _ u HM) as P. destruct (ns_get _ None) as [u'|]; [destruct (str_eqb u u')|]; xa. }
  assert (H7 : xc (flat_map dump_nsdecl (extend d i))).
  { apply xc_flat_map. eapply Forall_impl; [|exact HM]. intros [[p|] u] [D1 D2]; unfold dump_nsdecl; cbn [fst snd opt_text_is] in *; xa. }
  assert (H8 : xc (flat_map (dump_attr (extend d i)) a)).
  { apply xc_flat_map. eapply Forall_impl; [|exact H5]. intros [n k v] (A1 & A2 & A3). unfold dump_attr. cbn [a_ns a_local a_val] in *.
    pose proof (dump_value_xc _ A3). destruct n as [[p u]|]; [pose proof (dump_prefix_xc _ u HM)|]; xa. }
  destruct (str_eqb _ _); xa.
Qed.
Lemma encoding_xc s decl root e : lxml_parse s = Some (decl, root) -> decl_encoding decl = Some e -> xc e.
Proof.
  unfold lxml_parse. destruct (etree_parse s) as [d|] eqn:E; [|discriminate]. destruct (resolve [] (d_root d)) as [r|] eqn:ER; [|discriminate].
  intros H HE. injection H as <- <-. pose proof (etree_parse_text _ _ E) as ET. destruct d as [dc rt]. cbn [d_decl] in HE.
  apply read_text_grammar in ET. destruct ET as (t & t' & _ & _ & N & HD). apply (encoding_declared _ _ _ _ HD N) in HE.
  destruct HE as (x & a & _ & (_ & _ & _ & att & w & _ & HA & _) & HI). apply attributes_sound in HA. rewrite Forall_forall in HA. apply (HA _ HI).
Qed.
Lemma namespace_xc s decl root r : lxml_parse s = Some (decl, root) -> nok r -> namespace_texts xc (namespace_info_of decl root r).
Proof.
  intros HP HR. pose proof (root_nok _ _ _ HP) as HN. pose proof (nsmap_xc _ HN) as HM. unfold namespace_texts, namespace_info_of. cbv zeta.
  cbn [ni_dump ni_encoding ni_namespace ni_configuration ni_namespace_id ni_namespace_xhtml ni_schema_namespace ni_schema_location ni_language].
  split; [apply dump_xc, HN|]. split.
  { destruct (decl_encoding decl) as [e|] eqn:E; [apply (encoding_xc _ _ _ _ HP E)|xlit]. }
  repeat (split; [first [apply ns_get_oxc, HM|destruct (ns_get _ (Some _)) as [[|c u]|]; try exact I; ax HR]|]). ax HR.
Qed.
