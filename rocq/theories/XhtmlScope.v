(** XhtmlScope.v -- the names and declarations in a tree that was read *)
From Verif Require Import Base Xml Lxml Py LxmlStr Utf8 Parser SpecEscape SpecXhtml SpecXml EscapeProofs DictProofs Frag SpaceProofs SpecAccept SpecParse
  GrammarProofs SerialiseProofs ParserProofs XhtmlInverse.

(** ** Names *)
Definition key_named (d : option str * str) : Prop := forallb is_name_char (fmt (fst d)) = true.
Lemma colon_left s : ~ In 58%N (fst (split_colon s)).
Proof.
  induction s as [|c s IH]; cbn [split_colon fst]; [tauto|]. destruct (N.eqb_spec c 58) as [->|N]; [cbn; tauto|].
  destruct (split_colon s) as [a b]. cbn [fst] in *. intros [H|H]; [congruence|tauto].
Qed.
Lemma no_colon s : ~ In 58%N s -> negb (existsb (N.eqb 58) s) = true.
Proof.
  intros H. apply negb_true_iff. destruct (existsb (N.eqb 58) s) eqn:E; [|reflexivity]. exfalso. apply H.
  apply existsb_exists in E. destruct E as (x & HX & E). apply N.eqb_eq in E. subst x. exact HX.
Qed.
Lemma is_name_chars s : is_name s = true -> forallb is_name_char s = true.
Proof. unfold is_name. destruct s as [|c s]; [reflexivity|]. intros H. apply andb_prop in H. cbn [forallb]. rewrite (start_char _ (proj1 H)), (proj2 H). reflexivity. Qed.
Lemma qname_local s p l : name s -> qname s = Some (p, l) -> plain_name l = true.
Proof.
  intros HN H. apply name_ok in HN. pose proof (colon_left s) as CL. pose proof (split_colon_text s) as ST. unfold qname in H. destruct (split_colon s) as [a [b|]]; cbn [fst] in CL.
  - destruct a as [|x a]; [discriminate|]. destruct b as [|c b]; [discriminate|]. destruct (existsb (N.eqb 58) (c :: b)) eqn:E; [discriminate|]. cbn [orb] in H.
    destruct (is_name_start c) eqn:ES; [|discriminate]. cbn [negb] in H. injection H as _ <-.
    apply is_name_chars in HN. rewrite ST, !forallb_app in HN. apply andb_prop in HN. destruct HN as [_ HN]. apply andb_prop in HN. destruct HN as [_ HN].
    cbn [forallb] in HN. apply andb_prop in HN. unfold plain_name. rewrite ES, (proj2 HN), E. reflexivity.
  - destruct a as [|x a]; [discriminate|]. injection H as _ <-. subst s. unfold plain_name, is_name in *. rewrite HN, (no_colon _ CL). reflexivity.
Qed.
Lemma decl_key k p : name k -> decl_of k = Some p -> forallb is_name_char (fmt p) = true.
Proof.
  intros HN H. unfold decl_of in H. destruct (str_eqb k "xmlns"); [injection H as <-; reflexivity|].
  pose proof (split_colon_text k) as ST. destruct (split_colon k) as [a [b|]]; [|discriminate]. destruct (str_eqb a "xmlns"); [|discriminate]. injection H as <-.
  apply name_ok, is_name_chars in HN. rewrite ST, !forallb_app in HN. apply andb_prop in HN. destruct HN as [_ HN]. apply andb_prop in HN. apply HN.
Qed.

(** ** Trees with proper names, in the scope of declarations [m] *)
Inductive scoped (m : nsmap) : node -> Prop :=
| scoped_chr c : scoped m (Chr c)
| scoped_cmt s : scoped m (Cmt s)
| scoped_pin s : scoped m (Pin s)
| scoped_el ns l d a ks :
    plain_name l = true -> Forall key_named d -> Forall (fun x => plain_name (a_local x) = true) a ->
    Forall (scoped (extend d m)) ks -> scoped m (El ns l d m a ks).
Lemma scoped_good n : forall m, scoped m n -> good_names n.
Proof.
  induction n as [c|s|s|ns l d i a ks IH] using node_ind'; intros m H; inversion H; subst; constructor; auto.
  match goal with K : Forall (scoped _) ks |- _ => revert K end. clear -IH. induction IH as [|k ks HK _ IH]; intros K; inversion K; subst; constructor; eauto.
Qed.
Lemma map_opt_all {A B} (f : A -> option B) l r : map_opt f l = Some r -> Forall2 (fun x y => f x = Some y) l r.
Proof.
  revert r. induction l as [|x l IH]; intros r H; cbn [map_opt] in H; [injection H as <-; constructor|].
  destruct (f x) as [y|] eqn:E; [|discriminate].
  destruct (map_opt f l) as [ys|] eqn:E2; [|discriminate]. injection H as <-. constructor; [exact E|apply IH; reflexivity].
Qed.
Lemma resolve_scoped : forall x env n, xsound x -> resolve env x = Some n -> scoped env n.
Proof.
  fix REC 1. intros x env n HS H. destruct x as [c|nm attrs kids|s|s]; try (injection H as <-; constructor).
  inversion HS as [| | |? ? ? HN HA HK]; subst. clear HS.
  cbn [resolve] in H. destruct (nodupb (map fst attrs)) eqn:ND; [|discriminate]. cbn [negb] in H.
  destruct (forallb decl_allowed attrs) eqn:AL; [|discriminate]. cbn [negb] in H.
  destruct (qname nm) as [[p l]|] eqn:EQ; [|discriminate]. destruct (elem_ns (extend (decls attrs) env) p) as [ns|] eqn:EN; [|discriminate].
  destruct (map_opt (resolve_attr (extend (decls attrs) env)) attrs) as [aa|] eqn:EA; [|discriminate].
  destruct (nodupb (map a_key (concat aa))) eqn:NK; [|discriminate]. cbn [negb] in H.
  destruct (map_opt (resolve (extend (decls attrs) env)) kids) as [ks|] eqn:EK; [|discriminate]. injection H as <-.
  constructor.
  - apply (qname_local _ _ _ HN EQ).
  - apply Forall_forall. intros d HD. unfold decls in HD. apply in_flat_map in HD. destruct HD as (kv & HI & HD).
    rewrite Forall_forall in HA. specialize (HA _ HI). destruct (decl_of (fst kv)) as [q|] eqn:ED; [|destruct HD]. destruct HD as [<-|[]].
    apply (decl_key _ _ (proj1 HA) ED).
  - apply Forall_forall. intros x HX. apply in_concat in HX. destruct HX as (y & HY & HX). apply map_opt_all in EA.
    remember (extend (decls attrs) env) as env' eqn:EE in EA. clear -EA HY HX HA. induction EA as [|kv z attrs aa E _ IH]; [destruct HY|]. inversion HA as [|? ? HA1 HA2]; subst. destruct HY as [->|HY]; [|auto].
    unfold resolve_attr in E. destruct (decl_of (fst kv)); [injection E as <-; destruct HX|].
    destruct (qname (fst kv)) as [[p l]|] eqn:EQ; [|discriminate]. destruct (attr_ns _ p) as [q|]; [|discriminate]. injection E as <-.
    destruct HX as [<-|[]]. apply (qname_local _ _ _ (proj1 HA1) EQ).
  - clear -REC EK HK. revert ks EK. induction kids as [|k kids IH]; intros ks EK; [injection EK as <-; constructor|].
    change (map_opt (resolve (extend (decls attrs) env)) (k :: kids)) with
      (match resolve (extend (decls attrs) env) k with Some y => match map_opt (resolve (extend (decls attrs) env)) kids with Some ys => Some (y :: ys) | None => None end | None => None end) in EK.
    destruct (resolve (extend (decls attrs) env) k) as [y|] eqn:E1; [|discriminate].
    destruct (map_opt (resolve (extend (decls attrs) env)) kids) as [ys|] eqn:E2; [|discriminate]. injection EK as <-.
    inversion HK as [|? ? HK1 HK2]; subst. constructor; [apply (REC k _ _ HK1 E1)|apply IH; [exact HK2|reflexivity]].
Qed.
Lemma strip_scoped full n : forall m n', scoped m n -> strip_ns full n = Some n' -> scoped m n'.
Proof.
  induction n as [c|s|s|ns l d i a ks IH] using node_ind'; intros m n' H E; try (injection E as <-; exact H); try discriminate.
  inversion H as [| | |? ? ? ? ? H1 H2 H3 H4]; subst. cbn [strip_ns] in E. destruct (map_opt (strip_ns full) ks) as [ks'|] eqn:EK; [|discriminate]. injection E as <-.
  constructor; try assumption. apply map_opt_all in EK. clear -IH EK H4. induction EK as [|k k' ks ks' E _ IHL]; [constructor|].
  inversion IH; subst. inversion H4; subst. constructor; eauto.
Qed.
Lemma filter_keys {A} (P : A -> Prop) f l : Forall P l -> Forall P (filter f l).
Proof. induction 1; cbn; [constructor|]. destruct (f x); [constructor|]; assumption. Qed.
Lemma cleanup_scoped n : forall m i, scoped m n -> scoped i (cleanup i n).
Proof.
  induction n as [c|s|s|ns l d i0 a ks IH] using node_ind'; intros m i H; try (cbn [cleanup]; constructor; fail).
  inversion H as [| | |? ? ? ? ? H1 H2 H3 H4]; subst. cbn [cleanup]. constructor; [assumption|apply filter_keys; assumption|assumption|].
  match goal with |- Forall (scoped ?e) _ => generalize e end. intros e. clear -IH H4.
  induction IH as [|k ks HK _ IH]; cbn [map]; [constructor|]. inversion H4; subst. constructor; eauto.
Qed.
Lemma parse_scoped s d n : lxml_parse s = Some (d, n) -> scoped [] n.
Proof.
  unfold lxml_parse. destruct (etree_parse s) as [x|] eqn:E; [|discriminate]. destruct (resolve [] (d_root x)) as [r|] eqn:ER; [|discriminate].
  intros H. injection H as _ <-. apply (resolve_scoped _ _ _ (read_root_sound _ _ (etree_parse_text _ _ E)) ER).
Qed.
Lemma root_scoped s root : document_root s = Some root -> scoped [] root.
Proof.
  unfold document_root. intros H. destruct (lxml_parse s) as [[d n]|] eqn:E; [|discriminate]. apply parse_scoped in E.
  destruct (strip_if_namespaced n) as [r|] eqn:ES; [|discriminate]. destruct (tag_is "REQ-IF" r); [|discriminate]. injection H as <-.
  unfold strip_if_namespaced in ES. destruct (ns_get (node_nsmap n) None); [|injection ES as <-; exact E].
  destruct (strip_ns false n) as [n'|] eqn:EN; [|discriminate]. injection ES as <-. eapply cleanup_scoped, strip_scoped; eassumption.
Qed.

(** ** Parts of such a tree.  [b]: some namespace is in scope *)
Definition inside (b : bool) (n : node) : Prop :=
  exists m, Forall key_named m /\ scoped m n /\ (b = true -> m <> []).
Lemma extend_named d m : Forall key_named d -> Forall key_named m -> Forall key_named (extend d m).
Proof. intros H1 H2. unfold extend. apply Forall_app. split; [exact H1|apply filter_keys, H2]. Qed.
Lemma extend_some d m : m <> [] -> extend d m <> [].
Proof. unfold extend. destruct d; cbn [app]; [|discriminate]. destruct m as [|x m]; [congruence|]. cbn. discriminate. Qed.
Lemma inside_kid b n k : inside b n -> In k (kids_of n) -> inside b k.
Proof.
  intros (m & H1 & H2 & H3) HI. destruct n as [c|ns l d i a ks|s|s]; cbn [kids_of] in HI; try contradiction.
  inversion H2 as [| | |? ? ? ? ? K1 K2 K3 K4]; subst. exists (extend d i). split; [apply extend_named; assumption|].
  rewrite Forall_forall in K4. split; [apply K4, HI|]. intros E. apply extend_some; auto.
Qed.
Lemma inside_child b n k : inside b n -> In k (children n) -> inside b k.
Proof. intros H HI. unfold children in HI. apply filter_In in HI. apply (inside_kid b n _ H (proj1 HI)). Qed.
Lemma inside_find b t n k : inside b n -> find_child t n = Some k -> inside b k.
Proof. intros H HF. unfold find_child, find_list in HF. apply find_some in HF. apply (inside_kid b n _ H (proj1 HF)). Qed.
Lemma inside_path b q : forall n k, inside b n -> path_node q n = Some k -> inside b k.
Proof.
  induction q as [|t q IH]; intros n k H HP; cbn [path_node] in HP; [injection HP as <-; exact H|].
  destruct (find_child t n) as [x|] eqn:E; [|discriminate]. apply (IH x k (inside_find _ _ _ _ H E) HP).
Qed.
Lemma inside_items b t n ks : inside b n -> section_items t n = Some ks -> Forall (inside b) ks.
Proof.
  unfold section_items. intros H E. destruct (find_child t n) as [x|] eqn:EF; [|discriminate]. cbn [option_map] in E. injection E as <-.
  apply Forall_forall. intros k HK. eapply inside_child; [eapply inside_find; eassumption|exact HK].
Qed.
Lemma inside_nsmap b n k : inside b n -> tag_is k n = true -> Forall key_named (node_nsmap n) /\ (b = true -> node_nsmap n <> []).
Proof.
  intros (m & H1 & H2 & H3) HT. destruct n as [c|ns l d i a ks|s|s]; try discriminate HT.
  inversion H2 as [| | |? ? ? ? ? K1 K2 K3 K4]; subst. cbn [node_nsmap]. split; [apply extend_named; assumption|]. intros E. apply extend_some; auto.
Qed.
Lemma inside_names b n : inside b n -> Forall good_names (kids_of n).
Proof.
  intros (m & _ & H & _). apply scoped_good in H. destruct H; cbn [kids_of]; try constructor. assumption.
Qed.
