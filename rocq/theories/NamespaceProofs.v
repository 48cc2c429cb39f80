(** NamespaceProofs.v -- the names of a document are resolved as SpecNamespaces says *)
From Verif Require UriProofs.
From Verif Require Import Base Xml Lxml Utf8 Parser Serialise SpecXml SpecNamespaces DictProofs GrammarProofs GrammarDoc SerialiseProofs XhtmlInverse XhtmlScope.

Lemma is_name_spec s : is_name s = match s with c :: r => is_name_start c && forallb is_name_char r | [] => false end.
Proof. destruct s; reflexivity. Qed.
Lemma colon_in s : existsb (N.eqb 58) s = true <-> In 58%N s.
Proof.
  rewrite existsb_exists. split; [intros (x & H & E); apply N.eqb_eq in E; subst; exact H|]. intros H. exists 58%N. split; [exact H|apply N.eqb_refl].
Qed.
Lemma split_none s : ~ In 58%N s -> split_colon s = (s, None).
Proof.
  induction s as [|c s IH]; intros H; [reflexivity|]. cbn [split_colon]. destruct (N.eqb_spec c 58) as [->|N]; [exfalso; apply H; left; reflexivity|].
  rewrite IH; [reflexivity|]. intros HI. apply H. right. exact HI.
Qed.
Lemma split_some s t : ~ In 58%N s -> split_colon (s ++ ":" ++ t) = (s, Some t).
Proof.
  induction s as [|c s IH]; intros H; [reflexivity|]. cbn [app split_colon]. destruct (N.eqb_spec c 58) as [->|N]; [exfalso; apply H; left; reflexivity|].
  change (s ++ 58%N :: t) with (s ++ ":" ++ t). rewrite IH; [reflexivity|]. intros HI. apply H. right. exact HI.
Qed.
(** the two halves of a name that contains a colon *)
Lemma name_left a b : name (a ++ ":" ++ b) -> a <> [] -> name a.
Proof.
  rewrite <- !name_ok. intros H HN. destruct a as [|x a]; [congruence|]. change ((x :: a) ++ ":" ++ b) with (x :: (a ++ ":" ++ b)) in H.
  rewrite is_name_spec in *. apply andb_prop in H. destruct H as [H1 H2]. rewrite forallb_app in H2. apply andb_prop in H2. rewrite H1, (proj1 H2). reflexivity.
Qed.
Lemma name_right a c b : name (a ++ ":" ++ c :: b) -> is_name_start c = true -> name (c :: b).
Proof.
  rewrite <- !name_ok. intros H HN. apply is_name_chars in H. rewrite !forallb_app in H. apply andb_prop in H. destruct H as [_ H]. apply andb_prop in H. destruct H as [_ H].
  cbn [forallb] in H. apply andb_prop in H. rewrite is_name_spec, HN, (proj2 H). reflexivity.
Qed.
Lemma name_first c s : name (c :: s) -> is_name_start c = true.
Proof. rewrite <- name_ok, is_name_spec. intros H. apply andb_prop in H. apply H. Qed.

Lemma qname_spec s p l : name s -> (qname s = Some (p, l) <-> q_name s p l).
Proof.
  intros HN. unfold qname. pose proof (colon_left s) as CL. pose proof (split_colon_text s) as ST. split.
  - destruct (split_colon s) as [a [b|]]; cbn [fst] in CL.
    + destruct a as [|x a]; [discriminate|]. destruct b as [|c b]; [discriminate|]. destruct (existsb (N.eqb 58) (c :: b)) eqn:E; [discriminate|]. cbn [orb].
      destruct (is_name_start c) eqn:ES; [|discriminate]. cbn [negb]. intros H. injection H as <- <-. rewrite ST in HN. rewrite ST. constructor; split.
      * apply (name_left _ _ HN). discriminate.
      * exact CL.
      * apply (name_right _ _ _ HN ES).
      * intros HI. apply colon_in in HI. congruence.
    + destruct a as [|x a]; [discriminate|]. intros H. injection H as <- <-. subst s. constructor. split; assumption.
  - intros H. inversion H as [l' [H1 H2]|p' l' [H1 H2] [H3 H4]]; subst; clear H.
    + rewrite split_none in * by assumption. destruct l as [|c l]; [|reflexivity]. destruct H1 as (? & ? & ? & _). discriminate.
    + rewrite split_some by assumption. destruct p' as [|x p']; [destruct H1 as (? & ? & ? & _); discriminate|].
      destruct l as [|c l]; [destruct H3 as (? & ? & ? & _); discriminate|].
      destruct (existsb (N.eqb 58) (c :: l)) eqn:E; [apply colon_in in E; contradiction|]. rewrite (name_first _ _ H3). reflexivity.
Qed.

(** ** Declarations *)
Lemma declaring_of k p : declaring k p -> decl_of k = Some p.
Proof. intros H. apply decl_of_name. destruct H; reflexivity. Qed.
Lemma declaration_spec k p u : name k -> decl_of k = Some p -> (decl_allowed (k, u) = true <-> declaring k p /\ declarable p u).
Proof.
  intros HN HD. pose proof (proj1 (decl_of_name _ _) HD) as HK. unfold decl_allowed. cbn [fst snd]. rewrite HD. unfold declarable. rewrite <- UriProofs.uri_reference_spec.
  change "http://www.w3.org/XML/1998/namespace" with xml_uri. change "http://www.w3.org/2000/xmlns/" with xmlns_uri.
  destruct p as [p|]; cbn [def_name] in HK; subst k.
  - assert (HP : declaring ("xmlns:" ++ p) (Some p) <-> ncname p = true).
    { split.
      - intros H. inversion H as [|q [H1 H2] E1 E2]; subst. unfold ncname. destruct p as [|c p]; [destruct H1 as (? & ? & ? & _); discriminate|].
        rewrite (name_first _ _ H1). destruct (existsb (N.eqb 58) (c :: p)) eqn:E; [apply colon_in in E; contradiction|reflexivity].
      - intros H. constructor. unfold ncname in H. destruct p as [|c p]; [discriminate|]. apply andb_prop in H. destruct H as [H1 H2]. split.
        + apply (name_right "xmlns" c p HN H1).
        + intros HI. apply colon_in in HI. rewrite HI in H2. discriminate. }
    change (@app N) with (@List.app N) in HP. destruct (str_eqb_spec p "xml") as [->|NX].
    + destruct (str_eqb_spec u xml_uri) as [->|NU].
      * split; [|reflexivity]. intros _. split; [apply HP; reflexivity|]. left. split; reflexivity.
      * split; [discriminate|]. intros [_ [[_ H]|[[H _]|[H _]]]]; congruence.
    + destruct u as [|c u].
      * split; [discriminate|]. intros [_ [[H _]|[[H _]|(_ & _ & H & _)]]]; congruence.
      * rewrite !andb_true_iff, !negb_true_iff. rewrite <- HP. split.
        -- intros ((((H1 & H2) & H3) & H4) & H5). split; [exact H1|]. right. right.
           split; [congruence|]. split; [intros E; injection E as ->; discriminate|]. split; [discriminate|]. split; [exact H3|].
           split; intros E; [rewrite E in H4|rewrite E in H5]; discriminate.
        -- intros [H1 [[H _]|[[H _]|(_ & H2 & _ & H3 & H4 & H5)]]]; [congruence|discriminate|].
           repeat split; [exact H1| |exact H3| |].
           ++ destruct (str_eqb_spec p "xmlns") as [->|]; [congruence|reflexivity].
           ++ destruct (str_eqb_spec (c :: u) xml_uri) as [E|]; [congruence|reflexivity].
           ++ destruct (str_eqb_spec (c :: u) xmlns_uri) as [E|]; [congruence|reflexivity].
  - destruct u as [|c u].
    + split; [|reflexivity]. intros _. split; [constructor|]. right. left. split; reflexivity.
    + rewrite !andb_true_iff, !negb_true_iff. split.
      * intros ((H3 & H4) & H5). split; [constructor|]. right. right. split; [discriminate|]. split; [discriminate|]. split; [discriminate|]. split; [exact H3|].
        split; intros E; [rewrite E in H4|rewrite E in H5]; discriminate.
      * intros [_ [[H _]|[[_ H]|(_ & _ & _ & H3 & H4 & H5)]]]; [discriminate|discriminate|].
        repeat split; [exact H3| |].
        -- destruct (str_eqb_spec (c :: u) xml_uri) as [E|]; [congruence|reflexivity].
        -- destruct (str_eqb_spec (c :: u) xmlns_uri) as [E|]; [congruence|reflexivity].
Qed.

(** ** Scopes *)
Lemma bound_In (m : nsmap) p u : NoDup (map fst m) -> (ns_get m p = Some u <-> In (p, u) m).
Proof.
  unfold ns_get. induction m as [|[q v] m IH]; cbn [dict_get map fst]; intros ND; [split; [discriminate|intros []]|].
  inversion ND as [|? ? H1 H2]; subst. destruct (ostr_eqb_spec p q) as [->|N].
  - split; [intros H; injection H as ->; left; reflexivity|]. intros [H|H]; [congruence|]. exfalso. apply H1. apply (in_map fst) in H. exact H.
  - rewrite (IH H2). split; [intros H; right; exact H|]. intros [H|H]; [congruence|exact H].
Qed.
Lemma bound_none (m : nsmap) p : ns_get m p = None <-> forall u, ~ In (p, u) m.
Proof.
  unfold ns_get. induction m as [|[q v] m IH]; cbn [dict_get]; [split; [intros _ u []|reflexivity]|]. destruct (ostr_eqb_spec p q) as [->|N].
  - split; [discriminate|]. intros H. exfalso. apply (H v). left. reflexivity.
  - rewrite IH. split; intros H u; [intros [E|E]; [congruence|apply (H _ E)]|]. intros E. apply (H u). right. exact E.
Qed.
Lemma again_filter d s s' : not_declared_again d s s' <-> s' = filter (fun x => negb (ostr_mem (fst x) (map fst d))) s.
Proof.
  split.
  - induction 1 as [|p u s s' H _ IH|p u s s' H _ IH]; cbn [filter fst]; [reflexivity| |].
    + destruct (ostr_mem p (map fst d)) eqn:E; [apply ostr_mem_In in E; contradiction|]. cbn [negb]. congruence.
    + rewrite (proj2 (ostr_mem_In _ _) H). exact IH.
  - intros ->. induction s as [|[p u] s IH]; cbn [filter fst]; [constructor|]. destruct (ostr_mem p (map fst d)) eqn:E; cbn [negb].
    + apply not_again_hidden; [apply ostr_mem_In; exact E|exact IH].
    + apply not_again_kept; [|exact IH]. intros H. apply ostr_mem_In in H. congruence.
Qed.
Lemma filter_nodup {A B} (g : A -> B) f l : NoDup (map g l) -> NoDup (map g (filter f l)).
Proof.
  induction l as [|x l IH]; cbn [filter map]; intros H; [constructor|]. inversion H as [|? ? H1 H2]; subst. destruct (f x); [|auto]. cbn [map]. constructor; [|auto].
  intros HI. apply H1. apply in_map_iff in HI. destruct HI as (y & E & HI). apply filter_In in HI. apply in_map_iff. exists y. split; [exact E|apply HI].
Qed.
Lemma nodup_app {A} (a b : list A) : NoDup a -> NoDup b -> (forall x, In x a -> ~ In x b) -> NoDup (a ++ b).
Proof.
  induction 1 as [|x a H _ IH]; intros HB HD; [exact HB|]. cbn [app]. constructor.
  - rewrite in_app_iff. intros [HI|HI]; [contradiction|]. apply (HD x); [left; reflexivity|exact HI].
  - apply IH; [exact HB|]. intros y HY. apply HD. right. exact HY.
Qed.
Lemma extend_nodup d s : NoDup (map fst d) -> NoDup (map fst s) -> NoDup (map fst (extend d s)).
Proof.
  intros H1 H2. unfold extend. rewrite map_app. apply nodup_app; [exact H1|apply filter_nodup, H2|].
  intros p HD HI. apply in_map_iff in HI. destruct HI as ([q u] & E & HI). cbn [fst] in E. subst q. apply filter_In in HI. destruct HI as [_ HI].
  apply negb_true_iff in HI. apply ostr_mem_In in HD. apply (eq_true_false_abs _ HD HI).
Qed.
Lemma namespace_spec m p ns : NoDup (map fst m) -> (elem_ns m p = Some ns <-> element_namespace m p ns).
Proof.
  intros ND. unfold elem_ns. destruct p as [x|].
  - destruct (str_eqb_spec x "xml") as [->|N].
    + split; [intros H; injection H as <-; constructor|]. intros H. inversion H; [reflexivity|congruence].
    + destruct (ns_get m (Some x)) as [u|] eqn:E.
      * pose proof (proj1 (bound_In _ _ _ ND) E) as HI. split; [intros H; injection H as <-; apply namespace_prefix; assumption|].
        intros H. inversion H as [| | |? v ? HV]; subst; [exfalso; apply N; reflexivity|]. apply (bound_In _ _ _ ND) in HV. pose proof (eq_trans (eq_sym E) HV) as EE. first [discriminate EE|injection EE as EE; subst; reflexivity].
      * split; [discriminate|]. intros H. inversion H as [| | |? v ? HV]; subst; [exfalso; apply N; reflexivity|]. apply (bound_In _ _ _ ND) in HV. pose proof (eq_trans (eq_sym E) HV) as EE. first [discriminate EE|injection EE as EE; subst; reflexivity].
  - destruct (ns_get m None) as [u|] eqn:E.
    + pose proof (proj1 (bound_In _ _ _ ND) E) as HI. assert (HU : forall v, In (None, v) m -> v = u).
      { intros v HV. apply (bound_In _ _ _ ND) in HV. pose proof (eq_trans (eq_sym E) HV) as EE. first [discriminate EE|injection EE as EE; subst; reflexivity]. }
      destruct u as [|c u].
      * split; [intros H; injection H as <-; apply namespace_none; exact HU|]. intros H. inversion H as [|v HV NV| |]; subst; [reflexivity|]. specialize (HU _ HV). contradiction.
      * split; [intros H; injection H as <-; apply namespace_default; [exact HI|discriminate]|]. intros H. inversion H as [HA|v HV NV| |]; subst.
        -- specialize (HA _ HI). discriminate.
        -- rewrite (HU _ HV). reflexivity.
    + pose proof (proj1 (bound_none _ _) E) as HNo. split; [intros H; injection H as <-; apply namespace_none; intros u HI; exfalso; apply (HNo _ HI)|].
      intros H. inversion H as [|v HV NV| |]; subst; [reflexivity|]. exfalso. apply (HNo _ HV).
Qed.
Lemma attribute_spec m p ns : NoDup (map fst m) -> (attr_ns m p = Some ns <-> attribute_namespace m p ns).
Proof.
  intros ND. unfold attr_ns. destruct p as [x|].
  - rewrite (namespace_spec _ _ _ ND). split; [intros H; constructor; exact H|]. intros H. inversion H; assumption.
  - split; [intros H; injection H as <-; constructor|]. intros H. inversion H. reflexivity.
Qed.

(** ** Attributes *)
Lemma other_not_decl k p l : q_name k p l -> k <> "xmlns" -> p <> Some "xmlns" -> decl_of k = None.
Proof.
  intros H. unfold decl_of. destruct H as [l [_ HC]|p l [_ HC] _]; intros H2 H3.
  - destruct (str_eqb_spec l "xmlns"); [contradiction|]. rewrite split_none by assumption. reflexivity.
  - destruct (str_eqb_spec (p ++ ":" ++ l) "xmlns") as [E|_]; [contradiction|]. rewrite split_some by assumption.
    destruct (str_eqb_spec p "xmlns") as [->|_]; [congruence|reflexivity].
Qed.
Definition named (l : list (str * str)) : Prop := Forall (fun kv => name (fst kv)) l.
Lemma attributes_decls l d o : attributes_are l d o -> named l -> decls l = d /\ forallb decl_allowed l = true.
Proof.
  induction 1 as [|k p u rest d a H1 H2 _ IH|k p l v rest d a H1 H2 H3 _ IH]; intros HN; [split; reflexivity| |];
    inversion HN as [|? ? N1 N2]; subst; cbn [fst] in N1; destruct (IH N2) as [E1 E2]; unfold decls in *; cbn [flat_map forallb fst snd]; rewrite E1, E2.
  - pose proof (declaring_of _ _ H1) as HD. rewrite HD. split; [reflexivity|]. rewrite (proj2 (declaration_spec _ _ u N1 HD) (conj H1 H2)). reflexivity.
  - pose proof (other_not_decl _ _ _ H1 H2 H3) as HD.
    unfold decl_allowed. cbn [fst snd]. rewrite HD. split; reflexivity.
Qed.
Lemma attributes_resolved m l d o : NoDup (map fst m) -> attributes_are l d o -> named l ->
  forall attrs, (exists aa, map_opt (resolve_attr m) l = Some aa /\ concat aa = attrs) <-> Forall2 (attribute_is m) o attrs.
Proof.
  intros ND H. induction H as [|k p u rest d a H1 H2 _ IH|k p l v rest d a H1 H2 H3 H4 IH]; intros HN attrs.
  - split; [intros (aa & E & <-); injection E as <-; constructor|]. intros H. inversion H; subst. exists []. split; reflexivity.
  - inversion HN as [|? ? N1 N2]; subst; cbn [fst] in N1. rewrite <- (IH N2).
    change (map_opt (resolve_attr m) ((k, u) :: rest)) with (match resolve_attr m (k, u) with Some y => match map_opt (resolve_attr m) rest with Some ys => Some (y :: ys) | None => None end | None => None end).
    unfold resolve_attr at 1. cbn [fst]. rewrite (declaring_of _ _ H1).
    destruct (map_opt (resolve_attr m) rest) as [ys|]; [|split; intros (aa & E & _); discriminate].
    split; intros (aa & E & <-); injection E as <-; [exists ys|exists ([] :: ys)]; split; reflexivity.
  - inversion HN as [|? ? N1 N2]; subst; cbn [fst] in N1.
    change (map_opt (resolve_attr m) ((k, v) :: rest)) with (match resolve_attr m (k, v) with Some y => match map_opt (resolve_attr m) rest with Some ys => Some (y :: ys) | None => None end | None => None end).
    unfold resolve_attr at 1. cbn [fst snd].
    pose proof (other_not_decl _ _ _ H1 H2 H3) as HD.
    rewrite HD, (proj2 (qname_spec _ _ _ N1) H1). split.
    + intros (aa & E & <-). destruct (attr_ns m p) as [n|] eqn:EN; [|discriminate]. destruct (map_opt (resolve_attr m) rest) as [ys|] eqn:EY; [|discriminate].
      injection E as <-. cbn [concat app]. constructor; [|apply (IH N2); exists ys; split; reflexivity].
      cbn [attribute_is a_ns a_local a_val]. split; [apply attribute_spec; assumption|split; reflexivity].
    + intros H. inversion H as [|? x ? attrs' HX HR]; subst. destruct HX as (HX1 & HX2 & HX3). apply (IH N2) in HR. destruct HR as (ys & EY & <-). rewrite EY.
      apply (attribute_spec _ _ _ ND) in HX1. rewrite HX1. exists ([Attr (a_ns x) l v] :: ys). split; [reflexivity|]. cbn [concat app]. destruct x as [n y z]. cbn in *. subst. reflexivity.
Qed.
(** every attribute is one or the other *)
Lemma attributes_sorted m l aa : named l -> forallb decl_allowed l = true -> map_opt (resolve_attr m) l = Some aa -> exists o, attributes_are l (decls l) o.
Proof.
  revert aa. induction l as [|[k v] l IH]; intros aa HN HA HM; [exists []; constructor|]. inversion HN as [|? ? N1 N2]; subst; cbn [fst] in N1.
  cbn [forallb] in HA. apply andb_prop in HA. destruct HA as [HA1 HA2].
  change (map_opt (resolve_attr m) ((k, v) :: l)) with (match resolve_attr m (k, v) with Some y => match map_opt (resolve_attr m) l with Some ys => Some (y :: ys) | None => None end | None => None end) in HM.
  destruct (resolve_attr m (k, v)) as [y|] eqn:EY; [|discriminate]. destruct (map_opt (resolve_attr m) l) as [ys|]; [|discriminate].
  destruct (IH _ N2 HA2 eq_refl) as (o & HO). unfold decls in *. cbn [flat_map fst snd]. unfold resolve_attr in EY. cbn [fst snd] in EY. destruct (decl_of k) as [p|] eqn:ED.
  - exists o. cbn [app]. destruct (proj1 (declaration_spec k p v N1 ED) HA1). constructor; assumption.
  - destruct (qname k) as [[p l']|] eqn:EQ; [|discriminate]. exists ((p, l', v) :: o). cbn [app]. apply (qname_spec _ _ _ N1) in EQ. constructor; [exact EQ| | |exact HO].
    + intros ->. discriminate ED.
    + intros ->. inversion EQ; subst. unfold decl_of in ED. discriminate ED.
Qed.

(** ** Expanded names *)
Lemma name_no_brace l : nc_name l -> ~ In 125%N l /\ hd_error l <> Some 123%N.
Proof.
  intros [H _]. apply name_ok in H. pose proof (is_name_chars _ H) as HC. rewrite forallb_forall in HC. split.
  - intros HI. specialize (HC _ HI). discriminate HC.
  - destruct l as [|c l]; [discriminate|]. intros E. injection E as ->. specialize (HC 123%N (or_introl eq_refl)). discriminate HC.
Qed.
Lemma last_brace (u u' l l' : str) : ~ In 125%N l -> ~ In 125%N l' -> u ++ "}" ++ l = u' ++ "}" ++ l' -> u = u' /\ l = l'.
Proof.
  intros H H'. revert u'. induction u as [|c u IH]; intros u' E.
  - destruct u' as [|c' u']; [injection E as ->; split; reflexivity|]. exfalso. cbn [app] in E. injection E as <- E. apply H. rewrite E. apply in_or_app. right. left. reflexivity.
  - destruct u' as [|c' u']; [|].
    + exfalso. cbn [app] in E. injection E as -> E. apply H'. rewrite <- E. apply in_or_app. right. left. reflexivity.
    + cbn [app] in E. injection E as <- E. destruct (IH u' E) as [-> ->]. split; reflexivity.
Qed.
Lemma key_expanded a b : nc_name (a_local a) -> nc_name (a_local b) -> (a_key a = a_key b <-> expanded a = expanded b).
Proof.
  intros HA HB. apply name_no_brace in HA, HB. destruct HA as [A1 A2], HB as [B1 B2]. unfold a_key, clark, expanded.
  destruct (a_ns a) as [[pa ua]|], (a_ns b) as [[pb ub]|]; cbn [option_map snd].
  - split; [|intros E; injection E as -> ->; reflexivity]. change ("{" ++ ua ++ "}" ++ a_local a) with (123%N :: (ua ++ "}" ++ a_local a)). change ("{" ++ ub ++ "}" ++ a_local b) with (123%N :: (ub ++ "}" ++ a_local b)).
    intros E. injection E as E. destruct (last_brace _ _ _ _ A1 B1 E) as [-> ->]. reflexivity.
  - split; [|discriminate]. intros E. exfalso. apply B2. rewrite <- E. reflexivity.
  - split; [|discriminate]. intros E. exfalso. apply A2. rewrite E. reflexivity.
  - split; [intros ->; reflexivity|intros E; injection E as ->; reflexivity].
Qed.
Lemma keys_expanded l : Forall (fun a => nc_name (a_local a)) l -> (NoDup (map a_key l) <-> NoDup (map expanded l)).
Proof.
  induction 1 as [|a l HA HL IH]; [split; constructor|]. cbn [map]. rewrite !NoDup_cons_iff, IH.
  assert (E : In (a_key a) (map a_key l) <-> In (expanded a) (map expanded l)); [|rewrite E; reflexivity].
  rewrite !in_map_iff. rewrite Forall_forall in HL. split; intros (b & E & HB); exists b; (split; [|exact HB]); apply (key_expanded _ _ (HL _ HB) HA), E.
Qed.
Lemma q_name_local s p l : q_name s p l -> nc_name l.
Proof. destruct 1; assumption. Qed.
Lemma attributes_local m l d o attrs : attributes_are l d o -> Forall2 (attribute_is m) o attrs -> Forall (fun a => nc_name (a_local a)) attrs.
Proof.
  intros H. revert attrs. induction H as [|k p u rest d a H1 H2 _ IH|k p l v rest d a H1 H2 H3 _ IH]; intros attrs HF.
  - inversion HF. constructor.
  - apply IH, HF.
  - inversion HF as [|? x ? attrs' HX HR]; subst. destruct HX as (_ & HX & _). constructor; [rewrite HX; apply (q_name_local _ _ _ H1)|apply IH, HR].
Qed.
Lemma declared_once l d o : attributes_are l d o -> NoDup (map fst l) -> NoDup (map fst d).
Proof.
  induction 1 as [|k p u rest d a H1 H2 HR IH|k p l v rest d a H1 H2 H3 _ IH]; cbn [map fst]; intros ND; [constructor| |];
    inversion ND as [|? ? N1 N2]; subst; [|auto]. constructor; [|auto].
  intros HI. apply N1. clear -HI HR H1. induction HR as [|k' p' u' rest d a K1 K2 _ IH|k' p' l v rest d a K1 K2 K3 _ IH]; [destruct HI| |right; auto].
  cbn [map fst] in HI. destruct HI as [->|HI]; [|right; auto]. left. cbn [fst]. apply declaring_of, decl_of_name in H1, K1. congruence.
Qed.

(** ** Trees *)
Lemma resolve_denotes : forall x env n, NoDup (map fst env) -> xsound x -> resolve env x = Some n -> denotes env x n.
Proof.
  fix REC 1. intros x env n ND HS H. destruct x as [c|nm attrs kids|s|s]; try (injection H as <-; constructor).
  inversion HS as [| | |? ? ? HN HA HK]; subst. clear HS.
  cbn [resolve] in H. destruct (nodupb (map fst attrs)) eqn:NA; [|discriminate]. cbn [negb] in H.
  destruct (forallb decl_allowed attrs) eqn:AL; [|discriminate]. cbn [negb] in H.
  destruct (qname nm) as [[p l]|] eqn:EQ; [|discriminate]. destruct (elem_ns (extend (decls attrs) env) p) as [ns|] eqn:EN; [|discriminate].
  destruct (map_opt (resolve_attr (extend (decls attrs) env)) attrs) as [aa|] eqn:EA; [|discriminate].
  destruct (nodupb (map a_key (concat aa))) eqn:NK; [|discriminate]. cbn [negb] in H.
  destruct (map_opt (resolve (extend (decls attrs) env)) kids) as [ks|] eqn:EK; [|discriminate]. injection H as <-.
  assert (HM : named attrs) by (eapply Forall_impl; [|exact HA]; intros ? [? _]; assumption).
  apply nodupb_spec in NA, NK. destruct (attributes_sorted _ _ _ HM AL EA) as (o & HO).
  assert (ND' : NoDup (map fst (extend (decls attrs) env))) by (apply extend_nodup; [apply (declared_once _ _ _ HO NA)|exact ND]).
  assert (HF : Forall2 (attribute_is (extend (decls attrs) env)) o (concat aa)) by (apply (attributes_resolved _ _ _ _ ND' HO HM); exists aa; split; [exact EA|reflexivity]).
  apply (denotes_element env nm p l ns attrs (decls attrs) o (filter (fun x => negb (ostr_mem (fst x) (map fst (decls attrs)))) env)); [exact NA|exact HO|apply again_filter; reflexivity| | | | |].
  - apply qname_spec; assumption.
  - apply namespace_spec; assumption.
  - exact HF.
  - apply keys_expanded; [|exact NK]. apply (attributes_local _ _ _ _ _ HO HF).
  - change (decls attrs ++ filter (fun x : option str * str => negb (ostr_mem (fst x) (map fst (decls attrs)))) env) with (extend (decls attrs) env).
    remember (extend (decls attrs) env) as m eqn:EE in EK, ND' |- *. clear -REC EK HK ND'. revert ks EK. induction kids as [|k kids IH]; intros ks EK; [injection EK as <-; constructor|].
    change (map_opt (resolve m) (k :: kids)) with (match resolve m k with Some y => match map_opt (resolve m) kids with Some ys => Some (y :: ys) | None => None end | None => None end) in EK.
    destruct (resolve m k) as [y|] eqn:E1; [|discriminate]. destruct (map_opt (resolve m) kids) as [ys|] eqn:E2; [|discriminate]. injection EK as <-.
    inversion HK as [|? ? HK1 HK2]; subst. constructor; [apply (REC k _ _ ND' HK1 E1)|apply IH; [exact HK2|reflexivity]].
Qed.
Lemma denotes_resolve :
  (forall env x n, denotes env x n -> NoDup (map fst env) -> xsound x -> resolve env x = Some n)
  /\ (forall env xs ns, denote_all env xs ns -> NoDup (map fst env) -> Forall xsound xs -> map_opt (resolve env) xs = Some ns).
Proof.
  apply denotes_ind'; try reflexivity.
  - intros env nm p l ns atts d o rest attrs kids kids' H1 H2 H3 H4 H5 H6 H7 _ IH ND HS. inversion HS as [| | |? ? ? HN HA HK]; subst.
    assert (HM : named atts) by (eapply Forall_impl; [|exact HA]; intros ? [? _]; assumption).
    destruct (attributes_decls _ _ _ H2 HM) as [ED EA]. apply again_filter in H3.
    assert (EX : extend (decls atts) env = d ++ rest) by (unfold extend; rewrite ED, H3; reflexivity).
    assert (ND' : NoDup (map fst (d ++ rest))) by (rewrite <- EX, ED; apply extend_nodup; [apply (declared_once _ _ _ H2 H1)|exact ND]).
    cbn [resolve]. rewrite EX, (proj2 (nodupb_spec _) H1), EA. cbn [negb]. rewrite (proj2 (qname_spec _ _ _ HN) H4), (proj2 (namespace_spec _ _ _ ND') H5).
    destruct (proj2 (attributes_resolved _ _ _ _ ND' H2 HM attrs) H6) as (aa & E & EC). rewrite E, EC.
    rewrite (proj2 (nodupb_spec _) (proj2 (keys_expanded _ (attributes_local _ _ _ _ _ H2 H6)) H7)). cbn [negb]. rewrite (IH ND' HK), ED. reflexivity.
  - intros env x n xs ns _ IH1 _ IH2 ND HS. inversion HS; subst. 
    change (map_opt (resolve env) (x :: xs)) with (match resolve env x with Some y => match map_opt (resolve env) xs with Some ys => Some (y :: ys) | None => None end | None => None end).
    rewrite IH1, IH2 by assumption. reflexivity.
Qed.
Lemma resolved x n : xsound x -> (resolve [] x = Some n <-> denotes [] x n).
Proof.
  intros H. split; intros E; [apply resolve_denotes|apply (proj1 denotes_resolve)]; try assumption; constructor.
Qed.

(** ** Encodings *)
Lemma encoding_declared t d x e : document t d x -> ~ In 13%N t -> (decl_encoding d = Some e <-> declared_encoding d e).
Proof.
  intros (p & m & el & m' & -> & _ & _ & _ & HD) NC. destruct d as [s|].
  - destruct HD as [-> (a & HA)].
    assert (NS : ~ In 13%N s) by (intros HI; apply NC; rewrite !in_app_iff; tauto).
    assert (EF : forall a', declaration s a' -> decl_fields s = Some a').
    { intros a' (H1 & _ & _ & att & w & H4 & H5 & H6). apply (decl_fields_ok _ _ NS). split; [exact H1|]. exists "xml", att, w.
      split; [exact H4|]. split; [apply name_ok; reflexivity|split; assumption]. }
    pose proof (EF _ HA) as E. unfold decl_encoding. rewrite E. pose proof HA as HA'. destruct HA as (_ & _ & (v & en & st & EA & _ & HE & HS) & _).
    assert (HI : forall f, In (("encoding" : str), f) a <-> en = [(("encoding" : str), f)]).
    { intros f. rewrite EA. split.
      - intros [H|H]; [discriminate H|]. apply in_app_or in H. destruct H as [H|H].
        + destruct HE as [->|(n & -> & _)]; [destruct H|]. destruct H as [H|[]]. congruence.
        + exfalso. destruct HS as [HS|[HS|HS]]; subst st; [destruct H| |]; destruct H as [H|H]; first [discriminate H|destruct H].
      - intros ->. right. apply in_or_app. left. left. reflexivity. }
    assert (HF : option_map snd (find (fun kv : str * str => str_eqb (fst kv) "encoding") a) = Some e <-> en = [(("encoding" : str), e)]).
    { rewrite EA. cbn [find fst]. change (str_eqb "version" "encoding") with false. cbv iota. destruct HE as [->|(n & -> & _)]; cbn [app find fst].
      - split; [|discriminate]. destruct HS as [HS|[HS|HS]]; subst st; cbn [find fst]; try change (str_eqb "standalone" "encoding") with false; cbv iota; discriminate.
      - change (str_eqb "encoding" "encoding") with true. cbv iota. cbn [option_map snd]. split; intros H; [injection H as ->; reflexivity|congruence]. }
    rewrite HF. split.
    + intros H. exists s, a. split; [reflexivity|]. split; [exact HA'|]. apply HI, H.
    + intros (s' & a' & E1 & E2 & E3). injection E1 as <-. apply EF in E2. rewrite E in E2. injection E2 as <-. apply HI, E3.
  - split; [discriminate|]. intros (s & a & H & _). discriminate H.
Qed.
