(** HideOut.v -- the anonymised tree, written and read again *)
From Coq Require Import Permutation.
From Verif Require Import Base Xml Utf8 Lxml Py LxmlStr Models Progress Parser Anonymize SpecParse XmlProofs DictProofs ParserProofs
  SpecPrint SpecDocument SpecFormat FormatProofs SpecAnonymize SpecLayout SpecHidden HideProofs HideDoc LayoutProofs Prop_Anonymize Prop_Reformat.
From Verif Require SpaceProofs.

(** ** Orderly documents *)
Lemma respaced_relaid_kids x p kids kids' :
  Forall (fun k => forall p n', orderly x p k -> respaced false k n' -> relaid x p k n') kids ->
  forall t t' m m', m <> [] -> pieces kids = (t, m) -> pieces kids' = (t', m') ->
  Forall2 (fun y z => respaced false (fst y) (fst z) /\ same_text (snd y) (snd z)) m m' ->
  Forall (orderly x p) (items kids) ->
  items kids <> [] /\ exists mid, rearranged p (items kids) mid /\ Forall2 (relaid x p) mid (items kids').
Proof.
  intros IH t t' m m' HM E E' HF HT.
  assert (IN : forall z, In z m -> In (fst z) kids) by (intros z HZ; apply (pieces_in kids); rewrite E; exact HZ).
  rewrite (items_pieces _ _ _ E) in *. rewrite (items_pieces _ _ _ E'). split; [destruct m; [contradiction|discriminate]|].
  exists (map fst m). split; [left; reflexivity|]. clear E E' HM. induction HF as [|y z m m' [G1 G2] _ IHm]; cbn [map]; constructor.
  - rewrite Forall_forall in IH. inversion HT; subst. apply IH; auto. apply IN. left. reflexivity.
  - apply IHm; [|intros w HW; apply IN; right; exact HW]. inversion HT; assumption.
Qed.
Lemma encoded_same s s' : encoded false s s' -> s' = s.
Proof. intros H. induction H; [reflexivity|congruence|discriminate]. Qed.
Lemma respaced_relaid x n : forall p n', orderly x p n -> respaced false n n' -> relaid x p n n'.
Proof.
  induction n as [c|s|s|ns l d i a kids IH] using node_ind'; intros p n' T H; [inversion H|..].
  - inversion H as [? s' E| | |]; subst. apply encoded_same in E. subst. apply relaid_same.
  - inversion T.
  - inversion H as [| |? ? ? ? ? ? HK|? ? ? ? ? ? kids' t t' m m' HM E E' HT HF]; subst; [apply relaid_same|].
    inversion T as [|? ? ? ? ? ? ? TX|? ? ? ? ? ? ? FR|? p' ? ? ? ? ? ? TI TK]; subst.
    + exfalso. apply HM. assert (A : snd (pieces kids) = []); [|rewrite E in A; exact A].
      apply pieces_all. apply forallb_forall. intros k HK. rewrite Forall_forall in TX. destruct (TX k HK) as [c ->]. reflexivity.
    + apply relaid_free; [exact FR|exact H].
    + apply (relaid_element x p p'); [exact TI|apply Permutation_refl|left; reflexivity|right].
      apply (respaced_relaid_kids x p' kids kids' IH t t' m m' HM E E' HF TK).
Qed.
Lemma respaced_relaid_root x n n' : orderly_root x n -> respaced false n n' -> relaid_root x n n'.
Proof.
  intros (ns & l & d & i & a & kids & -> & T) H. inversion H as [| |? ? ? ? ? ? HK|? ? ? ? ? ? kids' t t' m m' HM E E' HT HF]; subst.
  - exists ns, l, d, i, a, kids, kids. auto.
  - exists ns, l, d, i, a, kids, kids'. do 2 (split; [reflexivity|]). right.
    apply (respaced_relaid_kids x InReqIF kids kids' ltac:(apply Forall_forall; intros; apply respaced_relaid; assumption) t t' m m' HM E E' HF T).
Qed.

(** ** The anonymised tree is orderly, with text for XHTML values *)
Lemma xhtml_place p l : In (l, InXhtml) (table p) -> l = "ATTRIBUTE-VALUE-XHTML".
Proof. intros H. destruct p; cbn in H; repeat (destruct H as [H|H]; [try discriminate H; injection H as <-; try reflexivity|]); try contradiction. Qed.
Lemma free_false p l : free true p l = true -> free false p l = true \/ p = InXhtml /\ l = "THE-VALUE".
Proof.
  destruct p; cbn [free]; try (left; assumption). destruct (str_eqb l "THE-ORIGINAL-VALUE"); [auto|]. destruct (str_eqb_spec l "THE-VALUE"); [auto|discriminate].
Qed.
Lemma mask_orderly sha uri n : forall n' parent p,
  (p = InXhtml -> parent = "ATTRIBUTE-VALUE-XHTML") -> mask sha uri parent n n' -> orderly true p n -> orderly false p n'.
Proof.
  induction n as [c|s|s|ns l d i a kids IH] using node_ind'; intros n' parent p HP M T; [inversion T| |inversion T|].
  { inversion M; subst. constructor. }
  assert (TT : forall ks a' ks', Forall is_text ks -> Forall2 (mask sha uri l) ks ks' -> orderly false p (El ns l d i a' ks')).
  { intros ks a' ks' F G. apply orderly_text. clear - F G. induction G as [|x y xs ys Gx _ IHG]; constructor; inversion F as [|? ? [c ->] F']; subst.
    - inversion Gx. eexists; reflexivity.
    - apply IHG, F'. }
  assert (TK : forall ks, forallb is_chr ks = true -> Forall is_text ks).
  { intros ks H. apply Forall_forall. intros k HK. rewrite forallb_forall in H. specialize (H k HK). destruct k; try discriminate H. eexists; reflexivity. }
  assert (KT : forall ks, Forall is_text ks -> forallb is_chr ks = true).
  { intros ks H. apply forallb_forall. intros k HK. rewrite Forall_forall in H. destruct (H k HK) as [c ->]. reflexivity. }
  inversion T as [|? ? ? ? ? ? ? TX|? ? ? ? ? ? ? FR|? p' ? ? ? ? ? ? TI TK']; subst.
  - inversion M as [| |? ? ? ? ? ? ? ? ? ? ? ? ? ? HC|? ? ? ? ? ? ? ? ?|? ? ? ? ? ? ? ? ? ? ? ? ? ? FM]; subst.
    + apply orderly_text, TK, HC, KT, TX.
    + apply orderly_text, TK, chr_texty.
    + exact (TT _ _ _ TX FM).
  - apply free_false in FR. destruct FR as [FR|[-> ->]].
    + inversion M; subst; apply orderly_free, FR.
    + rewrite (HP eq_refl) in M. inversion M as [| | |? ? ? ? ? ? ? ? ?|? ? ? ? ? ? ? ? ? ? ? MH]; subst.
      * apply orderly_text, TK, chr_texty.
      * specialize (MH []). discriminate MH.
  - assert (HP' : p' = InXhtml -> l = "ATTRIBUTE-VALUE-XHTML") by (intros ->; apply (xhtml_place p), TI).
    inversion M as [| |? ? ? ? ? ? ? ? ? ? LC|? ? ? ? ? ? ? ? ?|? ? ? ? ? ? ? ? ? ? ? ? ? ? FM]; subst.
    + exfalso. clear -TI LC. destruct LC as [->| ->]; destruct p; cbn in TI; intuition discriminate.
    + apply orderly_text, TK, chr_texty.
    + apply (orderly_element false p p'); [exact TI|]. clear -FM IH TK' HP'. induction FM as [|x y xs ys Hxy _ IHF]; [constructor|].
      inversion IH as [|? ? I1 I2]; subst. unfold items in *. cbn [filter] in *. destruct x as [c|ns0 l0 d0 i0 a0 ks0|s|s].
      * inversion Hxy; subst. apply IHF; assumption.
      * inversion TK' as [|? ? T1 T2]; subst. specialize (I1 _ _ p' HP' Hxy T1). inversion Hxy; subst; (constructor; [exact I1|apply IHF; assumption]).
      * inversion TK' as [|? ? T1 T2]; subst. inversion Hxy; subst. constructor; [constructor|apply IHF; assumption].
      * inversion Hxy.
Qed.
Lemma root_changed sha uri p d i a ks root' :
  ns_get (node_nsmap (El (Some (p, uri)) "REQ-IF" d i a ks)) None = Some uri -> anonymize_tree sha (El (Some (p, uri)) "REQ-IF" d i a ks) = Ok root' ->
  exists ks', root' = El (Some (p, uri)) "REQ-IF" d i a ks' /\ Forall2 (changed sha uri "REQ-IF") ks ks'.
Proof.
  intros NS AT. apply anonymize_inv in AT. destruct AT as (uri' & n1 & n2 & n3 & n4 & NS' & H1 & H2 & H3 & H4 & H5). assert (uri' = uri) by congruence. subst uri'. clear NS'.
  apply (pass1_el sha uri [] _ _ _ _ _ _ _ _ (parents_top uri)) in H1. destruct H1 as (ks1 & M1 & ->).
  apply (pass2_el sha uri [] _ _ _ _ _ _ _ _ (parents_top uri)) in H2. destruct H2 as (ks2 & M2 & ->).
  apply (pass3_el sha uri) in H3. destruct H3 as (ks3 & M3 & ->). apply (pass4_el sha uri) in H4. destruct H4 as (ks4 & M4 & ->).
  apply (pass5_el sha uri [] _ _ _ _ _ _ _ _ (parents_top uri)) in H5. destruct H5 as (ks5 & M5 & ->).
  exists ks5. split; [reflexivity|].
  exact (mapM5 sha uri "REQ-IF" _ _ _ _ _ ks (named_parent uri p "REQ-IF" d i a ks) (named_parent uri p "REQ-IF" d i a ks1) (named_parent uri p "REQ-IF" d i a ks2)
    (named_parent uri p "REQ-IF" d i a ks3) (named_parent uri p "REQ-IF" d i a ks4) _ _ _ _ _ M1 M2 M3 M4 M5).
Qed.
Lemma parsed_root cb decl p uri l d i a ks h h1 b :
  ns_get (node_nsmap (El (Some (p, uri)) l d i a ks)) None = Some uri -> plain_element uri (Some (p, uri)) l ->
  parse_reqif cb decl (El (Some (p, uri)) l d i a ks) h = (h1, Ok b) -> l = "REQ-IF".
Proof.
  intros NS PL RUN. destruct (pi_free (El (Some (p, uri)) l d i a ks)) eqn:PI.
  2:{ exfalso. unfold parse_reqif, strip_if_namespaced in RUN. rewrite NS, SpaceProofs.strip_bare, PI in RUN. discriminate RUN. }
  destruct (str_eqb_spec l "REQ-IF") as [->|NL]; [reflexivity|]. exfalso.
  unfold parse_reqif, strip_if_namespaced in RUN. rewrite NS, SpaceProofs.strip_bare, PI, (plain_bare uri) in RUN by exact PL. cbn [cleanup lift mbind] in RUN.
  unfold tag_is in RUN. cbn [tag clark] in RUN. destruct (str_eqb_spec l "REQ-IF"); [contradiction|]. discriminate RUN.
Qed.
Lemma anonymized_orderly sha cb decl root root' uri h h1 b :
  ns_get (node_nsmap root) None = Some uri -> one_namespace uri root -> orderly_root true root -> anonymize_tree sha root = Ok root' ->
  parse_reqif cb decl root h = (h1, Ok b) -> orderly_root false root'.
Proof.
  intros NS (ns & l & d & i & a & ks & -> & PL & INK) (ns0 & l0 & d0 & i0 & a0 & ks0 & E & T) AT RUN. injection E as <- <- <- <- <- <-.
  pose proof PL as ((p & ->) & PX). pose proof (parsed_root _ _ _ _ _ _ _ _ _ _ _ _ NS PL RUN). subst l.
  destruct (root_changed _ _ _ _ _ _ _ _ NS AT) as (ks' & -> & F). exists (Some (p, uri)), "REQ-IF", d, i, a, ks'. split; [reflexivity|].
  clear -F INK T. induction F as [|x y xs ys Hxy _ IHF]; [constructor|]. inversion INK as [|? ? I1 I2]; subst.
  assert (TX : orderly true InReqIF x \/ exists c, x = Chr c) by (destruct x; [right; eexists; reflexivity|left; inversion T; assumption..]).
  assert (TXS : Forall (orderly true InReqIF) (items xs)) by (destruct x; [exact T|inversion T; assumption..]).
  specialize (IHF I2 TXS). assert (TY : orderly false InReqIF y \/ exists c, y = Chr c).
  { destruct I1 as [I1|(ns' & d' & i' & a' & k' & ->)].
    - pose proof (changed_mask sha uri _ _ _ I1 Hxy) as M. destruct TX as [TX|[c ->]]; [left; revert M TX; apply mask_orderly; discriminate|].
      inversion M; subst. right. eexists; reflexivity.
    - left. apply changed_el in Hxy. destruct Hxy as (a'' & ks'' & ->). apply orderly_free. reflexivity. }
  unfold items in *. cbn [filter]. destruct TY as [TY|[c ->]]; [|exact IHF]. destruct y; [exact IHF|constructor; assumption..].
Qed.

(** ** Hidden bundles do not depend on the XML nodes stored in them *)
Section Erased.
Variable sha : bytes -> N.
Lemma lift_list {A} (R : A -> A -> Prop) (e : A -> A) :
  (forall a x y, e x = e y -> R a x -> R a y) -> forall l l1 l2, map e l1 = map e l2 -> Forall2 R l l1 -> Forall2 R l l2.
Proof.
  intros H l l1 l2 E F. revert l2 E. induction F as [|a x l l1 Hax _ IH]; intros [|y l2] E; try discriminate E; constructor.
  - injection E as E _. apply (H a x y E Hax).
  - injection E as _ E. apply IH, E.
Qed.
Lemma lift_both {A B} (R : A -> A -> Prop) (e : A -> B) :
  (forall a x y, e x = e y -> R a x -> R a y) -> forall o o1 o2, option_map e o1 = option_map e o2 -> both R o o1 -> both R o o2.
Proof. intros H [a|] [x|] [y|] E F; try discriminate E; try exact F; try contradiction. injection E as E. apply (H a x y E F). Qed.
Lemma lift_dict {V} (R : V -> V -> Prop) (e : V -> V) :
  (forall a x y, e x = e y -> R a x -> R a y) -> forall d d1 d2, map_dict e d1 = map_dict e d2 -> same_keys R d d1 -> same_keys R d d2.
Proof.
  intros H d d1 d2 E F. revert d2 E. unfold map_dict. induction F as [|a x d d1 [K Hax] _ IH]; intros [|y d2] E; try discriminate E; constructor.
  - injection E as E1 E2 _. split; [congruence|]. apply (H _ _ _ E2 Hax).
  - injection E as _ _ E. apply IH, E.
Qed.
Lemma erased_value a x y : erase_value x = erase_value y -> hidden_value sha a x -> hidden_value sha a y.
Proof. destruct x, y. intros E. injection E as -> -> -> ->. exact (fun H => H). Qed.
Lemma erased_definition a x y : erase_attr_def x = erase_attr_def y -> hidden_definition sha a x -> hidden_definition sha a y.
Proof. destruct x, y. intros E. injection E as -> -> -> -> -> -> -> -> -> ->. exact (fun H => H). Qed.
Lemma erased_type a x y : erase_spec_type x = erase_spec_type y -> hidden_type sha a x -> hidden_type sha a y.
Proof.
  destruct x as [[]|[]|[]|[]], y as [[]|[]|[]|[]]; intros E; try discriminate E; destruct a as [[]|[]|[]|[]]; try (intros H; exact H); cbn in E |- *;
    injection E; intros; subst; intuition;
    match goal with E : map_list erase_attr_def _ = _, B : both _ _ _ |- _ =>
      revert B; apply (lift_both _ (map erase_attr_def)); [|exact E]; intros l l1 l2; apply lift_list; exact erased_definition end.
Qed.
Lemma erased_object a x y : erase_spec_object x = erase_spec_object y -> hidden_object sha a x -> hidden_object sha a y.
Proof.
  destruct x, y. intros E. unfold erase_spec_object in E. cbn in E. injection E as -> E -> -> -> ->. unfold hidden_object. cbn.
  intuition. match goal with F : Forall2 _ _ _ |- _ => revert F; apply (lift_list _ erase_value); [exact erased_value|exact E] end.
Qed.
Lemma erased_relation a x y : erase_spec_relation x = erase_spec_relation y -> hidden_relation sha a x -> hidden_relation sha a y.
Proof.
  destruct x, y. intros E. unfold erase_spec_relation, map_spec_relation in E. cbn in E. injection E as -> -> -> -> -> -> -> E. unfold hidden_relation. cbn.
  intuition. match goal with F : both _ _ _ |- _ => revert F; apply (lift_both _ erase_value); [exact erased_value|exact E] end.
Qed.
Lemma erased_specification a x y : erase_specification x = erase_specification y -> hidden_specification sha a x -> hidden_specification sha a y.
Proof.
  destruct x, y. intros E. unfold erase_specification in E. cbn in E. injection E as -> -> -> -> EV -> EC. unfold hidden_specification. cbn.
  intros (H1 & H2 & H3 & H4 & H5 & H6 & H7 & H8). repeat (split; [assumption|]). split; [|split; [assumption|congruence]].
  revert H6. apply (lift_both _ (map erase_value)); [|exact EV]. intros l l1 l2. apply lift_list. exact erased_value.
Qed.
Lemma erased_content a x y : erase_content x = erase_content y -> hidden_content sha a x -> hidden_content sha a y.
Proof.
  destruct x as [x1 x2 x3 x4 x5 x6], y as [y1 y2 y3 y4 y5 y6]. intros E. unfold erase_content, map_content in E. cbn in E.
  assert (ID : forall A (o o' : option (list A)), map_list (fun x => x) o = map_list (fun x => x) o' -> o = o').
  { intros A o o'. unfold map_list. destruct o, o'; cbn; rewrite ?map_id; congruence. }
  injection E as E1 E2 E3 E4 E5 E6. apply ID in E1, E6. subst. unfold hidden_content. cbn. intros (H1 & H2 & H3 & H4 & H5 & H6).
  split; [exact H1|]. split; [|split; [|split; [|split; [|exact H6]]]].
  - revert H2. apply (lift_both _ (map erase_spec_type)); [|exact E2]. intros l l1 l2. apply lift_list. exact erased_type.
  - revert H3. apply (lift_both _ (map erase_spec_object)); [|exact E3]. intros l l1 l2. apply lift_list. exact erased_object.
  - revert H4. apply (lift_both _ (map erase_spec_relation)); [|exact E4]. intros l l1 l2. apply lift_list. exact erased_relation.
  - revert H5. apply (lift_both _ (map erase_specification)); [|exact E5]. intros l l1 l2. apply lift_list. exact erased_specification.
Qed.
Lemma erased_lookup a x y : erase_lookup x = erase_lookup y -> hidden_lookup sha a x -> hidden_lookup sha a y.
Proof.
  destruct x, y. intros E. unfold erase_lookup in E. cbn in E. injection E as -> E1 E2 -> ->. unfold hidden_lookup. cbn. intros (H1 & H2 & H3 & H4 & H5).
  split; [exact H1|]. split; [revert H2; apply (lift_dict _ erase_spec_type); [exact erased_type|exact E1]|].
  split; [revert H3; apply (lift_dict _ erase_spec_object); [exact erased_object|exact E2]|auto].
Qed.
Lemma same_exception_trans a b c : same_exception a b -> same_exception b c -> same_exception a c.
Proof. destruct a, b; cbn; try discriminate; destruct c; cbn; congruence. Qed.
Lemma erased_bundle b b1 b2 : hidden_bundle sha b b1 -> same_bundle (declared b1) b2 -> hidden_bundle sha (declared b) b2.
Proof.
  intros (H1 & H2 & H3 & H4 & H5 & H6) (S1 & S2 & S3 & S4 & S5 & S6). cbn in S1, S2, S3, S4, S5, S6. unfold hidden_bundle, declared. cbn.
  rewrite <- S1, <- S2, <- S4, H1. split; [reflexivity|]. split; [exact H2|]. split.
  { revert H3. apply (lift_both _ (option_map erase_content)); [|exact S3]. intros o o1 o2. apply lift_both. exact erased_content. }
  split; [exact H4|]. split; [revert H5; apply erased_lookup, S5|].
  clear -H6 S6. revert S6. generalize (b_exceptions b2). induction H6 as [|e e' l l' E _ IH]; intros l2 S; inversion S; subst; constructor; [eapply same_exception_trans; eassumption|apply IH; assumption].
Qed.
End Erased.
