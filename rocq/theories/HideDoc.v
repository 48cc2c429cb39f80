(** HideDoc.v -- the anonymised tree and the tree it was made from, as the parser
    sees them *)
From Verif Require Import Base Xml Utf8 Lxml Py LxmlStr Models Progress Parser Anonymize SpecParse XmlProofs DictProofs ParserProofs
  AcceptProofs SpecAnonymize SpecLayout SpecHidden HideProofs Prop_Anonymize.
From Verif Require SpaceProofs.

Section HideDoc.
Variable sha : bytes -> N.
Variable uri : str.

(** ** No processing instructions *)
Definition keeps_pi (act : node -> node -> result node) : Prop :=
  forall o n n', act o n = Ok n' -> pi_free n = true -> pi_free n' = true.
Lemma pi_chr t : forallb pi_free (map Chr t) = true.
Proof. induction t; [reflexivity|assumption]. Qed.
Lemma pi_after ks : forallb pi_free ks = true -> forallb pi_free (after_lead ks) = true.
Proof. induction ks as [|[c|? ? ? ? ? ?|s|s] ks IH]; intros H; try exact H. apply IH, H. Qed.
Lemma act_text_pi : keeps_pi (act_text sha).
Proof.
  intros o n n'. unfold act_text. destruct (text n) as [s|] eqn:T; [|discriminate]. destruct (anonymize_string sha s) as [r|]; [|discriminate]. cbn [bind].
  intros H P. injection H as <-. destruct n; try exact P. cbn [set_text with_kids kids_of pi_free] in *. rewrite forallb_app, pi_chr, pi_after by exact P. reflexivity.
Qed.
Lemma act_attr_pi k : keeps_pi (act_attr sha k).
Proof.
  intros o n n'. unfold act_attr. destruct (attr_opt k n) as [s|]; [|intros H; injection H as <-; auto]. destruct (anonymize_string sha s) as [r|]; [|discriminate].
  cbn [bind]. intros H P. injection H as <-. destruct n; exact P.
Qed.
Lemma act_xhtml_pi : keeps_pi (act_xhtml sha).
Proof.
  intros o n n'. unfold act_xhtml. destruct (stringify_namespaced_children o None) as [s|]; [|discriminate]. cbn [bind]. destruct (anonymize_string sha s) as [r|]; [|discriminate].
  cbn [bind]. intros H P. injection H as <-. destruct n; try exact P. cbn. apply pi_chr.
Qed.
Lemma update_pi sel act (K : keeps_pi act) n : forall par n', update_each sel act par n = Ok n' -> pi_free n = true -> pi_free n' = true.
Proof.
  induction n as [c|s|s|ns l d i a ks IH] using node_ind'; intros par n' H P; try (cbn in H; injection H as <-; exact P).
  apply update_el in H. destruct H as (ks' & EM & H).
  assert (P' : forallb pi_free ks' = true).
  { cbn [pi_free] in P. clear H. revert ks' EM. generalize (Some (El ns l d i a ks)). intros q.
    induction IH as [|k ks0 Hk _ IHk]; intros ks' EM; cbn in EM; [injection EM as <-; reflexivity|]. cbn [forallb] in P. apply andb_true_iff in P. destruct P as [P1 P2].
    destruct (update_each sel act q k) as [k'|] eqn:EK; [|discriminate]. cbn [bind] in EM. destruct (mapM (update_each sel act q) ks0) as [ks1|]; [|discriminate]. cbn [bind] in EM.
    injection EM as <-. cbn [forallb]. rewrite (Hk _ _ EK P1), (IHk P2 _ eq_refl). reflexivity. }
  destruct (sel par _); [apply (K _ _ _ H); exact P'|subst n'; exact P'].
Qed.

(** ** The five passes at once *)
Definition pass1 := update_each (child_el uri "REQ-IF-HEADER" "COMMENT") (act_text sha).
Definition pass2 := update_each (child_el uri "REQ-IF-HEADER" "TITLE") (act_text sha).
Definition pass3 := update_each (any_el uri "SPECIFICATION") (act_attr sha "LONG-NAME").
Definition pass4 := update_each (any_el uri "ATTRIBUTE-VALUE-STRING") (act_attr sha "THE-VALUE").
Definition pass5 := update_each (child_el uri "ATTRIBUTE-VALUE-XHTML" "THE-VALUE") (act_xhtml sha).
(** the parent's name, as far as it matters *)
Definition pnamed (parent : str) (o : option node) : Prop :=
  forall t, t = "REQ-IF-HEADER" \/ t = "ATTRIBUTE-VALUE-XHTML" ->
    match o with Some m => is_el uri t m | None => false end = str_eqb parent t.
Definition changed (parent : str) (n n' : node) : Prop :=
  exists q1 q2 q3 q4 q5 n1 n2 n3 n4, pnamed parent q1 /\ pnamed parent q2 /\ pnamed parent q3 /\ pnamed parent q4 /\ pnamed parent q5
    /\ pass1 q1 n = Ok n1 /\ pass2 q2 n1 = Ok n2 /\ pass3 q3 n2 = Ok n3 /\ pass4 q4 n3 = Ok n4 /\ pass5 q5 n4 = Ok n'.
Lemma changed_pi parent n n' : changed parent n n' -> pi_free n = true -> pi_free n' = true.
Proof.
  intros (q1 & q2 & q3 & q4 & q5 & n1 & n2 & n3 & n4 & _ & _ & _ & _ & _ & H1 & H2 & H3 & H4 & H5) P.
  apply (update_pi _ _ act_xhtml_pi _ _ _ H5), (update_pi _ _ (act_attr_pi _) _ _ _ H4), (update_pi _ _ (act_attr_pi _) _ _ _ H3),
    (update_pi _ _ act_text_pi _ _ _ H2), (update_pi _ _ act_text_pi _ _ _ H1), P.
Qed.
(** text stays text *)
Definition texty (n : node) : bool :=
  match n with El _ _ _ _ _ ks => forallb is_chr ks | Chr _ => true | _ => false end.
Lemma chr_texty t : forallb is_chr (map Chr t) = true.
Proof. induction t; [reflexivity|assumption]. Qed.
Lemma update_texty sel act n par n' :
  (forall o m m', act o m = Ok m' -> texty m = true -> texty m' = true) ->
  update_each sel act par n = Ok n' -> texty n = true -> texty n' = true.
Proof.
  intros K H T. destruct n as [c|ns l d i a ks|s|s]; try (cbn in H; injection H as <-; exact T).
  apply update_el in H. destruct H as (ks' & EM & H).
  assert (E : ks' = ks).
  { cbn [texty] in T. clear H. revert ks' EM T. generalize (Some (El ns l d i a ks)). intros q. induction ks as [|k ks IH]; intros ks' EM T; cbn in EM; [congruence|].
    destruct k; try discriminate T. cbn [update_each bind] in EM. destruct (mapM (update_each sel act q) ks) as [k2|] eqn:E; [|discriminate EM].
    cbn [bind] in EM. injection EM as <-. f_equal. apply IH; [reflexivity|exact T]. }
  subst ks'. destruct (sel par _); [apply (K _ _ _ H T)|subst n'; exact T].
Qed.
Lemma act_text_texty o n n' : act_text sha o n = Ok n' -> texty n = true -> texty n' = true.
Proof.
  unfold act_text. destruct (text n) as [s|] eqn:T; [|discriminate]. destruct (anonymize_string sha s) as [r|]; [|discriminate]. cbn [bind].
  intros H P. injection H as <-. destruct n as [c|ns l d i a ks|c|c]; try exact P. cbn [set_text with_kids kids_of texty] in *. rewrite forallb_app, chr_texty.
  clear T. induction ks as [|k ks IH]; [reflexivity|]. destruct k; try discriminate P. apply IH, P.
Qed.
Lemma act_attr_texty k o n n' : act_attr sha k o n = Ok n' -> texty n = true -> texty n' = true.
Proof.
  unfold act_attr. destruct (attr_opt k n) as [s|]; [|intros H; injection H as <-; auto]. destruct (anonymize_string sha s) as [r|]; [|discriminate].
  cbn [bind]. intros H P. injection H as <-. destruct n; exact P.
Qed.
Lemma act_xhtml_texty o n n' : act_xhtml sha o n = Ok n' -> texty n = true -> texty n' = true.
Proof.
  unfold act_xhtml. destruct (stringify_namespaced_children o None) as [s|]; [|discriminate]. cbn [bind]. destruct (anonymize_string sha s) as [r|]; [|discriminate].
  cbn [bind]. intros H P. injection H as <-. destruct n; try exact P. cbn. apply chr_texty.
Qed.
Lemma changed_texty parent n n' : changed parent n n' -> texty n = true -> texty n' = true.
Proof.
  intros (q1 & q2 & q3 & q4 & q5 & n1 & n2 & n3 & n4 & _ & _ & _ & _ & _ & H1 & H2 & H3 & H4 & H5) P.
  apply (update_texty _ _ _ _ _ act_xhtml_texty H5), (update_texty _ _ _ _ _ (act_attr_texty _) H4), (update_texty _ _ _ _ _ (act_attr_texty _) H3),
    (update_texty _ _ _ _ _ act_text_texty H2), (update_texty _ _ _ _ _ act_text_texty H1), P.
Qed.
Inductive mask : str -> node -> node -> Prop :=
| mask_chr parent c : mask parent (Chr c) (Chr c)
| mask_cmt parent s : mask parent (Cmt s) (Cmt s)
| mask_text ns l d i a kids kids' s t :
    plain_element uri ns l -> l = "COMMENT" \/ l = "TITLE" -> opt_text (lead kids) = Some s -> opt_text (lead kids') = Some t -> digest sha s t ->
    (forallb is_chr kids = true -> forallb is_chr kids' = true) ->
    mask "REQ-IF-HEADER" (El ns l d i a kids) (El ns l d i a kids')
| mask_value ns d i a kids s t :
    plain_element uri ns "THE-VALUE" -> digest sha s t ->
    mask "ATTRIBUTE-VALUE-XHTML" (El ns "THE-VALUE" d i a kids) (El ns "THE-VALUE" d i a (map Chr t))
| mask_el parent ns l d i a a' kids kids' :
    plain_element uri ns l -> placed parent l -> (forall up, masked_here (parent :: up) l = false) -> attrs_hid sha l a a' ->
    map a_ns a' = map a_ns a ->
    Forall2 (mask l) kids kids' -> mask parent (El ns l d i a kids) (El ns l d i a' kids').

Lemma el_named p l t d i a ks : is_el uri t (El (Some (p, uri)) l d i a ks) = str_eqb l t.
Proof. cbn [is_el]. rewrite (proj2 (str_eqb_eq uri uri) eq_refl). reflexivity. Qed.
Lemma child_sel parent o p l d i a ks u t : pnamed parent o -> u = "REQ-IF-HEADER" \/ u = "ATTRIBUTE-VALUE-XHTML" ->
  child_el uri u t o (El (Some (p, uri)) l d i a ks) = str_eqb parent u && str_eqb l t.
Proof.
  intros P U. unfold child_el. specialize (P u U). destruct o as [m|]; [rewrite P, el_named; reflexivity|]. rewrite <- P. reflexivity.
Qed.
Lemma named_parent p l d i a ks : pnamed l (Some (El (Some (p, uri)) l d i a ks)).
Proof. intros t _. apply el_named. Qed.
Lemma attrs_same t a : (forall k, secret t k = false) -> attrs_hid sha t a a.
Proof. intros H k. rewrite H. apply both_refl. Qed.
Lemma attrs_one t k s r a : secret t k = true -> (forall k', k' <> k -> secret t k' = false) -> assoc k (entries a) = Some s -> digest sha s r ->
  attrs_hid sha t a (replace_attr k r a).
Proof.
  intros S1 S2 A D k'. destruct (str_eqb_spec k' k) as [->|N].
  - rewrite S1, A. unfold entries. rewrite assoc_replace by (unfold entries in A; rewrite A; discriminate). exact D.
  - rewrite (S2 _ N). clear -N. induction a as [|x a IH]; [exact I|]. cbn [replace_attr]. destruct (str_eqb_spec k (a_key x)) as [E|E].
    + cbn. change (a_key (Attr (a_ns x) (a_local x) r)) with (a_key x). destruct (str_eqb_spec k' (a_key x)); [congruence|apply both_refl].
    + cbn. destruct (str_eqb k' (a_key x)); [reflexivity|exact IH].
Qed.
Lemma replace_ns k v a : map a_ns (replace_attr k v a) = map a_ns a.
Proof. induction a as [|x a IH]; [reflexivity|]. cbn [replace_attr]. destruct (str_eqb k (a_key x)); cbn; congruence. Qed.
Lemma mapM5 parent q1 q2 q3 q4 q5 ks : 
  pnamed parent q1 -> pnamed parent q2 -> pnamed parent q3 -> pnamed parent q4 -> pnamed parent q5 ->
  forall ks1 ks2 ks3 ks4 ks5, mapM (pass1 q1) ks = Ok ks1 -> mapM (pass2 q2) ks1 = Ok ks2 -> mapM (pass3 q3) ks2 = Ok ks3 -> mapM (pass4 q4) ks3 = Ok ks4 ->
    mapM (pass5 q5) ks4 = Ok ks5 -> Forall2 (changed parent) ks ks5.
Proof.
  intros P1 P2 P3 P4 P5. induction ks as [|k ks IH]; intros ks1 ks2 ks3 ks4 ks5 H1 H2 H3 H4 H5.
  - injection H1 as <-. injection H2 as <-. injection H3 as <-. injection H4 as <-. injection H5 as <-. constructor.
  - cbn [mapM] in H1. destruct (pass1 q1 k) as [k1|] eqn:E1; [|discriminate]. cbn [bind] in H1. destruct (mapM (pass1 q1) ks) as [l1|]; [|discriminate]. injection H1 as <-.
    cbn [mapM] in H2. destruct (pass2 q2 k1) as [k2|] eqn:E2; [|discriminate]. cbn [bind] in H2. destruct (mapM (pass2 q2) l1) as [l2|] eqn:F2; [|discriminate]. injection H2 as <-.
    cbn [mapM] in H3. destruct (pass3 q3 k2) as [k3|] eqn:E3; [|discriminate]. cbn [bind] in H3. destruct (mapM (pass3 q3) l2) as [l3|] eqn:F3; [|discriminate]. injection H3 as <-.
    cbn [mapM] in H4. destruct (pass4 q4 k3) as [k4|] eqn:E4; [|discriminate]. cbn [bind] in H4. destruct (mapM (pass4 q4) l3) as [l4|] eqn:F4; [|discriminate]. injection H4 as <-.
    cbn [mapM] in H5. destruct (pass5 q5 k4) as [k5|] eqn:E5; [|discriminate]. cbn [bind] in H5. destruct (mapM (pass5 q5) l4) as [l5|] eqn:F5; [|discriminate]. injection H5 as <-.
    constructor; [|apply (IH _ _ _ _ _ eq_refl F2 F3 F4 F5)]. exists q1, q2, q3, q4, q5, k1, k2, k3, k4. auto 11.
Qed.

Lemma pass1_el parent q p l d i a ks n' : pnamed parent q -> pass1 q (El (Some (p, uri)) l d i a ks) = Ok n' ->
  exists ks', mapM (pass1 (Some (El (Some (p, uri)) l d i a ks))) ks = Ok ks'
    /\ if str_eqb parent "REQ-IF-HEADER" && str_eqb l "COMMENT" then act_text sha (El (Some (p, uri)) l d i a ks) (El (Some (p, uri)) l d i a ks') = Ok n' else n' = El (Some (p, uri)) l d i a ks'.
Proof. intros P H. apply update_el in H. rewrite (child_sel parent _ _ _ _ _ _ _ _ _ P (or_introl eq_refl)) in H. exact H. Qed.
Lemma pass2_el parent q p l d i a ks n' : pnamed parent q -> pass2 q (El (Some (p, uri)) l d i a ks) = Ok n' ->
  exists ks', mapM (pass2 (Some (El (Some (p, uri)) l d i a ks))) ks = Ok ks'
    /\ if str_eqb parent "REQ-IF-HEADER" && str_eqb l "TITLE" then act_text sha (El (Some (p, uri)) l d i a ks) (El (Some (p, uri)) l d i a ks') = Ok n' else n' = El (Some (p, uri)) l d i a ks'.
Proof. intros P H. apply update_el in H. rewrite (child_sel parent _ _ _ _ _ _ _ _ _ P (or_introl eq_refl)) in H. exact H. Qed.
Lemma pass3_el q p l d i a ks n' : pass3 q (El (Some (p, uri)) l d i a ks) = Ok n' ->
  exists ks', mapM (pass3 (Some (El (Some (p, uri)) l d i a ks))) ks = Ok ks'
    /\ if str_eqb l "SPECIFICATION" then act_attr sha "LONG-NAME" (El (Some (p, uri)) l d i a ks) (El (Some (p, uri)) l d i a ks') = Ok n' else n' = El (Some (p, uri)) l d i a ks'.
Proof. intros H. apply update_el in H. unfold any_el at 2 in H. rewrite el_named in H. exact H. Qed.
Lemma pass4_el q p l d i a ks n' : pass4 q (El (Some (p, uri)) l d i a ks) = Ok n' ->
  exists ks', mapM (pass4 (Some (El (Some (p, uri)) l d i a ks))) ks = Ok ks'
    /\ if str_eqb l "ATTRIBUTE-VALUE-STRING" then act_attr sha "THE-VALUE" (El (Some (p, uri)) l d i a ks) (El (Some (p, uri)) l d i a ks') = Ok n' else n' = El (Some (p, uri)) l d i a ks'.
Proof. intros H. apply update_el in H. unfold any_el at 2 in H. rewrite el_named in H. exact H. Qed.
Lemma pass5_el parent q p l d i a ks n' : pnamed parent q -> pass5 q (El (Some (p, uri)) l d i a ks) = Ok n' ->
  exists ks', mapM (pass5 (Some (El (Some (p, uri)) l d i a ks))) ks = Ok ks'
    /\ if str_eqb parent "ATTRIBUTE-VALUE-XHTML" && str_eqb l "THE-VALUE" then act_xhtml sha (El (Some (p, uri)) l d i a ks) (El (Some (p, uri)) l d i a ks') = Ok n' else n' = El (Some (p, uri)) l d i a ks'.
Proof. intros P H. apply update_el in H. rewrite (child_sel parent _ _ _ _ _ _ _ _ _ P (or_intror eq_refl)) in H. exact H. Qed.
Lemma act_attr_el k ns l d i a ks ks' n' o : act_attr sha k o (El ns l d i a ks) = Ok n' -> ks' = ks ->
  exists a', n' = El ns l d i a' ks' /\ map a_ns a' = map a_ns a
    /\ (a' = a /\ assoc k (entries a) = None \/ exists s r, assoc k (entries a) = Some s /\ digest sha s r /\ a' = replace_attr k r a).
Proof.
  intros H ->. unfold act_attr in H. change (attr_opt k (El ns l d i a ks)) with (assoc k (entries a)) in H.
  destruct (assoc k (entries a)) as [s|] eqn:A.
  - destruct (anonymize_string sha s) as [r|] eqn:E; [|discriminate]. cbn [bind set_attr] in H. injection H as <-. apply anonymize_digest in E.
    exists (replace_attr k r a). split; [reflexivity|]. split; [apply replace_ns|]. right. eauto.
  - injection H as <-. exists a. auto.
Qed.
Lemma act_text_el o ns l d i a ks n' : act_text sha o (El ns l d i a ks) = Ok n' ->
  exists s r, opt_text (lead ks) = Some s /\ digest sha s r /\ n' = El ns l d i a (map Chr r ++ after_lead ks).
Proof.
  unfold act_text. cbn [text]. destruct (opt_text (lead ks)) as [s|]; [|discriminate]. destruct (anonymize_string sha s) as [r|] eqn:E; [|discriminate].
  cbn [bind set_text with_kids kids_of]. intros H. injection H as <-. apply anonymize_digest in E. eauto.
Qed.
Lemma lead_pass sel act q ks ks' : tagged act -> mapM (update_each sel act q) ks = Ok ks' -> lead ks' = lead ks.
Proof. intros T H. rewrite <- lead_blank, (update_blank _ _ _ _ _ T H), lead_blank. reflexivity. Qed.
Definition tg1 : tagged (act_text sha) := tame_tag _ (act_text_tame sha).
Definition tg2 k : tagged (act_attr sha k) := tame_tag _ (act_attr_tame sha k).
Definition tg3 : tagged (act_xhtml sha) := xhtml_tag sha.
Lemma opt_digest s t : digest sha s t -> opt_text t = Some t.
Proof. intros H. destruct (digest_nonempty _ _ _ H) as (c & r & ->). reflexivity. Qed.
Lemma changed_mask n : forall parent n', in_namespace uri parent n -> changed parent n n' -> mask parent n n'.
Proof.
  induction n as [c|s|s|ns l d i a ks IH] using node_ind'; intros parent n' IN CH.
  1,2: destruct CH as (q1 & q2 & q3 & q4 & q5 & n1 & n2 & n3 & n4 & _ & _ & _ & _ & _ & H1 & H2 & H3 & H4 & H5);
    injection H1 as <-; injection H2 as <-; injection H3 as <-; injection H4 as <-; injection H5 as <-; constructor.
  { inversion IN. }
  assert (PL : plain_element uri ns l) by (inversion IN; assumption). pose proof PL as ((p & ->) & _).
  pose proof (changed_texty _ _ _ CH) as TX.
  destruct CH as (q1 & q2 & q3 & q4 & q5 & n1 & n2 & n3 & n4 & P1 & P2 & P3 & P4 & P5 & H1 & H2 & H3 & H4 & H5).
  apply (pass1_el parent _ _ _ _ _ _ _ _ P1) in H1. destruct H1 as (ks1 & M1 & H1).
  destruct (str_eqb parent "REQ-IF-HEADER" && str_eqb l "COMMENT") eqn:B1.
  { apply andb_true_iff in B1. rewrite !str_eqb_eq in B1. destruct B1 as [-> ->].
    apply act_text_el in H1. destruct H1 as (s & r & T & D & ->).
    apply (pass2_el _ _ _ _ _ _ _ _ _ P2) in H2. destruct H2 as (ks2 & M2 & H2). cbn in H2. subst n2.
    apply pass3_el in H3. destruct H3 as (ks3 & M3 & H3). cbn in H3. subst n3.
    apply pass4_el in H4. destruct H4 as (ks4 & M4 & H4). cbn in H4. subst n4.
    apply (pass5_el _ _ _ _ _ _ _ _ _ P5) in H5. destruct H5 as (ks5 & M5 & H5). cbn in H5. subst n'.
    apply (mask_text _ _ _ _ _ _ _ s r); auto.
    - rewrite <- (lead_pass _ _ _ _ _ tg1 M1). exact T.
    - rewrite (lead_pass _ _ _ _ _ tg3 M5), (lead_pass _ _ _ _ _ (tg2 _) M4), (lead_pass _ _ _ _ _ (tg2 _) M3), (lead_pass _ _ _ _ _ tg1 M2),
        lead_chr by apply lead_after. apply (opt_digest _ _ D). }
  subst n1. apply (pass2_el _ _ _ _ _ _ _ _ _ P2) in H2. destruct H2 as (ks2 & M2 & H2).
  destruct (str_eqb parent "REQ-IF-HEADER" && str_eqb l "TITLE") eqn:B2.
  { apply andb_true_iff in B2. rewrite !str_eqb_eq in B2. destruct B2 as [-> ->].
    apply act_text_el in H2. destruct H2 as (s & r & T & D & ->).
    apply pass3_el in H3. destruct H3 as (ks3 & M3 & H3). cbn in H3. subst n3.
    apply pass4_el in H4. destruct H4 as (ks4 & M4 & H4). cbn in H4. subst n4.
    apply (pass5_el _ _ _ _ _ _ _ _ _ P5) in H5. destruct H5 as (ks5 & M5 & H5). cbn in H5. subst n'.
    apply (mask_text _ _ _ _ _ _ _ s r); auto.
    - rewrite <- (lead_pass _ _ _ _ _ tg1 M1), <- (lead_pass _ _ _ _ _ tg1 M2). exact T.
    - rewrite (lead_pass _ _ _ _ _ tg3 M5), (lead_pass _ _ _ _ _ (tg2 _) M4), (lead_pass _ _ _ _ _ (tg2 _) M3), lead_chr by apply lead_after. apply (opt_digest _ _ D). }
  subst n2. apply pass3_el in H3. destruct H3 as (ks3 & M3 & H3).
  assert (A3 : exists a3, n3 = El (Some (p, uri)) l d i a3 ks3 /\ map a_ns a3 = map a_ns a
    /\ if str_eqb l "SPECIFICATION" then a3 = a /\ assoc "LONG-NAME" (entries a) = None \/ exists s r, assoc "LONG-NAME" (entries a) = Some s /\ digest sha s r /\ a3 = replace_attr "LONG-NAME" r a
       else a3 = a).
  { destruct (str_eqb l "SPECIFICATION"); [apply (act_attr_el _ _ _ _ _ _ _ _ _ _ H3 eq_refl)|exists a; auto]. }
  destruct A3 as (a3 & -> & N3 & A3). clear H3. apply pass4_el in H4. destruct H4 as (ks4 & M4 & H4).
  assert (A4 : exists a4, n4 = El (Some (p, uri)) l d i a4 ks4 /\ map a_ns a4 = map a_ns a3
    /\ if str_eqb l "ATTRIBUTE-VALUE-STRING" then a4 = a3 /\ assoc "THE-VALUE" (entries a3) = None \/ exists s r, assoc "THE-VALUE" (entries a3) = Some s /\ digest sha s r /\ a4 = replace_attr "THE-VALUE" r a3
       else a4 = a3).
  { destruct (str_eqb l "ATTRIBUTE-VALUE-STRING"); [apply (act_attr_el _ _ _ _ _ _ _ _ _ _ H4 eq_refl)|exists a3; auto]. }
  destruct A4 as (a4 & -> & N4 & A4). clear H4. apply (pass5_el _ _ _ _ _ _ _ _ _ P5) in H5. destruct H5 as (ks5 & M5 & H5).
  destruct (str_eqb parent "ATTRIBUTE-VALUE-XHTML" && str_eqb l "THE-VALUE") eqn:B5.
  { apply andb_true_iff in B5. rewrite !str_eqb_eq in B5. destruct B5 as [-> ->]. cbn in A3, A4. subst a4 a3. unfold act_xhtml in H5.
    destruct (stringify_namespaced_children _ None) as [s|]; [|discriminate]. cbn [bind] in H5. destruct (anonymize_string sha s) as [r|] eqn:E; [|discriminate].
    cbn [bind with_kids] in H5. injection H5 as <-. apply anonymize_digest in E. apply (mask_value _ _ _ _ _ s); assumption. }
  subst n'.
  assert (INK : placed parent l /\ Forall (in_namespace uri l) ks).
  { inversion IN; subst; auto. discriminate B5. }
  destruct INK as [PLC INK]. apply mask_el; auto.
  - intros up. cbn [masked_here]. rewrite B5, orb_false_r. destruct (str_eqb parent "REQ-IF-HEADER"); [|reflexivity]. cbn [andb] in *. rewrite B1, B2. reflexivity.
  - destruct (str_eqb_spec l "SPECIFICATION") as [->|NS].
    + cbn in A4. subst a4. intros k. destruct A3 as [[-> NO]|(s & r & AS & D & ->)].
      * destruct (str_eqb_spec k "LONG-NAME") as [->|NK]; [rewrite NO; exact I|]. replace (secret "SPECIFICATION" k) with false; [apply both_refl|].
        unfold secret. cbn. destruct (str_eqb_spec k "LONG-NAME"); [contradiction|reflexivity].
      * apply (attrs_one "SPECIFICATION" "LONG-NAME" s r a); auto. intros k' NK. unfold secret. destruct (str_eqb_spec k' "LONG-NAME"); [contradiction|]. cbn. reflexivity.
    + subst a3. destruct (str_eqb_spec l "ATTRIBUTE-VALUE-STRING") as [->|NA].
      * intros k. destruct A4 as [[-> NO]|(s & r & AS & D & ->)].
        -- destruct (str_eqb_spec k "THE-VALUE") as [->|NK]; [rewrite NO; exact I|]. replace (secret "ATTRIBUTE-VALUE-STRING" k) with false; [apply both_refl|].
           unfold secret. cbn. destruct (str_eqb_spec k "THE-VALUE"); [contradiction|reflexivity].
        -- apply (attrs_one "ATTRIBUTE-VALUE-STRING" "THE-VALUE" s r a); auto. intros k' NK. unfold secret. destruct (str_eqb_spec k' "THE-VALUE"); [contradiction|]. cbn. reflexivity.
      * subst a4. apply attrs_same. intros k. unfold secret. destruct (str_eqb_spec l "SPECIFICATION"); [contradiction|]. destruct (str_eqb_spec l "ATTRIBUTE-VALUE-STRING"); [contradiction|]. reflexivity.
  - congruence.
  - pose proof (mapM5 l _ _ _ _ _ ks (named_parent p l d i a ks) (named_parent p l d i a ks1) (named_parent p l d i a ks2) (named_parent p l d i a3 ks3) (named_parent p l d i a4 ks4) _ _ _ _ _ M1 M2 M3 M4 M5) as F.
    clear -F IH INK. induction F as [|x y xs ys Hxy _ IHF]; [constructor|]. inversion IH; inversion INK; subst. constructor; auto.
Qed.

(** ** Without namespaces *)
Notation bare := (SpaceProofs.bare false).
Lemma plain_bare ns l d i a ks : plain_element uri ns l -> bare (El ns l d i a ks) = El None l d i a (map bare ks).
Proof. intros [_ C]. cbn [SpaceProofs.bare negb andb]. change xhtml_uri with ("http://www.w3.org/1999/xhtml" : str). rewrite C. reflexivity. Qed.
Lemma lead_bare inh ks : lead (map (cleanup inh) (map bare ks)) = lead ks.
Proof. induction ks as [|[c|? ? ? ? ? ?|s|s] ks IH]; try reflexivity. cbn in *. rewrite IH. reflexivity. Qed.
Lemma bare_pi n : pi_free n = true -> pi_free (bare n) = true.
Proof. intros H. apply (strip_pi false n). rewrite SpaceProofs.strip_bare, H. reflexivity. Qed.
Lemma kids_pi inh ks : forallb pi_free ks = true -> forallb pi_free (map (cleanup inh) (map bare ks)) = true.
Proof.
  induction ks as [|k ks IH]; [reflexivity|]. cbn [map forallb]. intros H. apply andb_true_iff in H. rewrite cleanup_pi, (bare_pi k), IH by apply H. reflexivity.
Qed.
Lemma chr_kids inh ks : forallb is_chr (map (cleanup inh) (map bare ks)) = forallb is_chr ks.
Proof. induction ks as [|k ks IH]; [reflexivity|]. cbn [map forallb]. rewrite IH. destruct k; reflexivity. Qed.
Lemma chr_bare inh t : map (cleanup inh) (map bare (map Chr t)) = map Chr t.
Proof. induction t as [|c t IH]; [reflexivity|]. cbn. congruence. Qed.
Lemma extend_nonempty d i : i <> [] -> extend d i <> [].
Proof. unfold extend. destruct d; [|discriminate]. cbn. intros H. destruct i; [contradiction|discriminate]. Qed.
(** no XHTML default value is met here *)
Definition calm (anc : list str) (n : node) : Prop :=
  no_xhtml_default n
  /\ (forall up, anc = "DEFAULT-VALUE" :: up -> forall ns d i a ks, n <> El ns "ATTRIBUTE-VALUE-XHTML" d i a ks)
  /\ (forall up, anc <> "ATTRIBUTE-VALUE-XHTML" :: "DEFAULT-VALUE" :: up).
Lemma calm_kids p up ns l d i a ks : calm (p :: up) (El ns l d i a ks) -> Forall (calm (l :: p :: up)) ks.
Proof.
  intros (N & C1 & C2). inversion N as [| | |? ? ? ? ? ? ND FD]; subst. apply Forall_forall. intros k HK. rewrite Forall_forall in FD.
  split; [apply FD, HK|]. split.
  - intros up' E ns' d' i' a' ks' ->. injection E as -> _. apply (ND eq_refl _ _ _ _ _ HK).
  - intros up' E. injection E as -> -> _. apply (C1 up eq_refl _ _ _ _ _ eq_refl).
Qed.
Lemma hid_mask n : forall n' p up inh inh', mask p n n' -> pi_free n' = true -> inh' <> [] \/ calm (p :: up) n ->
  hid sha (p :: up) (cleanup inh (bare n)) (cleanup inh' (bare n')).
Proof.
  induction n as [c|s|s|ns l d i a ks IH] using node_ind'; intros n' p up inh inh' M P C.
  1,2: inversion M; subst; constructor.
  { inversion M. }
  inversion M as [| |? ? ? ? ? ? kids' s t PL L T1 T2 D|? ? ? ? ? s t PL D|? ? ? ? ? ? a' ? kids' PL PLC MH AH AN F]; subst.
  - rewrite !plain_bare by assumption. cbn [cleanup]. apply (hid_text sha _ _ _ _ _ _ _ _ _ s t); rewrite ?lead_bare; try assumption; [apply kids_pi; exact P|]. rewrite !chr_kids. assumption.
  - rewrite !plain_bare by assumption. cbn [cleanup]. rewrite chr_bare. apply (hid_the_value sha _ _ _ _ _ _ _ s t D).
    intros u ->. destruct C as [C|C]; [apply extend_nonempty, C|]. exfalso. apply (proj2 (proj2 C) u). reflexivity.
  - rewrite !plain_bare by assumption. cbn [cleanup]. apply hid_el; cbn [clark]; auto.
    match goal with |- Forall2 _ (map (cleanup ?m) _) (map (cleanup ?m') _) => generalize m; intros inh1; assert (C2 : m' <> [] \/ Forall (calm (l :: p :: up)) ks); [|revert C2; generalize m'] end.
    { destruct C as [C|C]; [left; apply extend_nonempty, C|right; apply (calm_kids _ _ _ _ _ _ _ _ C)]. }
    cbn [pi_free] in P. clear C M PL PLC MH AH AN. intros inh2 C2. induction F as [|x y xs ys Hxy _ IHF]; [constructor|].
    inversion IH; subst. cbn [forallb] in P. apply andb_true_iff in P. destruct P as [PX PY]. cbn [map]. constructor.
    + apply H1; auto. destruct C2 as [C2|C2]; [left; exact C2|right; inversion C2; assumption].
    + apply IHF; auto. destruct C2 as [C2|C2]; [left; exact C2|right; inversion C2; assumption].
Qed.
End HideDoc.

(** ** The document *)
Lemma parents_top uri : pnamed uri [] None.
Proof. intros t [-> | ->]; reflexivity. Qed.
Lemma changed_el sha uri parent ns l d i a ks n' : changed sha uri parent (El ns l d i a ks) n' -> exists a' ks', n' = El ns l d i a' ks'.
Proof.
  intros (q1 & q2 & q3 & q4 & q5 & n1 & n2 & n3 & n4 & _ & _ & _ & _ & _ & H1 & H2 & H3 & H4 & H5).
  apply (update_tag _ _ _ _ _ (tg1 sha)) in H1. destruct H1 as (a1 & ks1 & ->). apply (update_tag _ _ _ _ _ (tg1 sha)) in H2. destruct H2 as (a2 & ks2 & ->).
  apply (update_tag _ _ _ _ _ (tg2 sha _)) in H3. destruct H3 as (a3 & ks3 & ->). apply (update_tag _ _ _ _ _ (tg2 sha _)) in H4. destruct H4 as (a4 & ks4 & ->).
  apply (update_tag _ _ _ _ _ (tg3 sha)) in H5. exact H5.
Qed.
Theorem anonymized_parse sha cb decl root root' uri :
  ns_get (node_nsmap root) None = Some uri -> one_namespace uri root -> prefix_in_use root \/ no_xhtml_default root ->
  anonymize_tree sha root = Ok root' ->
  simrun (hidden_bundle sha) (parse_reqif cb decl root) (parse_reqif cb decl root').
Proof.
  intros NS (ns & l & d & i & a & ks & -> & PL & INK) OK AT. pose proof PL as ((p & ->) & PX).
  apply anonymize_inv in AT. destruct AT as (uri' & n1 & n2 & n3 & n4 & NS' & H1 & H2 & H3 & H4 & H5). assert (uri' = uri) by congruence. subst uri'. clear NS'.
  intros h h1 b RUN.
  destruct (pi_free (El (Some (p, uri)) l d i a ks)) eqn:PI.
  2:{ exfalso. unfold parse_reqif, strip_if_namespaced in RUN. rewrite NS, SpaceProofs.strip_bare, PI in RUN. discriminate RUN. }
  destruct (str_eqb_spec l "REQ-IF") as [->|NL].
  2:{ exfalso. unfold parse_reqif, strip_if_namespaced in RUN. rewrite NS, SpaceProofs.strip_bare, PI, (plain_bare uri) in RUN by exact PL. cbn [cleanup lift mbind] in RUN.
      unfold tag_is in RUN. cbn [tag clark] in RUN. destruct (str_eqb_spec l "REQ-IF"); [contradiction|]. discriminate RUN. }
  assert (CH : changed sha uri [] (El (Some (p, uri)) "REQ-IF" d i a ks) root').
  { exists None, None, None, None, None, n1, n2, n3, n4. repeat (split; [apply parents_top|]). auto. }
  pose proof (changed_pi sha uri _ _ _ CH PI) as PI'.
  apply (pass1_el sha uri [] _ _ _ _ _ _ _ _ (parents_top uri)) in H1. destruct H1 as (ks1 & M1 & ->).
  apply (pass2_el sha uri [] _ _ _ _ _ _ _ _ (parents_top uri)) in H2. destruct H2 as (ks2 & M2 & ->).
  apply (pass3_el sha uri) in H3. destruct H3 as (ks3 & M3 & ->). apply (pass4_el sha uri) in H4. destruct H4 as (ks4 & M4 & ->).
  apply (pass5_el sha uri [] _ _ _ _ _ _ _ _ (parents_top uri)) in H5. destruct H5 as (ks5 & M5 & ->).
  pose proof (mapM5 sha uri "REQ-IF" _ _ _ _ _ ks (named_parent uri p "REQ-IF" d i a ks) (named_parent uri p "REQ-IF" d i a ks1) (named_parent uri p "REQ-IF" d i a ks2)
    (named_parent uri p "REQ-IF" d i a ks3) (named_parent uri p "REQ-IF" d i a ks4) _ _ _ _ _ M1 M2 M3 M4 M5) as F.
  set (root := El (Some (p, uri)) "REQ-IF" d i a ks) in *. set (root' := El (Some (p, uri)) "REQ-IF" d i a ks5) in *.
  revert RUN. apply (hid_reqif sha cb decl root root' (cleanup [] (SpaceProofs.bare false root)) (cleanup [] (SpaceProofs.bare false root'))).
  - cbn. auto.
  - unfold strip_if_namespaced. rewrite NS, SpaceProofs.strip_bare, PI. reflexivity.
  - unfold strip_if_namespaced. change (node_nsmap root') with (node_nsmap root). rewrite NS, SpaceProofs.strip_bare, PI'. reflexivity.
  - unfold root, root'. rewrite !(plain_bare uri) by exact PL. reflexivity.
  - unfold root, root'. rewrite !(plain_bare uri) by exact PL. reflexivity.
  - unfold root, root'. rewrite !(plain_bare uri) by exact PL. cbn [cleanup kids_of].
    match goal with |- Forall2 _ (map (cleanup ?m) _) (map (cleanup ?m') _) => generalize m; intros inh1; assert (C2 : m' <> [] \/ Forall (calm ["REQ-IF"]) ks); [|revert C2; generalize m'] end.
    { destruct OK as [(ns' & l' & d' & i' & a' & kids' & x & q & u & E & HX & HN & HD)|ND].
      - left. injection E as <- <- <- <- <- <-. apply in_map_iff in HD. destruct HD as ([q' v] & E & HD). cbn in E. subst q'.
        match goal with |- extend (filter ?f _) _ <> _ => assert (HF : In (q, v) (filter f d)) end.
        { apply filter_In. split; [exact HD|]. apply ostr_mem_In. cbn [fst]. apply in_or_app. left. unfold own_refs. apply in_or_app. right.
          apply in_flat_map. exists x. split; [exact HX|]. rewrite HN. left. reflexivity. }
        match type of HF with In _ ?f => destruct f eqn:EF end; [destruct HF|discriminate].
      - right. inversion ND as [| | |? ? ? ? ? ? ND' FD]; subst. apply Forall_forall. intros k HK. rewrite Forall_forall in FD. split; [apply FD, HK|].
        split; [intros up E; discriminate E|intros up E; discriminate E]. }
    intros inh2 C2. unfold root, root' in PI, PI'. cbn [pi_free] in PI, PI'. clear -F INK C2 PI PI'. induction F as [|x y xs ys Hxy _ IHF]; [constructor|].
    inversion INK as [|? ? IN1 IN2]; subst. cbn [forallb] in PI, PI'. apply andb_true_iff in PI, PI'. cbn [map]. constructor.
    + destruct IN1 as [IN1|(ns' & d' & i' & a' & kids' & ->)].
      * left. apply (hid_mask sha uri); [apply (changed_mask sha uri _ _ _ IN1 Hxy)|apply PI'|]. destruct C2 as [C2|C2]; [left; exact C2|right; inversion C2; assumption].
      * right. apply changed_el in Hxy. destruct Hxy as (a'' & ks'' & ->). cbn. split; [reflexivity|]. split; [reflexivity|]. split; [reflexivity|].
        destruct (contains xhtml_uri (clark ns' "TOOL-EXTENSIONS")), ns' as [[? ?]|]; split; discriminate.
    + apply IHF; try tauto. destruct C2 as [C2|C2]; [left; exact C2|right; inversion C2; assumption].
Qed.
