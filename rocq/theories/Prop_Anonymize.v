(** Prop_Anonymize.v -- C39, C40: anonymisation *)
From Verif Require Import Base Xml Utf8 Lxml Py LxmlStr Parser DictProofs Anonymize SpecAnonymize SpecUtf8 SpecInteger
  Utf8SpecProofs IntegerProofs.

Lemma is_el_named uri t n : is_el uri t n = true <-> named uri t n.
Proof.
  unfold named. destruct n as [c|[[p u]|] l d i a ks|s|s]; cbn; try (split; [discriminate|intros (? & ? & ? & ? & ? & H); discriminate]).
  rewrite andb_true_iff, !str_eqb_eq. split.
  - intros [-> ->]. eexists _, _, _, _, _. reflexivity.
  - intros (p' & d' & i' & a' & ks' & H). injection H as -> -> -> -> -> -> ->. auto.
Qed.
Lemma node_deep_ind (P : node -> Prop) :
  (forall c, P (Chr c)) -> (forall s, P (Cmt s)) -> (forall s, P (Pin s)) ->
  (forall ns l d i a ks, Forall P ks -> P (El ns l d i a ks)) -> forall n, P n.
Proof.
  intros HC HM HP HE. fix F 1. intros [c|ns l d i a ks|s|s]; [apply HC| |apply HM|apply HP].
  apply HE. induction ks as [|k ks IH]; constructor; [apply F|exact IH].
Qed.
Lemma update_el sel act par ns l d i a ks n' :
  update_each sel act par (El ns l d i a ks) = Ok n' ->
  exists ks', mapM (update_each sel act (Some (El ns l d i a ks))) ks = Ok ks'
    /\ (if sel par (El ns l d i a ks) then act (El ns l d i a ks) (El ns l d i a ks') = Ok n'
        else n' = El ns l d i a ks').
Proof.
  cbn [update_each]. destruct (mapM _ ks) as [ks'|] eqn:E; [|discriminate]. cbn [bind with_kids]. intros H.
  exists ks'. split; [reflexivity|]. destruct (sel par _); [exact H|congruence].
Qed.
(** what an action may do *)
Definition tame (act : node -> node -> result node) : Prop :=
  forall ns l d i a ks ks' n', act (El ns l d i a ks) (El ns l d i a ks') = Ok n' ->
    exists a' ks'', n' = El ns l d i a' ks'' /\ children n' = children (El ns l d i a ks').
Lemma children_after_lead ks : filter (fun k => negb (is_chr k)) (after_lead ks) = filter (fun k => negb (is_chr k)) ks.
Proof. induction ks as [|[c|? ? ? ? ? ?|s|s] ks IH]; try reflexivity. exact IH. Qed.
Lemma no_chr s : filter (fun k => negb (is_chr k)) (map Chr s) = [].
Proof. induction s as [|c s IH]; [reflexivity|exact IH]. Qed.
Lemma act_text_tame sha : tame (act_text sha).
Proof.
  intros ns l d i a ks ks' n'. unfold act_text. cbn [text]. destruct (opt_text (lead ks')) as [s|]; [|discriminate].
  destruct (anonymize_string sha s) as [r|]; [|discriminate]. cbn [bind set_text with_kids kids_of]. intros H. injection H as <-.
  eexists _, _. split; [reflexivity|]. unfold children. cbn [kids_of]. rewrite filter_app, no_chr, children_after_lead. reflexivity.
Qed.
Lemma act_attr_tame sha k : tame (act_attr sha k).
Proof.
  intros ns l d i a ks ks' n'. unfold act_attr. destruct (attr_opt k _) as [s|].
  - destruct (anonymize_string sha s) as [r|]; [|discriminate]. cbn [bind set_attr]. intros H. injection H as <-. eauto.
  - intros H. injection H as <-. eauto.
Qed.
Lemma update_tag sel act par n n' : 
  (forall ns l d i a ks ks' n', act (El ns l d i a ks) (El ns l d i a ks') = Ok n' -> exists a' ks'', n' = El ns l d i a' ks'') ->
  update_each sel act par n = Ok n' ->
  match n with El ns l d i _ _ => exists a' ks', n' = El ns l d i a' ks' | _ => n' = n end.
Proof.
  intros HA. destruct n as [c|ns l d i a ks|s|s]; try (cbn; congruence). intros H.
  apply update_el in H. destruct H as (ks' & _ & H). destruct (sel par _); [eapply HA; exact H|subst; eauto].
Qed.
Lemma mapM_children_nth sel act par ks : forall ks',
  (forall n', forall k, update_each sel act par k = Ok n' -> is_chr n' = is_chr k) ->
  mapM (update_each sel act par) ks = Ok ks' ->
  forall j, match nth_error (filter (fun k => negb (is_chr k)) ks) j, nth_error (filter (fun k => negb (is_chr k)) ks') j with
            | Some c, Some c' => update_each sel act par c = Ok c'
            | None, None => True
            | _, _ => False
            end.
Proof.
  induction ks as [|k ks IH]; intros ks' HC H j; cbn in H.
  - injection H as <-. cbn. destruct j; exact I.
  - destruct (update_each sel act par k) as [k'|] eqn:EK; [|discriminate]. cbn in H.
    destruct (mapM (update_each sel act par) ks) as [ks1|] eqn:EM; [|discriminate]. cbn in H. injection H as <-.
    cbn [filter]. rewrite (HC _ _ EK). destruct (is_chr k); cbn [negb]; [apply IH; auto|].
    destruct j as [|j]; cbn [nth_error]; [exact EK|apply IH; auto].
Qed.
Lemma tame_tag act : tame act ->
  forall ns l d i a ks ks' n', act (El ns l d i a ks) (El ns l d i a ks') = Ok n' -> exists a' ks'', n' = El ns l d i a' ks''.
Proof. intros T ns l d i a ks ks' n' H. destruct (T _ _ _ _ _ _ _ _ H) as (a' & ks'' & E & _). eauto. Qed.
Lemma xhtml_tag sha : forall ns l d i a ks ks' n',
  act_xhtml sha (El ns l d i a ks) (El ns l d i a ks') = Ok n' -> exists a' ks'', n' = El ns l d i a' ks''.
Proof.
  intros ns l d i a ks ks' n'. unfold act_xhtml. destruct (stringify_namespaced_children _ _) as [s|]; [|discriminate].
  cbn [bind]. destruct (anonymize_string sha s); [|discriminate]. cbn [bind with_kids]. intros H. injection H as <-. eauto.
Qed.
Lemma update_chr sel act par k k' :
  (forall ns l d i a ks ks' n', act (El ns l d i a ks) (El ns l d i a ks') = Ok n' -> exists a' ks'', n' = El ns l d i a' ks'') ->
  update_each sel act par k = Ok k' -> is_chr k' = is_chr k.
Proof.
  intros HA H. apply update_tag in H; [|exact HA]. destruct k; try (subst; reflexivity). destruct H as (a' & ks' & ->). reflexivity.
Qed.

Definition tagged (act : node -> node -> result node) : Prop :=
  forall ns l d i a ks ks' n', act (El ns l d i a ks) (El ns l d i a ks') = Ok n' -> exists a' ks'', n' = El ns l d i a' ks''.
(** Following a path through an update that keeps the children of the nodes on
    the way. *)
Lemma update_path sel act (T : tagged act) p : forall par par' n n',
  update_each sel act par n = Ok n' ->
  (forall q r pn, p = q ++ r -> r <> [] -> at_path par n q = Some pn -> sel (fst pn) (snd pn) = true -> tame act) ->
  match at_path par n p, at_path par' n' p with
  | Some (q, m), Some (q', m') =>
      update_each sel act q m = Ok m'
      /\ (p = [] /\ q = par /\ q' = par' \/ exists x x' y, q = Some x /\ q' = Some x' /\ update_each sel act y x = Ok x')
  | None, None => True
  | _, _ => False
  end.
Proof.
  induction p as [|k p IH]; intros par par' n n' H HK; cbn [at_path].
  - split; [exact H|]. left. auto.
  - destruct n as [c|ns l d i a ks|s|s];
      try (cbn in H; injection H as <-; cbn; destruct k; exact I).
    pose proof H as H0. apply update_el in H. destruct H as (ks' & HM & H).
    assert (EC : children n' = filter (fun k => negb (is_chr k)) ks').
    { destruct (sel par _) eqn:ES; [|subst; reflexivity].
      assert (TA : tame act) by (apply (HK [] (k :: p) (par, El ns l d i a ks)); [reflexivity|discriminate|reflexivity|exact ES]).
      destruct (TA _ _ _ _ _ _ _ _ H) as (a' & ks'' & _ & E). rewrite E. reflexivity. }
    pose proof (mapM_children_nth sel act _ ks ks' (fun n' k HK => update_chr sel act _ k n' T HK) HM k) as HN.
    rewrite EC. change (children (El ns l d i a ks)) with (filter (fun k => negb (is_chr k)) ks).
    destruct (nth_error (filter (fun k => negb (is_chr k)) ks) k) as [c|] eqn:EN, (nth_error (filter (fun k => negb (is_chr k)) ks') k) as [c'|];
      try contradiction; [|exact I].
    specialize (IH (Some (El ns l d i a ks)) (Some n') c c' HN).
    destruct (at_path (Some (El ns l d i a ks)) c p) as [[q m]|], (at_path (Some n') c' p) as [[q' m']|]; try contradiction.
    2-4: apply IH; intros q0 r pn E NR HP; apply (HK (k :: q0) r); [cbn; congruence|exact NR|cbn [at_path];
      change (children (El ns l d i a ks)) with (filter (fun k => negb (is_chr k)) ks); rewrite EN; exact HP].
    destruct IH as [IH1 IH2].
    { intros q0 r pn E NR HP; apply (HK (k :: q0) r); [cbn; congruence|exact NR|cbn [at_path];
      change (children (El ns l d i a ks)) with (filter (fun k => negb (is_chr k)) ks); rewrite EN; exact HP]. }
    split; [exact IH1|]. right. destruct IH2 as [(_ & -> & ->)|IH2]; [|exact IH2].
    exists (El ns l d i a ks), n', par. auto.
Qed.

(** ** What an update does to a node itself *)
Lemma same_element_refl n : same_element n n.
Proof. destruct n; cbn; auto. Qed.
Lemma same_element_trans a b c : same_element a b -> same_element b c -> same_element a c.
Proof. destruct a, b, c; cbn; try congruence; intros (? & ? & ? & ?) (? & ? & ? & ?); repeat split; congruence. Qed.
Lemma same_element_is_el uri t n n' : same_element n n' -> is_el uri t n = is_el uri t n'.
Proof. destruct n, n'; cbn; try congruence; try discriminate. intros (-> & -> & _). reflexivity. Qed.
Lemma update_same sel act par n n' : tagged act -> update_each sel act par n = Ok n' -> same_element n n'.
Proof.
  intros T H. apply update_tag in H; [|exact T]. destruct n; try (subst; reflexivity). destruct H as (a' & ks' & ->). cbn. auto.
Qed.
Lemma update_blank sel act par ks : forall ks', tagged act -> mapM (update_each sel act par) ks = Ok ks' -> map blank ks' = map blank ks.
Proof.
  induction ks as [|k ks IH]; intros ks' T H; cbn in H; [injection H as <-; reflexivity|].
  destruct (update_each sel act par k) as [k'|] eqn:EK; [|discriminate]. cbn in H.
  destruct (mapM (update_each sel act par) ks) as [ks1|]; [|discriminate]. cbn in H. injection H as <-. cbn. rewrite (IH ks1) by auto. f_equal.
  apply update_tag in EK; [|exact T]. destruct k; try (subst; reflexivity). destruct EK as (a' & ks' & ->). reflexivity.
Qed.
(** the action can be computed on the node's own data *)
Definition local (act : node -> node -> result node) : Prop :=
  forall orig ns l d i a ks n', act orig (El ns l d i a ks) = Ok n' -> act (own (El ns l d i a ks)) (own (El ns l d i a ks)) = Ok (own n').
Lemma lead_blank ks : lead (map blank ks) = lead ks.
Proof. induction ks as [|[c|? ? ? ? ? ?|s|s] ks IH]; try reflexivity. cbn. rewrite IH. reflexivity. Qed.
Lemma after_lead_blank ks : after_lead (map blank ks) = map blank (after_lead ks).
Proof. induction ks as [|[c|? ? ? ? ? ?|s|s] ks IH]; try reflexivity. exact IH. Qed.
Lemma blank_chr s : map blank (map Chr s) = map Chr s.
Proof. rewrite map_map. reflexivity. Qed.
Lemma act_text_local sha : local (act_text sha).
Proof.
  intros orig ns l d i a ks n'. unfold act_text. cbn [own text]. rewrite lead_blank.
  destruct (opt_text (lead ks)) as [s|]; [|discriminate].
  destruct (anonymize_string sha s) as [r|]; [|discriminate]. cbn [bind set_text with_kids kids_of]. intros H. injection H as <-.
  cbn [own]. unfold set_text. cbn [with_kids kids_of]. rewrite map_app, blank_chr, after_lead_blank. reflexivity.
Qed.
Lemma act_attr_local sha k : local (act_attr sha k).
Proof.
  intros orig ns l d i a ks n'. unfold act_attr. cbn [own]. 
  change (attr_opt k (El ns l d i a (map blank ks))) with (attr_opt k (El ns l d i a ks)).
  destruct (attr_opt k (El ns l d i a ks)) as [s|].
  - destruct (anonymize_string sha s) as [r|]; [|discriminate]. cbn [bind set_attr]. intros H. injection H as <-. reflexivity.
  - intros H. injection H as <-. reflexivity.
Qed.
Definition step (sel : option node -> node -> bool) (act : node -> node -> result node) (q : option node) (m o : node) : result node :=
  if sel q m then act o o else Ok o.
Lemma update_own sel act q m m' : tagged act -> local act ->
  (forall q n, sel q n = true -> exists uri t, is_el uri t n = true) ->
  update_each sel act q m = Ok m' -> step sel act q m (own m) = Ok (own m').
Proof.
  intros T L HS H. unfold step. destruct m as [c|ns l d i a ks|s|s].
  2:{ apply update_el in H. destruct H as (ks' & HM & H). apply update_blank in HM; [|exact T].
      assert (EO : own (El ns l d i a ks) = own (El ns l d i a ks')) by (cbn; rewrite HM; reflexivity).
      destruct (sel q _).
      - rewrite EO. eapply L. exact H.
      - subst. rewrite EO. reflexivity. }
  all: cbn in H; injection H as <-; destruct (sel q _) eqn:E; [apply HS in E; destruct E as (? & ? & E); discriminate|reflexivity].
Qed.

(** ** The five passes *)
Definition by_name (sel : option node -> node -> bool) (uri : str) (names : str -> bool) : Prop :=
  (forall q m, sel q m = true -> exists t, is_el uri t m = true /\ names t = true)
  /\ (forall q q' m m', match q, q' with Some x, Some x' => same_element x x' | None, None => True | _, _ => False end ->
        same_element m m' -> sel q m = sel q' m').
Lemma any_by_name uri t : by_name (any_el uri t) uri (str_eqb t).
Proof.
  split.
  - intros q m H. exists t. split; [exact H|]. apply str_eqb_refl.
  - intros q q' m m' _ H. apply same_element_is_el, H.
Qed.
Lemma child_by_name uri p t : by_name (child_el uri p t) uri (str_eqb t).
Proof.
  split.
  - intros [x|] m H; [|discriminate]. apply andb_true_iff in H. exists t. split; [apply H|]. apply str_eqb_refl.
  - intros [x|] [x'|] m m' HQ H; cbn; try contradiction; [|reflexivity].
    rewrite (same_element_is_el _ _ _ _ HQ), (same_element_is_el _ _ _ _ H). reflexivity.
Qed.
Definition same_pos (pn pn' : option node * node) : Prop :=
  match fst pn, fst pn' with Some x, Some x' => same_element x x' | None, None => True | _, _ => False end
  /\ same_element (snd pn) (snd pn').
Lemma pass sel act uri names root root' : by_name sel uri names -> tame act -> local act ->
  update_each sel act None root = Ok root' ->
  forall p, match at_path None root p, at_path None root' p with
            | Some pn, Some pn' => same_pos pn pn' /\ step sel act (fst pn) (snd pn) (own (snd pn)) = Ok (own (snd pn'))
                                   /\ update_each sel act (fst pn) (snd pn) = Ok (snd pn')
            | None, None => True
            | _, _ => False
            end.
Proof.
  intros [B _] T L H p. pose proof (tame_tag act T) as TG.
  pose proof (update_path sel act TG p None None root root' H (fun _ _ _ _ _ _ _ => T)) as HP.
  destruct (at_path None root p) as [[q m]|], (at_path None root' p) as [[q' m']|]; try exact HP.
  destruct HP as [H1 H2]. split; [|split].
  - split; cbn [fst snd]; [|eapply update_same; eassumption].
    destruct H2 as [(_ & -> & ->)|(x & x' & y & -> & -> & H2)]; [exact I|eapply update_same; eassumption].
  - apply update_own; try assumption. intros q0 n E. apply B in E. destruct E as (t & E & _). eauto.
  - exact H1.
Qed.
Lemma step_same sel act uri names pn pn' o : by_name sel uri names -> same_pos pn pn' ->
  step sel act (fst pn) (snd pn) o = step sel act (fst pn') (snd pn') o.
Proof. intros [_ B] [H1 H2]. unfold step. rewrite (B _ _ _ _ H1 H2). reflexivity. Qed.
Lemma same_pos_trans a b c : same_pos a b -> same_pos b c -> same_pos a c.
Proof.
  unfold same_pos. intros [H1 H2] [H3 H4]. split; [|eapply same_element_trans; eassumption].
  destruct (fst a), (fst b), (fst c); try contradiction; try exact I. eapply same_element_trans; eassumption.
Qed.
(** the first four passes, on a node's own data *)
Definition four (sha : bytes -> N) (uri : str) (q : option node) (m : node) : result node :=
  let! o1 := step (child_el uri "REQ-IF-HEADER" "COMMENT") (act_text sha) q m (own m) in
  let! o2 := step (child_el uri "REQ-IF-HEADER" "TITLE") (act_text sha) q m o1 in
  let! o3 := step (any_el uri "SPECIFICATION") (act_attr sha "LONG-NAME") q m o2 in
  step (any_el uri "ATTRIBUTE-VALUE-STRING") (act_attr sha "THE-VALUE") q m o3.
Lemma anonymize_inv sha root root' : anonymize_tree sha root = Ok root' ->
  exists uri r1 r2 r3 r4, ns_get (node_nsmap root) None = Some uri
    /\ update_each (child_el uri "REQ-IF-HEADER" "COMMENT") (act_text sha) None root = Ok r1
    /\ update_each (child_el uri "REQ-IF-HEADER" "TITLE") (act_text sha) None r1 = Ok r2
    /\ update_each (any_el uri "SPECIFICATION") (act_attr sha "LONG-NAME") None r2 = Ok r3
    /\ update_each (any_el uri "ATTRIBUTE-VALUE-STRING") (act_attr sha "THE-VALUE") None r3 = Ok r4
    /\ update_each (child_el uri "ATTRIBUTE-VALUE-XHTML" "THE-VALUE") (act_xhtml sha) None r4 = Ok root'.
Proof.
  unfold anonymize_tree. destruct (ns_get (node_nsmap root) None) as [uri|]; [|discriminate]. intros H.
  destruct (update_each _ _ None root) as [r1|] eqn:E1; [|discriminate]. cbn [bind] in H.
  destruct (update_each _ _ None r1) as [r2|] eqn:E2; [|discriminate]. cbn [bind] in H.
  destruct (update_each _ _ None r2) as [r3|] eqn:E3; [|discriminate]. cbn [bind] in H.
  destruct (update_each _ _ None r3) as [r4|] eqn:E4; [|discriminate]. cbn [bind] in H.
  exists uri, r1, r2, r3, r4. auto 7.
Qed.
Lemma four_passes sha uri root r1 r2 r3 r4 :
  update_each (child_el uri "REQ-IF-HEADER" "COMMENT") (act_text sha) None root = Ok r1 ->
  update_each (child_el uri "REQ-IF-HEADER" "TITLE") (act_text sha) None r1 = Ok r2 ->
  update_each (any_el uri "SPECIFICATION") (act_attr sha "LONG-NAME") None r2 = Ok r3 ->
  update_each (any_el uri "ATTRIBUTE-VALUE-STRING") (act_attr sha "THE-VALUE") None r3 = Ok r4 ->
  forall p, match at_path None root p, at_path None r4 p with
            | Some pn, Some pn' => same_pos pn pn' /\ four sha uri (fst pn) (snd pn) = Ok (own (snd pn'))
            | None, None => True
            | _, _ => False
            end.
Proof.
  intros H1 H2 H3 H4 p.
  pose proof (pass _ _ _ _ _ _ (child_by_name uri _ _) (act_text_tame sha) (act_text_local sha) H1 p) as P1.
  pose proof (pass _ _ _ _ _ _ (child_by_name uri _ _) (act_text_tame sha) (act_text_local sha) H2 p) as P2.
  pose proof (pass _ _ _ _ _ _ (any_by_name uri _) (act_attr_tame sha _) (act_attr_local sha _) H3 p) as P3.
  pose proof (pass _ _ _ _ _ _ (any_by_name uri _) (act_attr_tame sha _) (act_attr_local sha _) H4 p) as P4.
  destruct (at_path None root p) as [pn|], (at_path None r1 p) as [pn1|]; try contradiction;
  destruct (at_path None r2 p) as [pn2|]; try contradiction; destruct (at_path None r3 p) as [pn3|]; try contradiction;
  destruct (at_path None r4 p) as [pn4|]; try contradiction; [|exact I].
  destruct P1 as (S1 & E1 & _), P2 as (S2 & E2 & _), P3 as (S3 & E3 & _), P4 as (S4 & E4 & _).
  assert (S12 := same_pos_trans _ _ _ S1 S2). assert (S13 := same_pos_trans _ _ _ S12 S3).
  split; [exact (same_pos_trans _ _ _ S13 S4)|]. unfold four. rewrite E1. cbn [bind].
  rewrite (step_same _ _ _ _ _ _ _ (child_by_name uri _ _) S1), E2. cbn [bind].
  rewrite (step_same _ _ _ _ _ _ _ (any_by_name uri _) S12), E3. cbn [bind].
  rewrite (step_same _ _ _ _ _ _ _ (any_by_name uri _) S13). exact E4.
Qed.
Lemma xhtml_sel uri pn : child_el uri "ATTRIBUTE-VALUE-XHTML" "THE-VALUE" (fst pn) (snd pn) = true <-> is_target uri TXhtml pn.
Proof.
  unfold child_el, is_target, parent_named. destruct (fst pn) as [x|].
  - rewrite andb_true_iff, !is_el_named. split.
    + intros [H1 H2]. split; [eauto|exact H2].
    + intros [(m & E & H1) H2]. injection E as <-. auto.
  - split; [discriminate|]. intros [(m & E & _) _]. discriminate.
Qed.
Lemma header_sel uri t pn : child_el uri "REQ-IF-HEADER" t (fst pn) (snd pn) = true <->
  parent_named uri "REQ-IF-HEADER" (fst pn) /\ named uri t (snd pn).
Proof.
  unfold child_el, parent_named. destruct (fst pn) as [x|].
  - rewrite andb_true_iff, !is_el_named. split.
    + intros [H1 H2]. split; [eauto|exact H2].
    + intros [(m & E & H1) H2]. injection E as <-. auto.
  - split; [discriminate|]. intros [(m & E & _) _]. discriminate.
Qed.
Lemma named_unique uri t t' n : named uri t n -> named uri t' n -> t = t'.
Proof. intros (p & d & i & a & ks & ->) (p' & d' & i' & a' & ks' & E). injection E. congruence. Qed.
(** the whole, at a path that does not lead into an XHTML value *)
Lemma whole sha root root' uri : anonymize_tree sha root = Ok root' -> ns_get (node_nsmap root) None = Some uri ->
  forall p, outside_xhtml uri root p ->
  match at_path None root p, at_path None root' p with
  | Some pn, Some pn' =>
      same_pos pn pn' /\
      exists m4, four sha uri (fst pn) (snd pn) = Ok (own m4) /\ same_element (snd pn) m4
        /\ (is_target uri TXhtml pn /\ (exists s r, stringify_namespaced_children m4 None = Ok s /\ anonymize_string sha s = Ok r
               /\ snd pn' = with_kids m4 (map Chr r))
            \/ ~ is_target uri TXhtml pn /\ own (snd pn') = own m4)
        /\ ((forall k, In k (kids_of (snd pn)) -> foreign uri k) -> is_target uri TXhtml pn -> m4 = snd pn)
  | None, None => True
  | _, _ => False
  end.
Proof.
  intros H EU p HO. apply anonymize_inv in H. destruct H as (uri' & r1 & r2 & r3 & r4 & EU' & H1 & H2 & H3 & H4 & H5).
  rewrite EU in EU'. injection EU' as <-.
  pose proof (four_passes sha uri root r1 r2 r3 r4 H1 H2 H3 H4) as F.
  pose proof (update_path _ _ (xhtml_tag sha) p None None r4 root' H5) as HP.
  assert (HK : forall q r pn, p = q ++ r -> r <> [] -> at_path None r4 q = Some pn ->
     child_el uri "ATTRIBUTE-VALUE-XHTML" "THE-VALUE" (fst pn) (snd pn) = true -> tame (act_xhtml sha)).
  { intros q r pn E NR EP ES. exfalso. specialize (F q). rewrite EP in F. destruct (at_path None root q) as [pn0|] eqn:E0; [|contradiction].
    apply (HO q r pn0 E NR E0). apply xhtml_sel. destruct F as [[F1 F2] _].
    rewrite (proj2 (child_by_name uri "ATTRIBUTE-VALUE-XHTML" "THE-VALUE") _ _ _ _ F1 F2). exact ES. }
  specialize (HP HK). pose proof (F p) as Fp.
  destruct (at_path None root p) as [pn|] eqn:E0, (at_path None r4 p) as [[q4 m4]|] eqn:EP4; try contradiction;
    destruct (at_path None root' p) as [[q' m']|] eqn:E'; try contradiction; [|exact I].
  destruct Fp as [S4 F4]. destruct HP as [U5 H6].
  assert (S5 : same_pos (q4, m4) (q', m')).
  { split; cbn [fst snd]; [|exact (update_same _ _ _ _ _ (xhtml_tag sha) U5)].
    destruct H6 as [(_ & -> & ->)|(x & x' & y & -> & -> & H6)]; [exact I|exact (update_same _ _ _ _ _ (xhtml_tag sha) H6)]. }
  split; [exact (same_pos_trans _ _ _ S4 S5)|]. exists m4. cbn [fst snd] in F4. split; [exact F4|]. split; [apply S4|]. cbn [snd].
  assert (TS : child_el uri "ATTRIBUTE-VALUE-XHTML" "THE-VALUE" q4 m4 = child_el uri "ATTRIBUTE-VALUE-XHTML" "THE-VALUE" (fst pn) (snd pn)).
  { symmetry. apply (proj2 (child_by_name uri "ATTRIBUTE-VALUE-XHTML" "THE-VALUE") _ _ _ _ (proj1 S4) (proj2 S4)). }
  split.
  - destruct (child_el uri "ATTRIBUTE-VALUE-XHTML" "THE-VALUE" (fst pn) (snd pn)) eqn:EC.
    + left. split; [apply xhtml_sel, EC|]. destruct m4 as [c|ns l d i a ks|s|s];
        try (exfalso; unfold child_el in TS; destruct q4; cbn in TS; try rewrite andb_false_r in TS; discriminate).
      apply update_el in U5. destruct U5 as (ks' & _ & U5). rewrite TS in U5. unfold act_xhtml in U5.
      destruct (stringify_namespaced_children _ _) as [s|] eqn:ES; [|discriminate]. cbn [bind] in U5.
      destruct (anonymize_string sha s) as [r|] eqn:ER; [|discriminate]. cbn [bind] in U5. injection U5 as <-.
      exists s, r. auto.
    + right. split; [intros X; apply xhtml_sel in X; congruence|].
      destruct m4 as [c|ns l d i a ks|s|s]; try (cbn in U5; injection U5 as <-; reflexivity).
      apply update_el in U5. destruct U5 as (ks' & HM & U5). rewrite TS in U5. subst m'. cbn [own].
      rewrite (update_blank _ _ _ _ _ (xhtml_tag sha) HM). reflexivity.
  - intros HF HT.
    assert (KEEP : forall sel act names, by_name sel uri names -> forall k q, foreign uri k -> update_each sel act q k = Ok k).
    { intros sel act names B. induction k as [c|s|s|ns l d i a ks IH] using node_deep_ind; intros q FK; try reflexivity.
      inversion FK as [| | |ns' l' d' i' a' ks' N1 N2]; subst. cbn [update_each].
      assert (EM : mapM (update_each sel act (Some (El ns l d i a ks))) ks = Ok ks).
      { generalize (Some (El ns l d i a ks)) as q0. intros q0. clear FK. induction IH as [|k ks Hk _ IHk]; [reflexivity|]. cbn.
        rewrite Hk by (apply N2; left; reflexivity). cbn. rewrite IHk; [reflexivity|]. intros k0 H0. apply N2. right. exact H0. }
      rewrite EM. cbn [bind with_kids]. destruct (sel q _) eqn:ES; [|reflexivity]. exfalso. apply (proj1 B) in ES.
      destruct ES as (t & ES & _). apply is_el_named in ES. destruct ES as (p0 & ? & ? & ? & ? & EE). injection EE as -> _ _ _ _ _. congruence. }
    assert (ONE : forall sel act names q m mm, by_name sel uri names -> names "THE-VALUE" = false -> named uri "THE-VALUE" m ->
       (forall k, In k (kids_of m) -> foreign uri k) -> update_each sel act q m = Ok mm -> mm = m).
    { intros sel act names q m mm B HN (p0 & d & i & a & ks & ->) HK' HU. cbn [kids_of] in HK'. apply update_el in HU.
      destruct HU as (ks' & HM & HU).
      assert (EM : forall q0, mapM (update_each sel act q0) ks = Ok ks).
      { intros q0. clear HM HU. induction ks as [|k ks IHk]; [reflexivity|]. cbn.
        rewrite (KEEP sel act names B) by (apply HK'; left; reflexivity). cbn. rewrite IHk; [reflexivity|].
        intros k0 H0. apply HK'. right. exact H0. }
      rewrite EM in HM. injection HM as <-. destruct (sel q _) eqn:ES; [|exact HU]. exfalso. apply (proj1 B) in ES.
      destruct ES as (t & ES & EN). apply is_el_named in ES. destruct ES as (? & ? & ? & ? & ? & EE). injection EE as _ <- _ _ _ _. congruence. }
    pose proof (pass _ _ _ _ _ _ (child_by_name uri _ _) (act_text_tame sha) (act_text_local sha) H1 p) as P1.
    pose proof (pass _ _ _ _ _ _ (child_by_name uri _ _) (act_text_tame sha) (act_text_local sha) H2 p) as P2.
    pose proof (pass _ _ _ _ _ _ (any_by_name uri _) (act_attr_tame sha _) (act_attr_local sha _) H3 p) as P3.
    pose proof (pass _ _ _ _ _ _ (any_by_name uri _) (act_attr_tame sha _) (act_attr_local sha _) H4 p) as P4.
    rewrite E0 in P1. destruct (at_path None r1 p) as [pn1|]; [|contradiction].
    destruct (at_path None r2 p) as [pn2|]; [|contradiction]. destruct (at_path None r3 p) as [pn3|]; [|contradiction].
    rewrite EP4 in P4. destruct P1 as (_ & _ & U1), P2 as (_ & _ & U2), P3 as (_ & _ & U3), P4 as (_ & _ & U4).
    destruct HT as [_ HT].
    apply (ONE _ _ _ _ _ _ (child_by_name uri "REQ-IF-HEADER" "COMMENT") eq_refl HT HF) in U1. rewrite U1 in U2.
    apply (ONE _ _ _ _ _ _ (child_by_name uri "REQ-IF-HEADER" "TITLE") eq_refl HT HF) in U2. rewrite U2 in U3.
    apply (ONE _ _ _ _ _ _ (any_by_name uri "SPECIFICATION") eq_refl HT HF) in U3. rewrite U3 in U4.
    apply (ONE _ _ _ _ _ _ (any_by_name uri "ATTRIBUTE-VALUE-STRING") eq_refl HT HF) in U4. exact U4.
Qed.

(** ** C39 *)
Lemma anonymize_digest sha s r : anonymize_string sha s = Ok r <-> digest sha s r.
Proof.
  unfold anonymize_string, digest. destruct (utf8_encode s) as [b|].
  - split; [intros H; injection H as <-; eauto|]. intros (b' & E & ->). injection E as <-. reflexivity.
  - split; [discriminate|]. intros (b' & E & _). discriminate.
Qed.
Lemma sel_false sel uri t pn : by_name sel uri (str_eqb t) -> ~ named uri t (snd pn) -> sel (fst pn) (snd pn) = false.
Proof.
  intros B N. destruct (sel (fst pn) (snd pn)) eqn:E; [|reflexivity]. exfalso. apply (proj1 B) in E.
  destruct E as (t' & E & E2). apply str_eqb_eq in E2. subst t'. apply N, is_el_named, E.
Qed.
Lemma text_own n : text (own n) = text n.
Proof. destruct n; try reflexivity. cbn [own text]. rewrite lead_blank. reflexivity. Qed.
Lemma attr_own k n : attr_opt k (own n) = attr_opt k n.
Proof. destruct n; reflexivity. Qed.
Lemma lead_chr s ks : lead (after_lead ks) = [] -> lead (map Chr s ++ after_lead ks) = s.
Proof. intros H. induction s as [|c s IH]; [exact H|]. cbn. rewrite IH. reflexivity. Qed.
Lemma lead_after ks : lead (after_lead ks) = [].
Proof. induction ks as [|[c|? ? ? ? ? ?|s|s] ks IH]; try reflexivity. exact IH. Qed.
Lemma after_chr s ks : after_lead (map Chr s ++ after_lead ks) = after_lead ks.
Proof.
  induction s as [|c s IH]; [|exact IH]. cbn. induction ks as [|[c|? ? ? ? ? ?|s|s] ks IH]; try reflexivity. exact IH.
Qed.
Lemma digest_nonempty sha s r : digest sha s r -> exists c r', r = c :: r'.
Proof. intros (b & _ & ->). eexists _, _. reflexivity. Qed.
(** a target of one kind, and only that *)
Lemma named_no uri t t' n : named uri t n -> str_eqb t t' = false -> ~ named uri t' n.
Proof. intros H E H'. rewrite (named_unique _ _ _ _ H H'), str_eqb_refl in E. discriminate. Qed.
Lemma four_header sha uri pn o : is_target uri THeaderText pn -> four sha uri (fst pn) (snd pn) = Ok o ->
  exists s r, text (snd pn) = Some s /\ digest sha s r /\ o = set_text r (own (snd pn)).
Proof.
  intros [HP HN] H. unfold four in H.
  assert (S3 : any_el uri "SPECIFICATION" (fst pn) (snd pn) = false).
  { apply (sel_false _ _ _ _ (any_by_name uri _)). destruct HN as [HN|HN]; apply (named_no _ _ _ _ HN); reflexivity. }
  assert (S4 : any_el uri "ATTRIBUTE-VALUE-STRING" (fst pn) (snd pn) = false).
  { apply (sel_false _ _ _ _ (any_by_name uri _)). destruct HN as [HN|HN]; apply (named_no _ _ _ _ HN); reflexivity. }
  assert (ACT : forall o, act_text sha (own (snd pn)) (own (snd pn)) = Ok o ->
     exists s r, text (snd pn) = Some s /\ digest sha s r /\ o = set_text r (own (snd pn))).
  { intros o' HA. unfold act_text in HA. rewrite text_own in HA. destruct (text (snd pn)) as [s|]; [|discriminate].
    destruct (anonymize_string sha s) as [r|] eqn:ER; [|discriminate]. cbn [bind] in HA. injection HA as <-.
    exists s, r. split; [reflexivity|]. split; [apply anonymize_digest, ER|reflexivity]. }
  unfold step in H. rewrite S3, S4 in H. destruct HN as [HN|HN].
  - assert (S1 : child_el uri "REQ-IF-HEADER" "COMMENT" (fst pn) (snd pn) = true) by (apply header_sel; auto).
    assert (S2 : child_el uri "REQ-IF-HEADER" "TITLE" (fst pn) (snd pn) = false).
    { apply (sel_false _ _ _ _ (child_by_name uri _ _)). apply (named_no _ _ _ _ HN). reflexivity. }
    rewrite S1, S2 in H. apply ACT. destruct (act_text _ _ _); [exact H|discriminate].
  - assert (S1 : child_el uri "REQ-IF-HEADER" "TITLE" (fst pn) (snd pn) = true) by (apply header_sel; auto).
    assert (S2 : child_el uri "REQ-IF-HEADER" "COMMENT" (fst pn) (snd pn) = false).
    { apply (sel_false _ _ _ _ (child_by_name uri _ _)). apply (named_no _ _ _ _ HN). reflexivity. }
    rewrite S1, S2 in H. cbn [bind] in H. apply ACT. destruct (act_text _ _ _); [exact H|discriminate].
Qed.
Lemma four_attr sha uri pn o t k : t = "SPECIFICATION" /\ k = "LONG-NAME" \/ t = "ATTRIBUTE-VALUE-STRING" /\ k = "THE-VALUE" ->
  named uri t (snd pn) -> four sha uri (fst pn) (snd pn) = Ok o -> act_attr sha k (own (snd pn)) (own (snd pn)) = Ok o.
Proof.
  intros HT HN H. unfold four in H.
  assert (S1 : child_el uri "REQ-IF-HEADER" "COMMENT" (fst pn) (snd pn) = false).
  { apply (sel_false _ _ _ _ (child_by_name uri _ _)). apply (named_no _ _ _ _ HN). destruct HT as [[-> ->]|[-> ->]]; reflexivity. }
  assert (S2 : child_el uri "REQ-IF-HEADER" "TITLE" (fst pn) (snd pn) = false).
  { apply (sel_false _ _ _ _ (child_by_name uri _ _)). apply (named_no _ _ _ _ HN). destruct HT as [[-> ->]|[-> ->]]; reflexivity. }
  unfold step in H. rewrite S1, S2 in H. cbn [bind] in H. destruct HT as [[-> ->]|[-> ->]].
  - assert (S3 : any_el uri "SPECIFICATION" (fst pn) (snd pn) = true) by (apply is_el_named, HN).
    assert (S4 : any_el uri "ATTRIBUTE-VALUE-STRING" (fst pn) (snd pn) = false).
    { apply (sel_false _ _ _ _ (any_by_name uri _)). apply (named_no _ _ _ _ HN). reflexivity. }
    rewrite S3, S4 in H. destruct (act_attr _ _ _ _); [exact H|discriminate].
  - assert (S3 : any_el uri "ATTRIBUTE-VALUE-STRING" (fst pn) (snd pn) = true) by (apply is_el_named, HN).
    assert (S4 : any_el uri "SPECIFICATION" (fst pn) (snd pn) = false).
    { apply (sel_false _ _ _ _ (any_by_name uri _)). apply (named_no _ _ _ _ HN). reflexivity. }
    rewrite S3, S4 in H. exact H.
Qed.
Lemma four_none sha uri pn o :
  ~ is_target uri THeaderText pn -> ~ is_target uri TLongName pn -> ~ is_target uri TString pn ->
  four sha uri (fst pn) (snd pn) = Ok o -> o = own (snd pn).
Proof.
  intros N1 N2 N3 H. unfold four, step in H.
  assert (S1 : child_el uri "REQ-IF-HEADER" "COMMENT" (fst pn) (snd pn) = false).
  { destruct (child_el uri "REQ-IF-HEADER" "COMMENT" (fst pn) (snd pn)) eqn:E; [|reflexivity]. exfalso. apply N1. apply header_sel in E. split; [apply E|left; apply E]. }
  assert (S2 : child_el uri "REQ-IF-HEADER" "TITLE" (fst pn) (snd pn) = false).
  { destruct (child_el uri "REQ-IF-HEADER" "TITLE" (fst pn) (snd pn)) eqn:E; [|reflexivity]. exfalso. apply N1. apply header_sel in E. split; [apply E|right; apply E]. }
  assert (S3 : any_el uri "SPECIFICATION" (fst pn) (snd pn) = false) by (apply (sel_false _ _ _ _ (any_by_name uri _)), N2).
  assert (S4 : any_el uri "ATTRIBUTE-VALUE-STRING" (fst pn) (snd pn) = false) by (apply (sel_false _ _ _ _ (any_by_name uri _)), N3).
  rewrite S1, S2, S3, S4 in H. cbn [bind] in H. congruence.
Qed.
Lemma assoc_replace k v a : assoc k (map (fun x => (a_key x, a_val x)) a) <> None ->
  assoc k (map (fun x => (a_key x, a_val x)) (replace_attr k v a)) = Some v.
Proof.
  induction a as [|x a IH]; cbn; [congruence|]. destruct (str_eqb k (a_key x)) eqn:E; cbn.
  - intros _. change (a_key (Attr (a_ns x) (a_local x) v)) with (a_key x). rewrite E. reflexivity.
  - rewrite E. exact IH.
Qed.

Lemma target_at sha root root' uri p pn : anonymize_tree sha root = Ok root' -> ns_get (node_nsmap root) None = Some uri ->
  outside_xhtml uri root p -> at_path None root p = Some pn ->
  exists pn', at_path None root' p = Some pn' /\ same_pos pn pn' /\
      exists m4, four sha uri (fst pn) (snd pn) = Ok (own m4) /\ same_element (snd pn) m4
        /\ (is_target uri TXhtml pn /\ (exists s r, stringify_namespaced_children m4 None = Ok s /\ anonymize_string sha s = Ok r
               /\ snd pn' = with_kids m4 (map Chr r))
            \/ ~ is_target uri TXhtml pn /\ own (snd pn') = own m4)
        /\ ((forall k, In k (kids_of (snd pn)) -> foreign uri k) -> is_target uri TXhtml pn -> m4 = snd pn).
Proof.
  intros H EU HO HP. pose proof (whole sha root root' uri H EU p HO) as W. rewrite HP in W.
  destruct (at_path None root' p) as [pn'|]; [|contradiction]. exists pn'. split; [reflexivity|exact W].
Qed.
Lemma not_xhtml_if uri pn t : named uri t (snd pn) -> str_eqb t "THE-VALUE" = false -> ~ is_target uri TXhtml pn.
Proof. intros HN E [_ H]. exact (named_no _ _ _ _ HN E H). Qed.

(** The digest of a text: the last ten digits, as a number, of the SHA-256 of its
    UTF-8 form. *)
Theorem C39_digest :
  forall sha s t, digest sha s t
    <-> exists b d, utf8 s b /\ numeral d (sha b mod 10000000000)%N /\ t = "...Anonymized-" ++ d ++ "...".
Proof.
  intros sha s t. unfold digest. split.
  - intros (b & H & ->). exists b. eexists. split; [apply encode_spec, H|]. split; [apply str_of_N_numeral|reflexivity].
  - intros (b & d & H & HD & ->). exists b. split; [apply encode_spec, H|].
    rewrite (numeral_written _ _ HD _ _ (str_of_N_numeral _) eq_refl). reflexivity.
Qed.
Print Assumptions C39_digest.
Example digest_ok : digest (fun _ => 120000000034%N) "a" "...Anonymized-34...".
Proof. exists "a". split; vm_compute; reflexivity. Qed.
(** Header COMMENT and TITLE: the text becomes its digest. *)
Theorem C39_header_texts_replaced :
  forall sha root root' uri p pn,
    anonymize_tree sha root = Ok root' -> ns_get (node_nsmap root) None = Some uri ->
    outside_xhtml uri root p -> at_path None root p = Some pn -> is_target uri THeaderText pn ->
    exists n' s t, node_at_path root' p = Some n' /\ text (snd pn) = Some s /\ text n' = Some t /\ digest sha s t.
Proof.
  intros sha root root' uri p pn H EU HO HP HT. destruct (target_at _ _ _ _ _ _ H EU HO HP) as (pn' & HP' & _ & m4 & HF & _ & HX & _).
  destruct (four_header _ _ _ _ HT HF) as (s & r & E1 & E2 & E3).
  exists (snd pn'), s, r. unfold node_at_path. rewrite HP'. split; [reflexivity|]. split; [exact E1|]. split; [|exact E2].
  destruct HX as [[HX _]|[_ HX]].
  { exfalso. destruct HT as [_ [HT|HT]]; exact (not_xhtml_if _ _ _ HT eq_refl HX). }
  rewrite <- text_own, HX, E3. destruct HT as [_ HT].
  assert (EL : exists p d i a ks t, snd pn = El p t d i a ks).
  { destruct HT as [(? & ? & ? & ? & ? & ->)|(? & ? & ? & ? & ? & ->)]; eexists _, _, _, _, _, _; reflexivity. }
  destruct EL as (p0 & d & i & a & ks & t & ->). unfold set_text. cbn [own with_kids kids_of text].
  rewrite lead_chr by apply lead_after. destruct (digest_nonempty _ _ _ E2) as (c & r' & ->). reflexivity.
Qed.
Lemma attr_target sha root root' uri p pn t k :
  t = "SPECIFICATION" /\ k = "LONG-NAME" \/ t = "ATTRIBUTE-VALUE-STRING" /\ k = "THE-VALUE" ->
  anonymize_tree sha root = Ok root' -> ns_get (node_nsmap root) None = Some uri ->
  outside_xhtml uri root p -> at_path None root p = Some pn -> named uri t (snd pn) ->
  exists pn', at_path None root' p = Some pn' /\ same_pos pn pn' /\ act_attr sha k (own (snd pn)) (own (snd pn)) = Ok (own (snd pn')).
Proof.
  intros HT H EU HO HP HN. destruct (target_at _ _ _ _ _ _ H EU HO HP) as (pn' & HP' & SP & m4 & HF & _ & HX & _).
  exists pn'. split; [exact HP'|]. split; [exact SP|]. destruct HX as [[HX _]|[_ HX]].
  { exfalso. apply (not_xhtml_if _ _ _ HN); [|exact HX]. destruct HT as [[-> _]|[-> _]]; reflexivity. }
  rewrite HX. exact (four_attr _ _ _ _ _ _ HT HN HF).
Qed.
Lemma attr_replaced sha root root' uri p pn t k s :
  t = "SPECIFICATION" /\ k = "LONG-NAME" \/ t = "ATTRIBUTE-VALUE-STRING" /\ k = "THE-VALUE" ->
  anonymize_tree sha root = Ok root' -> ns_get (node_nsmap root) None = Some uri ->
  outside_xhtml uri root p -> at_path None root p = Some pn -> named uri t (snd pn) ->
  attr_opt k (snd pn) = Some s ->
  exists n' r, node_at_path root' p = Some n' /\ attr_opt k n' = Some r /\ digest sha s r.
Proof.
  intros HT H EU HO HP HN HA. destruct (attr_target _ _ _ _ _ _ _ _ HT H EU HO HP HN) as (pn' & HP' & _ & HX).
  unfold act_attr in HX. rewrite attr_own, HA in HX. destruct (anonymize_string sha s) as [r|] eqn:ER; [|discriminate].
  cbn [bind] in HX. injection HX as HX. exists (snd pn'), r. unfold node_at_path. rewrite HP'. split; [reflexivity|].
  split; [|apply anonymize_digest, ER]. rewrite <- (attr_own k (snd pn')), <- HX. destruct HN as (p0 & d & i & a & ks & E). rewrite E in HA |- *.
  cbn [own set_attr]. unfold attr_opt, attrib in *. apply assoc_replace. congruence.
Qed.
(** SPECIFICATION names *)
Theorem C39_specification_names_replaced :
  forall sha root root' uri p pn s,
    anonymize_tree sha root = Ok root' -> ns_get (node_nsmap root) None = Some uri ->
    outside_xhtml uri root p -> at_path None root p = Some pn -> is_target uri TLongName pn ->
    attr_opt "LONG-NAME" (snd pn) = Some s ->
    exists n' t, node_at_path root' p = Some n' /\ attr_opt "LONG-NAME" n' = Some t /\ digest sha s t.
Proof. intros. eapply attr_replaced; eauto. Qed.
(** STRING values *)
Theorem C39_string_values_replaced :
  forall sha root root' uri p pn s,
    anonymize_tree sha root = Ok root' -> ns_get (node_nsmap root) None = Some uri ->
    outside_xhtml uri root p -> at_path None root p = Some pn -> is_target uri TString pn ->
    attr_opt "THE-VALUE" (snd pn) = Some s ->
    exists n' t, node_at_path root' p = Some n' /\ attr_opt "THE-VALUE" n' = Some t /\ digest sha s t.
Proof. intros. eapply attr_replaced; eauto. Qed.
(** XHTML values: nothing but a digest is left; it is that of the former content,
    unless that content contained elements of the document's own namespace. *)
Theorem C39_xhtml_values_replaced :
  forall sha root root' uri p pn,
    anonymize_tree sha root = Ok root' -> ns_get (node_nsmap root) None = Some uri ->
    outside_xhtml uri root p -> at_path None root p = Some pn -> is_target uri TXhtml pn ->
    exists n' s t, node_at_path root' p = Some n' /\ kids_of n' = map Chr t /\ text n' = Some t /\ digest sha s t
      /\ ((forall k, In k (kids_of (snd pn)) -> foreign uri k) ->
          stringify_namespaced_children (snd pn) None = Ok s).
Proof.
  intros sha root root' uri p pn H EU HO HP HT. destruct (target_at _ _ _ _ _ _ H EU HO HP) as (pn' & HP' & _ & m4 & HF & SE & HX & HFo).
  destruct HX as [(_ & s & r & E1 & E2 & E3)|[HX _]]; [|contradiction].
  exists (snd pn'), s, r. unfold node_at_path. rewrite HP'. split; [reflexivity|].
  apply anonymize_digest in E2. rewrite E3.
  assert (EL : exists ns l d i a ks, m4 = El ns l d i a ks).
  { destruct HT as [_ (p0 & d & i & a & ks & E)]. rewrite E in SE. destruct m4; cbn in SE; try discriminate. eauto 8. }
  destruct EL as (ns & l & d & i & a & ks & E4). rewrite E4. cbn [with_kids kids_of text]. split; [reflexivity|].
  split; [|split; [exact E2|]].
  - pose proof (lead_chr r [] eq_refl) as EL. cbn [after_lead] in EL. rewrite app_nil_r in EL. rewrite EL.
    destruct (digest_nonempty _ _ _ E2) as (c & r' & ->). reflexivity.
  - intros HFk. rewrite <- (HFo HFk HT). exact E1.
Qed.

(** ** C40 *)
(** No node is added or removed, outside XHTML values. *)
Theorem C40_same_nodes :
  forall sha root root' uri p,
    anonymize_tree sha root = Ok root' -> ns_get (node_nsmap root) None = Some uri -> outside_xhtml uri root p ->
    (node_at_path root p = None <-> node_at_path root' p = None)
    /\ (forall n n', node_at_path root p = Some n -> node_at_path root' p = Some n' -> same_element n n').
Proof.
  intros sha root root' uri p H EU HO. pose proof (whole sha root root' uri H EU p HO) as W. unfold node_at_path.
  destruct (at_path None root p) as [pn|], (at_path None root' p) as [pn'|]; try contradiction; cbn [option_map].
  - split; [split; discriminate|]. intros n n' E1 E2. injection E1 as <-. injection E2 as <-. apply W.
  - split; [tauto|]. intros n n' E. discriminate.
Qed.
(** A node that is no target keeps all its own data. *)
Theorem C40_other_nodes_unchanged :
  forall sha root root' uri p pn,
    anonymize_tree sha root = Ok root' -> ns_get (node_nsmap root) None = Some uri ->
    outside_xhtml uri root p -> at_path None root p = Some pn -> (forall k, ~ is_target uri k pn) ->
    exists n', node_at_path root' p = Some n' /\ own n' = own (snd pn).
Proof.
  intros sha root root' uri p pn H EU HO HP HT. destruct (target_at _ _ _ _ _ _ H EU HO HP) as (pn' & HP' & _ & m4 & HF & _ & HX & _).
  exists (snd pn'). unfold node_at_path. rewrite HP'. split; [reflexivity|].
  destruct HX as [[HX _]|[_ HX]]; [exfalso; exact (HT TXhtml HX)|]. rewrite HX.
  apply (four_none sha uri pn); auto.
Qed.
Lemma replace_same k v a : Forall2 (fun x y => a_ns x = a_ns y /\ a_local x = a_local y /\ (a_key x <> k -> a_val x = a_val y)) a (replace_attr k v a).
Proof.
  assert (R : forall a, Forall2 (fun x y => a_ns x = a_ns y /\ a_local x = a_local y /\ (a_key x <> k -> a_val x = a_val y)) a a).
  { clear. induction a; constructor; auto. }
  induction a as [|x a IH]; [constructor|]. cbn. destruct (str_eqb k (a_key x)) eqn:E; constructor; auto.
  apply str_eqb_eq in E. cbn. repeat split. congruence.
Qed.
(** A target keeps everything but the replaced text or value. *)
Theorem C40_targets_keep_the_rest :
  forall sha root root' uri p pn k,
    anonymize_tree sha root = Ok root' -> ns_get (node_nsmap root) None = Some uri ->
    outside_xhtml uri root p -> at_path None root p = Some pn -> is_target uri k pn ->
    exists n', node_at_path root' p = Some n'
      /\ match k with
         | THeaderText => attrs_of n' = attrs_of (snd pn)
                          /\ after_lead (kids_of (own n')) = after_lead (kids_of (own (snd pn)))
         | TLongName => same_attrs_but "LONG-NAME" (snd pn) n' /\ same_content (snd pn) n'
         | TString => same_attrs_but "THE-VALUE" (snd pn) n' /\ same_content (snd pn) n'
         | TXhtml => attrs_of n' = attrs_of (snd pn)
         end.
Proof.
  intros sha root root' uri p pn k H EU HO HP HT.
  assert (AO : forall n, attrs_of (own n) = attrs_of n) by (intros [| | |]; reflexivity).
  assert (ATTR : forall t key, t = "SPECIFICATION" /\ key = "LONG-NAME" \/ t = "ATTRIBUTE-VALUE-STRING" /\ key = "THE-VALUE" ->
    named uri t (snd pn) -> exists n', node_at_path root' p = Some n' /\ same_attrs_but key (snd pn) n' /\ same_content (snd pn) n').
  { intros t key HK HN. destruct (attr_target _ _ _ _ _ _ _ _ HK H EU HO HP HN) as (pn' & HP' & _ & HX).
    exists (snd pn'). unfold node_at_path. rewrite HP'. split; [reflexivity|].
    unfold same_attrs_but, same_content. rewrite <- (AO (snd pn')).
    destruct HN as (p0 & d & i & a & ks & E). rewrite E in *. unfold act_attr in HX.
    destruct (attr_opt key _) as [s|].
    - destruct (anonymize_string sha s) as [r|]; [|discriminate]. cbn [bind own set_attr] in HX. injection HX as <-.
      cbn [attrs_of kids_of own]. split; [apply replace_same|reflexivity].
    - injection HX as <-. split; [|reflexivity]. cbn [attrs_of own]. clear. induction a; constructor; auto. }
  destruct k; try (eapply ATTR; [|exact HT]; auto).
  - destruct (target_at _ _ _ _ _ _ H EU HO HP) as (pn' & HP' & _ & m4 & HF & _ & HX & _).
    destruct (four_header _ _ _ _ HT HF) as (s & r & E1 & E2 & E3).
    exists (snd pn'). unfold node_at_path. rewrite HP'. split; [reflexivity|].
    destruct HX as [[HX _]|[_ HX]].
    { exfalso. destruct HT as [_ [HT|HT]]; exact (not_xhtml_if _ _ _ HT eq_refl HX). }
    rewrite <- (AO (snd pn')), HX, E3, <- (AO (snd pn)). destruct (own (snd pn)); try (split; reflexivity).
    unfold set_text. cbn [with_kids attrs_of kids_of]. rewrite after_chr. auto.
  - destruct (target_at _ _ _ _ _ _ H EU HO HP) as (pn' & HP' & _ & m4 & HF & SE & HX & HFo).
    destruct HX as [(_ & s & r & E1 & E2 & E3)|[HX _]]; [|contradiction].
    exists (snd pn'). unfold node_at_path. rewrite HP'. split; [reflexivity|].
    apply four_none in HF.
    2:{ intros [_ [X|X]]; apply (named_no _ _ "THE-VALUE" _ X eq_refl), HT. }
    2:{ intros X. apply (named_no _ _ "THE-VALUE" _ X eq_refl), HT. }
    2:{ intros X. apply (named_no _ _ "THE-VALUE" _ X eq_refl), HT. }
    rewrite E3, <- (AO (snd pn)), <- HF, AO. destruct m4; reflexivity.
Qed.
(** Equal texts get equal replacements: e.g. two STRING values. *)
Theorem C40_equal_values_stay_equal :
  forall sha root root' uri p1 p2 pn1 pn2 s n1 n2,
    anonymize_tree sha root = Ok root' -> ns_get (node_nsmap root) None = Some uri ->
    outside_xhtml uri root p1 -> outside_xhtml uri root p2 ->
    at_path None root p1 = Some pn1 -> at_path None root p2 = Some pn2 ->
    is_target uri TString pn1 -> is_target uri TString pn2 ->
    attr_opt "THE-VALUE" (snd pn1) = Some s -> attr_opt "THE-VALUE" (snd pn2) = Some s ->
    node_at_path root' p1 = Some n1 -> node_at_path root' p2 = Some n2 ->
    attr_opt "THE-VALUE" n1 = attr_opt "THE-VALUE" n2.
Proof.
  intros sha root root' uri p1 p2 pn1 pn2 s n1 n2 H EU O1 O2 P1 P2 T1 T2 A1 A2 N1 N2.
  destruct (C39_string_values_replaced _ _ _ _ _ _ _ H EU O1 P1 T1 A1) as (n1' & t1 & E1 & E2 & (b1 & E3 & ->)).
  destruct (C39_string_values_replaced _ _ _ _ _ _ _ H EU O2 P2 T2 A2) as (n2' & t2 & F1 & F2 & (b2 & F3 & ->)).
  congruence.
Qed.

(** ** Findings *)
Definition sha0 (b : bytes) : N := fold_left (fun h x => (h * 31 + x)%N) b 7%N.
(** Text of a header COMMENT that follows an XML comment (or any child) survives. *)
Theorem C39_text_after_a_child_survives_refuted :
  exists doc root', anonymize_text sha0 doc = Ok root'
    /\ exists c, node_at_path root' [0; 0; 0] = Some c /\ tag_is "{u}COMMENT" c = true
       /\ exists before, kids_of c = before ++ map Chr "secret".
Proof.
  eexists "<REQ-IF xmlns=""u""><THE-HEADER><REQ-IF-HEADER><COMMENT>a<!--x-->secret</COMMENT></REQ-IF-HEADER></THE-HEADER></REQ-IF>", _.
  split; [vm_compute; reflexivity|]. eexists. split; [vm_compute; reflexivity|]. split; [vm_compute; reflexivity|].
  vm_compute. eexists ([_; _; _; _; _; _; _; _; _; _; _; _; _; _; _; _; _; _; _; _; _]). reflexivity.
Qed.

(** An empty header COMMENT or TITLE, a document without default namespace, or an
    XML comment inside an XHTML value makes the command fail. *)
Theorem C39_fails_on_valid_documents_refuted :
  anonymize_text sha0 "<REQ-IF xmlns=""u""><THE-HEADER><REQ-IF-HEADER><TITLE/></REQ-IF-HEADER></THE-HEADER></REQ-IF>" = Raise EAttributeError
  /\ anonymize_text sha0 "<r:REQ-IF xmlns:r=""u""><r:THE-HEADER/></r:REQ-IF>" = Raise EKeyError
  /\ anonymize_text sha0 "<REQ-IF xmlns=""u""><ATTRIBUTE-VALUE-XHTML><THE-VALUE><d xmlns=""x""/><!--c--></THE-VALUE></ATTRIBUTE-VALUE-XHTML></REQ-IF>" = Raise EValueError.
Proof. vm_compute. auto. Qed.
(** SPEC-OBJECT names and descriptions are not replaced. *)
Theorem C40_spec_object_names_survive_refuted :
  exists doc root', anonymize_text sha0 doc = Ok root'
    /\ exists o, node_at_path root' [0] = Some o /\ tag_is "{u}SPEC-OBJECT" o = true
       /\ attr_opt "LONG-NAME" o = Some "secret" /\ attr_opt "DESC" o = Some "also secret".
Proof.
  eexists "<REQ-IF xmlns=""u""><SPEC-OBJECT LONG-NAME=""secret"" DESC=""also secret""/></REQ-IF>", _.
  split; [vm_compute; reflexivity|]. eexists. split; [vm_compute; reflexivity|]. vm_compute. auto.
Qed.

(** ** Concrete case *)
Definition sample_doc : str :=
  "<REQ-IF xmlns=""u"" xmlns:x=""h""><THE-HEADER><REQ-IF-HEADER><TITLE>top</TITLE></REQ-IF-HEADER></THE-HEADER>"
  ++ "<SPECIFICATION LONG-NAME=""top"" ID=""1""/><ATTRIBUTE-VALUE-STRING THE-VALUE=""v""/>"
  ++ "<ATTRIBUTE-VALUE-XHTML><THE-VALUE> <x:div>v</x:div> </THE-VALUE></ATTRIBUTE-VALUE-XHTML></REQ-IF>".
Definition sample_root : node := match lxml_parse sample_doc with Some (_, r) => r | None => Cmt [] end.
Definition sample_result : node := match anonymize_tree sha0 sample_root with Ok r => r | Raise _ => Cmt [] end.
Example C39_example :
  anonymize_tree sha0 sample_root = Ok sample_result
  /\ ns_get (node_nsmap sample_root) None = Some "u"
  /\ option_map text (node_at_path sample_result [0; 0; 0]) = Some (Some "...Anonymized-323566...")
  /\ option_map attrib (node_at_path sample_result [1]) = Some [("LONG-NAME", "...Anonymized-323566..."); ("ID", "1")]
  /\ option_map attrib (node_at_path sample_result [2]) = Some [("THE-VALUE", "...Anonymized-335...")]
  /\ option_map text (node_at_path sample_result [3; 0]) <> Some (Some "...Anonymized-335...")
  /\ option_map kids_of (node_at_path sample_result [3]) <> option_map kids_of (node_at_path sample_root [3]).
Proof. vm_compute. repeat split; discriminate. Qed.
Example C39_example_hypotheses :
  exists p1 p2 p3 p4,
    at_path None sample_root [0; 0; 0] = Some p1 /\ is_target "u" THeaderText p1 /\ outside_xhtml "u" sample_root [0; 0; 0]
    /\ at_path None sample_root [1] = Some p2 /\ is_target "u" TLongName p2
    /\ at_path None sample_root [2] = Some p3 /\ is_target "u" TString p3
    /\ at_path None sample_root [3; 0] = Some p4 /\ is_target "u" TXhtml p4 /\ outside_xhtml "u" sample_root [3; 0]
    /\ (forall k, In k (kids_of (snd p4)) -> foreign "u" k).
Proof.
  assert (OUT : forall p, (forall q, q <> [] -> (exists r, r <> [] /\ p = q ++ r) -> match at_path None sample_root q with Some pn => child_el "u" "ATTRIBUTE-VALUE-XHTML" "THE-VALUE" (fst pn) (snd pn) = false | None => True end)
      -> outside_xhtml "u" sample_root p).
  { intros p H q r pn E NR HP HT. apply xhtml_sel in HT. destruct q as [|k q].
    - injection HP as <-. discriminate.
    - specialize (H (k :: q)). rewrite HP in H. rewrite H in HT; [discriminate|discriminate|eauto]. }
  eexists _, _, _, _.
  split; [vm_compute; reflexivity|]. split; [split; [eexists; split; [reflexivity|]; eexists _, _, _, _, _; reflexivity|right; eexists _, _, _, _, _; reflexivity]|].
  split.
  { apply OUT. intros q NQ (r & NR & E). destruct q as [|a [|b [|c q]]]; [congruence| | |].
    - injection E as <- E. vm_compute. reflexivity.
    - injection E as <- <- E. vm_compute. reflexivity.
    - injection E as <- <- <- E. exfalso. destruct q, r; try discriminate; congruence. }
  split; [vm_compute; reflexivity|]. split; [eexists _, _, _, _, _; reflexivity|].
  split; [vm_compute; reflexivity|]. split; [eexists _, _, _, _, _; reflexivity|].
  split; [vm_compute; reflexivity|]. split; [split; [eexists; split; [reflexivity|]; eexists _, _, _, _, _; reflexivity|eexists _, _, _, _, _; reflexivity]|].
  split.
  { apply OUT. intros q NQ (r & NR & E). destruct q as [|a [|b q]]; [congruence| |].
    - injection E as <- E. vm_compute. reflexivity.
    - injection E as <- <- E. exfalso. destruct q, r; try discriminate; congruence. }
  intros k [<-|[<-|[<-|[]]]]; [constructor| |constructor]. constructor; [intros p E; discriminate|].
  intros k [<-|[]]. constructor.
Qed.

Print Assumptions C39_header_texts_replaced.
Print Assumptions C39_specification_names_replaced.
Print Assumptions C39_string_values_replaced.
Print Assumptions C39_xhtml_values_replaced.
Print Assumptions C40_same_nodes.
Print Assumptions C40_other_nodes_unchanged.
Print Assumptions C40_targets_keep_the_rest.
Print Assumptions C40_equal_values_stay_equal.
Print Assumptions C39_text_after_a_child_survives_refuted.
Print Assumptions C39_fails_on_valid_documents_refuted.
Print Assumptions C40_spec_object_names_survive_refuted.
