(** XhtmlKeep.v -- two THE-VALUE elements stored as the same text have the same content *)
From Verif Require Import Base Xml Lxml Py LxmlStr SpecEscape SpecXhtml SpecDocument EscapeProofs DictProofs ParserProofs SpecParse SpecKeep XhtmlInverse XhtmlScope.

Lemma shown_text p f : ~ In 60%N (show p f) -> ~ In 38%N (show p f) -> f = map XT (show p f).
Proof.
  unfold show, show_forest. induction f as [|[c|n a ks] f IH]; intros H1 H2; [reflexivity| |].
  - cbn [flat_map show_node] in *. rewrite esc_one in *. destruct (esc_form c) as [(b & E & _)|(E & _)]; rewrite E in *.
    + exfalso. apply H2. left. reflexivity.
    + cbn [app map] in *. f_equal. apply IH; intros HI; [apply H1|apply H2]; right; exact HI.
  - exfalso. apply H1. cbn [flat_map show_node]. left. reflexivity.
Qed.
Lemma looks_text s : Forall2 looks (map Chr s) (map XT s).
Proof. induction s; cbn [map]; constructor; [constructor|assumption]. Qed.
Lemma no_tails l : tails l = [] -> l = map Chr (lead l).
Proof. induction l as [|[c| | |] l IH]; cbn [tails lead map]; try discriminate; [reflexivity|]. intros H. f_equal. apply IH, H. Qed.
Lemma tails_nodes l k t : In (k, t) (tails l) -> is_chr k = false.
Proof.
  induction l as [|[c|ns l0 d i a ks|x|x] l IH]; cbn [tails]; intros H; try (destruct H as [H|H]; [injection H as <- _; reflexivity|auto]); auto; contradiction.
Qed.
Lemma node_text_lt b n s : stringify_node b n = Ok s -> exists r, s = 60%N :: r.
Proof.
  destruct n as [c|ns l d i a ks|x|x]; cbn [stringify_node]; intros H; try discriminate.
  - destruct (needs_close (clark ns l) ks).
    + match type of H with (let! inner := ?e in _) = _ => destruct e as [inner|]; [|discriminate] end. cbn [bind] in H. injection H as <-. cbn [app]. eauto.
    + injection H as <-. cbn [app]. eauto.
  - injection H as <-. cbn [app]. eauto.
Qed.
Lemma text_only tv v : stringify_children tv = Ok v -> ~ In 60%N v -> kids_of tv = map Chr v.
Proof.
  unfold stringify_children. intros H N.
  destruct (tails (kids_of tv)) as [|[k t] r] eqn:E.
  - cbn [mapM bind concat] in H. rewrite app_nil_r in H. injection H as <-. apply no_tails, E.
  - exfalso. cbn [mapM] in H. cbn [fst snd] in H. destruct (stringify_node true k) as [s|] eqn:ES; [|discriminate]. cbn [bind] in H.
    match type of H with (let! parts := (let! ys := ?e in _) in _) = _ => destruct e as [ps|]; [|discriminate] end. cbn [bind] in H. injection H as <-.
    destruct (node_text_lt _ _ _ ES) as (q & ->). apply N. apply in_or_app. right. cbn [concat app]. left. reflexivity.
Qed.
Lemma content_looks b p f tv v :
  plain_name p = true -> inside b tv -> tag_is "THE-VALUE" tv = true -> stored_text tv v -> v = show p f -> forest_ok f ->
  (node_nsmap tv = [] -> ~ In 60%N v /\ ~ In 38%N v) -> Forall2 looks (kids_of tv) f.
Proof.
  intros HP HI HT HS -> HF HN. destruct (inside_nsmap _ _ _ HI HT) as [HK _]. unfold stored_text, stringify_namespaced_children in HS.
  destruct (node_nsmap tv) as [|[k u] m] eqn:E.
  - destruct (HN eq_refl) as [N1 N2]. rewrite (text_only _ _ HS N1).
    pose proof (looks_text (show p f)) as L. rewrite <- (shown_text p f N1 N2) in L. exact L.
  - apply (text_inverse p k HP (Forall_inv HK)); [exact HS|apply (inside_names _ _ HI)|exact HF].
Qed.
Lemma looks_same : forall x n n', looks n x -> looks n' x -> same_markup n n'.
Proof.
  fix REC 1. intros x n n' H H'. destruct x as [c|nm a kf].
  - inversion H; inversion H'; subst. constructor.
  - inversion H as [|ns1 l1 d1 i1 a1 at1 ks1 kf1 E1 F1]; inversion H' as [|ns2 l2 d2 i2 a2 at2 ks2 kf2 E2 F2]; subst. constructor.
    clear -REC F1 F2. revert ks1 ks2 F1 F2. induction kf as [|y kf IH]; intros ks1 ks2 F1 F2; inversion F1; inversion F2; subst; constructor; eauto.
Qed.
Lemma looks_same_all f : forall l l', Forall2 looks l f -> Forall2 looks l' f -> Forall2 same_markup l l'.
Proof.
  induction f as [|x f IH]; intros l l' H H'; inversion H; inversion H'; subst; constructor; [eapply looks_same; eassumption|auto].
Qed.

(** ** The two elements of a document and of what is written for it *)
Definition some_scope (M : list (option str * str)) : bool := match M with [] => false | _ => true end.
Section Pair.
Variables (M : list (option str * str)) (p u : str).
Hypothesis HP : plain_name p = true.
Lemma substitute_length s : (length s <= length (substitute lxml_table s))%nat.
Proof.
  induction s as [|c s IH]; [apply le_n|]. rewrite esc_cons, app_length. cbn [length].
  destruct (esc_form c) as [(b & -> & _)|(-> & _)]; cbn [length]; lia.
Qed.
Lemma substitute_plain s : substitute lxml_table s = s -> ~ In 60%N s /\ ~ In 38%N s.
Proof.
  induction s as [|c s IH]; [cbn; tauto|]. intros H. rewrite esc_cons in H. destruct (esc_form c) as [(b & E & _)|(E & N1 & N2 & _)]; rewrite E in H.
  - exfalso. apply (f_equal (@length N)) in H. pose proof (substitute_length s). rewrite app_length in H. cbn [length] in H. rewrite app_length in H. cbn [length] in H. lia.
  - cbn [app] in H. injection H as H. destruct (IH H) as [I1 I2]. cbn. split; intros [X|X]; congruence || tauto.
Qed.
Lemma leading_all f : has_markup f = false -> show p f = substitute lxml_table (leading f).
Proof.
  unfold has_markup, show, show_forest. induction f as [|[c|n a ks] f IH]; intros H; [reflexivity| |discriminate]. cbn [existsb is_text negb orb] in H.
  cbn [flat_map show_node leading]. rewrite IH, esc_one, esc_cons by exact H. reflexivity.
Qed.
Lemma value_content tv tv' v b :
  xhtml_value M p u v -> inside b tv -> tag_is "THE-VALUE" tv = true -> stored_text tv v -> harmless tv ->
  inside (some_scope M) tv' -> tag_is "THE-VALUE" tv' = true -> stored_text tv' v -> content_same tv tv'.
Proof.
  intros (f & HF & HV & H1 & H2) I1 T1 S1 HN I2 T2 S2. unfold content_same. apply (looks_same_all f).
  - eapply content_looks; try eassumption. intros E. destruct HN as [HN|HN]; [contradiction|]. unfold stored_text in S1. rewrite E in S1.
    assert (K : exists s, kids_of tv = map Chr s /\ ~ In 60%N s /\ ~ In 38%N s).
    { clear -HN. induction HN as [|k ks (c & -> & C1 & C2) _ (s & -> & N1 & N2)]; [exists []; cbn; tauto|]. exists (c :: s). split; [reflexivity|].
      cbn. split; intros [X|X]; congruence || tauto. }
    destruct K as (s & K & N1 & N2). assert (ES : v = s).
    { unfold stringify_children in S1. rewrite K in S1. replace (tails (map Chr s)) with (@nil (node * str)) in S1 by (clear; induction s; [reflexivity|exact IHs]).
      cbn [mapM bind concat] in S1. rewrite app_nil_r in S1. injection S1 as <-. clear. induction s as [|c s IH]; [reflexivity|]. cbn [map lead]. f_equal. exact IH. }
    subst s. auto.
  - eapply content_looks; try eassumption. intros E. destruct (inside_nsmap _ _ _ I2 T2) as [_ X].
    unfold some_scope in X. destruct M as [|d M'] eqn:EM; [|exfalso; apply X; [reflexivity|exact E]].
    destruct (has_markup f) eqn:EF; [discriminate (H1 eq_refl)|]. rewrite HV, leading_all by exact EF. rewrite (H2 eq_refl). apply substitute_plain, H2, eq_refl.
Qed.
End Pair.
