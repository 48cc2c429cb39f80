(** GrammarDoc.v -- the reader reads exactly the documents of the grammar *)
From Verif Require Import Base Xml Parser DictProofs XmlProofs LineProofs SpecLines SpecXml GrammarProofs GrammarMachine GrammarInv GrammarStep.

Lemma run1_err s : forall st, md st = MErr -> md (run1 st s) = MErr.
Proof. induction s as [|c s IH]; intros st H; [exact H|]. rewrite run1_cons. apply IH. unfold step1. rewrite H. exact H. Qed.
Lemma inv_run s : forall t st, inv t st -> counted t st -> md (run1 st s) <> MErr -> inv (t ++ s) (run1 st s).
Proof.
  induction s as [|c s IH]; intros t st H HQ HE; [rewrite app_nil_r; exact H|]. rewrite run1_cons in *.
  replace (t ++ c :: s) with ((t ++ [c]) ++ s) by (rewrite <- app_assoc; reflexivity).
  assert (HE1 : md (step1 st c) <> MErr) by (intros E; apply HE, run1_err, E).
  apply IH; [| |exact HE]; [apply inv_step; assumption|apply counted_step; assumption].
Qed.
Lemma inv_init : inv [] init.
Proof.
  exists [], [], []. cbn [init stk done_ md mode_text]. split; [|split; [split; reflexivity|reflexivity]].
  apply stack_top. exists [], [], [], []. split; [reflexivity|]. split; [reflexivity|]. split; [constructor|]. left. split; reflexivity.
Qed.
Lemma counted_init : counted [] init.
Proof. intros j E. split; intros _ [|? [|? ?]]; discriminate. Qed.
Lemma read_toplevel s b d j : run1 init s = Conf b [] d (MText j) -> toplevel s (rev d).
Proof.
  intros E. destruct (inv_run s [] init inv_init counted_init) as (base & d0 & mt & H1 & H2 & H3).
  { rewrite E. discriminate. }
  rewrite E in H1, H2. cbn [stk done_ md mode_text] in *. destruct H2 as (<- & ->). rewrite app_nil_r in H3. cbn [app] in H3. subst s.
  inversion H1; subst. assumption.
Qed.

(** ** The XML declaration *)
Lemma absent_amp s : existsb (N.eqb 38) s = false <-> absent "&" s.
Proof.
  split.
  - intros H a b ->. rewrite existsb_app in H. apply orb_false_iff in H. destruct H as [_ H]. discriminate H.
  - intros H. destruct (existsb (N.eqb 38) s) eqn:E; [|reflexivity]. exfalso. apply existsb_exists in E. destruct E as (x & HI & HX).
    apply N.eqb_eq in HX. subst x. apply in_split in HI. destruct HI as (a & b & ->). apply (H a b). reflexivity.
Qed.
Lemma last_of {A} (l : list A) x l' y : l ++ [x] = l' ++ [y] -> x = y.
Proof. intros H. apply app_inj_tail in H. apply H. Qed.
Lemma end_tag_slash x n w s : name n -> Forall white w -> x ++ n ++ w ++ ">" = s ++ "/>" -> False.
Proof.
  intros HN HW H. replace (x ++ n ++ w ++ ">") with ((x ++ n ++ w) ++ [62%N]) in H by (rewrite <- !app_assoc; reflexivity).
  replace (s ++ "/>") with ((s ++ [47%N]) ++ [62%N]) in H by (rewrite <- !app_assoc; reflexivity).
  apply app_inj_tail in H. destruct H as [H _]. destruct w as [|y w _] using rev_ind.
  - rewrite app_nil_r in H. destruct HN as (c & n' & -> & HS & HC). destruct n' as [|y n' _] using rev_ind.
    + apply last_of in H. subst c. apply name_start_ok in HS. discriminate HS.
    + rewrite app_comm_cons, app_assoc in H. apply last_of in H. subst y. apply Forall_app in HC. destruct HC as [_ HC]. inversion HC as [|? ? HY]; subst.
      apply name_char_ok in HY. discriminate HY.
  - rewrite !app_assoc in H. apply last_of in H. subst y. apply Forall_app in HW. destruct HW as [_ HW]. inversion HW as [|? ? HY]; subst. apply white_ok in HY. discriminate HY.
Qed.
Lemma decl_fields_ok s a : ~ In 13%N s ->
  decl_fields s = Some a <-> absent "&" s /\ exists n att w, s = n ++ att ++ w /\ name n /\ attributes att a /\ Forall white w.
Proof.
  intros N13. unfold decl_fields.
  assert (ER : run init ("<" ++ s ++ "/>") = run1 init ("<" ++ s ++ "/>")).
  { apply run_run1; [|reflexivity]. cbn [app In]. rewrite in_app_iff. cbn [In]. intros [H|[H|[H|[H|[]]]]]; try discriminate. apply N13, H. }
  rewrite ER. clear ER. destruct (existsb (N.eqb 38) s) eqn:EA.
  { split; [discriminate|]. intros (H & _). apply absent_amp in H. congruence. }
  apply absent_amp in EA. split.
  - destruct (run1 init ("<" ++ s ++ "/>")) as [b st d m] eqn:E. destruct st; [|discriminate]. destruct d as [|x d]; [discriminate|].
    destruct x as [|n a' k| |]; try discriminate. destruct k; [|discriminate]. destruct d; [|discriminate]. destruct m; try discriminate.
    intros H. assert (a' = a) by congruence. subst a'. clear H. split; [exact EA|]. apply read_toplevel in E. cbn [rev app] in E.
    destruct E as (p & t1 & l0 & l1 & E1 & E2 & E3 & E4).
    destruct E4 as [[-> ->]|(s' & _ & -> & _)]; [|discriminate E2]. cbn [app] in E1, E2. subst l1 t1.
    inversion E3 as [| | | |e n' a' k' t' l' HE HM E5 E6]; subst. inversion HM; subst. rewrite app_nil_r in E5. subst e.
    inversion HE as [n' att a' w H1 H2 H3 H4 H5|n' att a' w t k w' H1 H2 H3 H4 H5 H6 H7]; subst.
    + exists n, att, w. split; [|auto]. rewrite !app_assoc in H4. apply app_inv_tail in H4.
      rewrite <- H4, <- app_assoc. reflexivity.
    + exfalso. apply (end_tag_slash (n ++ att ++ w ++ ">" ++ t ++ "</") n w' s H1 H5). rewrite <- !app_assoc. exact H6.
  - intros (_ & n & att & w & -> & H1 & H2 & H3).
    replace ("<" ++ (n ++ att ++ w) ++ "/>") with ("<" ++ n ++ att ++ w ++ "/>") by (rewrite <- !app_assoc; reflexivity).
    unfold init. rewrite (proj1 grammar_run _ _ (element_empty n att a w H1 H2 H3)). reflexivity.
Qed.
Lemma digit_ok c : is_digit c = true <-> (48 <= c <= 57)%N.
Proof. unfold is_digit. rewrite andb_true_iff, !N.leb_le. reflexivity. Qed.
Lemma version_ok_iff v : version_ok v = true <-> version_number v.
Proof.
  assert (P : version_ok v = match v with x :: y :: d => N.eqb x 49 && N.eqb y 46 && forallb is_digit d | _ => false end).
  { unfold version_ok. destruct v as [|x [|y d]]; try reflexivity.
    - destruct x as [|x]; [reflexivity|]. do 6 (try (destruct x as [x|x|]; try reflexivity)).
    - destruct (N.eqb_spec x 49) as [->|NX].
      + destruct (N.eqb_spec y 46) as [->|NY]; [reflexivity|]. destruct y as [|y]; [reflexivity|]. do 6 (try (destruct y as [y|y|]; try reflexivity)). contradiction NY; reflexivity.
      + destruct x as [|x]; [reflexivity|]. do 6 (try (destruct x as [x|x|]; try reflexivity)). contradiction NX; reflexivity. }
  rewrite P. clear P. unfold version_number. split.
  - destruct v as [|x [|y d]]; try discriminate. rewrite !andb_true_iff, !N.eqb_eq. intros [[-> ->] H]. exists d. split; [reflexivity|].
    apply (forall_ok _ _ _ digit_ok), H.
  - intros (d & -> & H). change ("1." ++ d) with (49%N :: 46%N :: d). cbn [N.eqb Pos.eqb andb]. apply (forall_ok _ _ _ digit_ok), H.
Qed.
Lemma letter_ok c : between 65 90 c || between 97 122 c = true <-> letter c.
Proof. unfold between, letter. rewrite orb_true_iff, !andb_true_iff, !N.leb_le. reflexivity. Qed.
Lemma encoding_ok_iff v : encoding_ok v = true <-> encoding_name v.
Proof.
  unfold encoding_ok, encoding_name. destruct v as [|c v].
  - split; [discriminate|]. intros (c & v' & H & _). discriminate H.
  - rewrite andb_true_iff, letter_ok. rewrite (forall_ok _ (fun c => letter c \/ (48 <= c <= 57)%N \/ In c "._-")).
    + split; [intros [H1 H2]; exists c, v; auto|intros (c' & v' & H & H1 & H2); injection H as -> ->; auto].
    + intros x. rewrite !orb_true_iff, <- letter_ok, orb_true_iff, digit_ok, !N.eqb_eq. cbn [In]. intuition congruence.
Qed.
Lemma standalone_ok_iff v : standalone_ok v = true <-> v = "yes" \/ v = "no".
Proof. unfold standalone_ok. rewrite orb_true_iff, !str_eqb_eq. reflexivity. Qed.
Lemma decl_ok_iff s : decl_ok s = true <-> exists a, decl_fields s = Some a /\ declares a.
Proof.
  unfold decl_ok, declares. destruct (decl_fields s) as [a|].
  2: { split; [discriminate|]. intros (a & H & _). discriminate H. }
  split.
  - intros H. exists a. split; [reflexivity|]. destruct a as [|[k v] [|[k1 v1] [|[k2 v2] [|? ?]]]]; try discriminate.
    + apply andb_prop in H. destruct H as [H1 H2]. apply str_eqb_eq in H1. apply version_ok_iff in H2. subst. exists v, [], []. auto.
    + apply andb_prop in H. destruct H as [H H3]. apply andb_prop in H. destruct H as [H1 H2]. apply str_eqb_eq in H1. apply version_ok_iff in H2. subst.
      apply orb_prop in H3. destruct H3 as [H3|H3]; apply andb_prop in H3; destruct H3 as [H3 H4]; apply str_eqb_eq in H3; subst.
      * exists v, [("encoding", v1)], []. split; [reflexivity|]. split; [exact H2|]. split; [right; exists v1; split; [reflexivity|apply encoding_ok_iff, H4]|auto].
      * exists v, [], [("standalone", v1)]. split; [reflexivity|]. split; [exact H2|]. split; [auto|]. right. apply standalone_ok_iff in H4.
        destruct H4 as [-> | ->]; auto.
    + apply andb_prop in H. destruct H as [H H4]. apply andb_prop in H. destruct H as [H H3]. apply andb_prop in H. destruct H as [H1 H2].
      apply str_eqb_eq in H1. apply version_ok_iff in H2. subst. apply andb_prop in H3, H4. destruct H3 as [H3 H5], H4 as [H4 H6]. apply str_eqb_eq in H3, H4. subst.
      exists v, [("encoding", v1)], [("standalone", v2)]. split; [reflexivity|]. split; [exact H2|].
      split; [right; exists v1; split; [reflexivity|apply encoding_ok_iff, H5]|]. right. apply standalone_ok_iff in H6. destruct H6 as [-> | ->]; auto.
  - intros (a' & E & v & e & s' & -> & HV & HE & HS). injection E as ->. apply version_ok_iff in HV.
    destruct HE as [-> |(n & -> & HE)]; [|apply encoding_ok_iff in HE]; destruct HS as [-> |[-> | ->]]; cbn [app];
      rewrite HV, ?HE; reflexivity.
Qed.

Lemma name_char_char c : is_name_char c = true -> char c.
Proof.
  intros H. apply char_ok. revert H. unfold is_name_char, is_name_start, is_digit, is_xml_char, between.
  rewrite !orb_true_iff, !andb_true_iff, !N.leb_le, !N.eqb_eq. lia.
Qed.
Lemma white_char c : white c -> char c.
Proof. intros H. apply char_ok. apply white_ok in H. unfold is_ws in H. rewrite !orb_true_iff, !N.eqb_eq in H. destruct H as [[[-> | ->]| ->]| ->]; reflexivity. Qed.
Lemma whites_chars w : Forall white w -> Forall char w.
Proof. intros H. eapply Forall_impl; [|exact H]. exact white_char. Qed.
Lemma name_chars n : name n -> Forall char n.
Proof.
  intros (c & n' & -> & H1 & H2). constructor.
  - apply name_char_char. apply name_start_ok in H1. unfold is_name_char. rewrite H1. reflexivity.
  - eapply Forall_impl; [|exact H2]. intros x H. apply name_char_char, name_char_ok, H.
Qed.
Lemma value_chars q t v : value q t v -> Forall char t.
Proof.
  induction 1 as [|c t v H1 H2 H3 H4 H5 H6 IH|c t v H1 H2 IH|b c t v H1 H2 IH].
  - constructor.
  - constructor; assumption.
  - constructor; [apply white_char, H1|exact IH].
  - constructor; [apply char_ok; reflexivity|]. apply Forall_app. split; [|constructor; [apply char_ok; reflexivity|exact IH]].
    apply reference_chars in H1. rewrite forallb_forall in H1. apply Forall_forall. intros x HX. apply H1, orb_prop in HX.
    destruct HX as [HX|HX]; [apply name_char_char, HX|apply N.eqb_eq in HX; subst x; apply char_ok; reflexivity].
Qed.
Lemma attributes_chars t a : attributes t a -> Forall char t.
Proof.
  induction 1 as [|sp k w w' q t v rest l H1 H2 H3 H4 H5 H6 H7 _ IH]; [constructor|].
  assert (Q : char q) by (apply char_ok; destruct H6 as [-> | ->]; reflexivity).
  repeat (apply Forall_app; split); auto using whites_chars, name_chars.
  - constructor; [apply char_ok; reflexivity|constructor].
  - apply (value_chars _ _ _ H7).
Qed.

(** ** Documents *)
Lemma mixed_split t : forall pre x rest, mixed t (pre ++ x :: rest) ->
  exists t1 e t2, t = t1 ++ e ++ t2 /\ mixed t1 pre /\ mixed e [x] /\ mixed t2 rest.
Proof.
  intros pre. revert t. induction pre as [|y pre IH]; intros t x rest H.
  - cbn [app] in H. inversion H as [|c t' l H1 H2|s t' l H1 H2|s t' l H1 H2|e n a k t' l H1 H2]; subst.
    + exists [], [c], t'. split; [reflexivity|]. split; [constructor|]. split; [constructor; [exact H1|constructor]|exact H2].
    + exists [], ("<!--" ++ s ++ "-->" ++ []), t'. split; [rewrite <- !app_assoc; reflexivity|]. split; [constructor|]. split; [constructor; [exact H1|constructor]|exact H2].
    + exists [], ("<?" ++ s ++ "?>" ++ []), t'. split; [rewrite <- !app_assoc; reflexivity|]. split; [constructor|]. split; [constructor; [exact H1|constructor]|exact H2].
    + exists [], (e ++ []), t'. split; [rewrite <- !app_assoc; reflexivity|]. split; [constructor|]. split; [constructor; [exact H1|constructor]|exact H2].
  - cbn [app] in H. inversion H as [|c t' l H1 H2|s t' l H1 H2|s t' l H1 H2|e n a k t' l H1 H2]; subst;
      destruct (IH _ _ _ H2) as (t1 & e0 & t2 & -> & G1 & G2 & G3).
    + exists (c :: t1), e0, t2. split; [reflexivity|]. split; [constructor; assumption|auto].
    + exists ("<!--" ++ s ++ "-->" ++ t1), e0, t2. split; [rewrite <- !app_assoc; reflexivity|]. split; [constructor; assumption|auto].
    + exists ("<?" ++ s ++ "?>" ++ t1), e0, t2. split; [rewrite <- !app_assoc; reflexivity|]. split; [constructor; assumption|auto].
    + exists (e ++ t1), e0, t2. split; [rewrite <- !app_assoc; reflexivity|]. split; [constructor; assumption|auto].
Qed.
Lemma mixed_misc t l : mixed t l -> forallb is_misc l = true -> misc t.
Proof.
  induction 1 as [|c t l H1 _ IH|s t l H1 _ IH|s t l H1 _ IH|e n a k t l H1 _ IH]; intros H.
  - constructor.
  - cbn [forallb] in H. apply andb_prop in H. constructor; [exact H1|apply IH, H].
  - constructor; [exact H1|apply IH, H].
  - constructor; [exact H1|apply IH, H].
  - discriminate H.
Qed.
Lemma find_root_split l r : find_root l = Some r ->
  exists pre rest n a k, r = XElem n a k /\ l = pre ++ r :: rest /\ forallb is_misc pre = true /\ forallb is_misc rest = true.
Proof.
  induction l as [|x l IH]; [discriminate|]. cbn [find_root]. destruct x as [c|n a k|s|s].
  - destruct (is_misc (XChar c)) eqn:E; [|discriminate]. intros H. destruct (IH H) as (pre & rest & n & a & k & H1 & H2 & H3 & H4).
    exists (XChar c :: pre), rest, n, a, k. cbn [forallb app]. rewrite E, H3, H2. auto.
  - destruct (forallb is_misc l) eqn:E; [|discriminate]. intros H. injection H as <-. exists [], l, n, a, k. auto.
  - intros H. destruct (IH H) as (pre & rest & n & a & k & H1 & H2 & H3 & H4). exists (XComment s :: pre), rest, n, a, k. cbn [forallb app is_misc andb]. rewrite H2. auto.
  - intros H. destruct (IH H) as (pre & rest & n & a & k & H1 & H2 & H3 & H4). exists (XPI s :: pre), rest, n, a, k. cbn [forallb app is_misc andb]. rewrite H2. auto.
Qed.
Lemma find_root_app pre n a k rest : forallb is_misc pre = true -> forallb is_misc rest = true ->
  find_root (pre ++ XElem n a k :: rest) = Some (XElem n a k).
Proof.
  intros H1 H2. induction pre as [|x pre IH]; [cbn [app find_root]; rewrite H2; reflexivity|].
  cbn [forallb] in H1. apply andb_prop in H1. destruct H1 as [H0 H1]. destruct x; try discriminate; cbn [app find_root]; rewrite H0; apply IH, H1.
Qed.
Lemma mixed_pi t l s : mixed t l -> In (XPI s) l -> instruction s.
Proof.
  induction 1 as [|c t l H1 _ IH|s' t l H1 _ IH|s' t l H1 _ IH|e n a k t l H1 _ IH]; intros HI; [contradiction HI|..]; destruct HI as [H|H]; try discriminate H; auto.
  injection H as <-. exact H1.
Qed.
Lemma instruction_not_xml s : instruction s -> str_eqb (pi_target s) "xml" = false.
Proof.
  intros H. apply instruction_target, target_ok in H. destruct (str_eqb_spec (pi_target s) "xml") as [E|]; [|reflexivity].
  rewrite E in H. vm_compute in H. discriminate H.
Qed.
Lemma element_elem e x : element e x -> exists n a k, x = XElem n a k.
Proof. destruct 1; eauto. Qed.
Lemma finish_document t d r : ~ In 13%N t -> finish (run1 init t) = Some (XDoc d r) -> document t d r.
Proof.
  intros N13 H. destruct (run1 init t) as [b st dn m] eqn:E. unfold finish in H. cbn [md stk done_] in H.
  destruct m; try discriminate H. destruct st; [|discriminate H]. apply read_toplevel in E.
  destruct E as (p & t1 & l0 & l1 & -> & EL & HM & HP). rewrite EL in H.
  destruct (find_root (l0 ++ l1)) as [r'|] eqn:FR; [|discriminate H].
  assert (F1 : find_root l1 = Some r') by (destruct HP as [[_ ->]|(s & _ & -> & _)]; exact FR).
  match type of H with (if ?c then _ else _) = _ => destruct c eqn:DO; [|discriminate H] end.
  match type of H with Some (XDoc ?x _) = _ => assert (ED : x = d) by congruence; assert (r' = r) by congruence end. subst r'. clear H.
  apply find_root_split in F1. destruct F1 as (pre & rest & n & a & k & -> & -> & M1 & M2).
  apply mixed_split in HM. destruct HM as (u1 & e & u2 & -> & G1 & G2 & G3).
  exists p, u1, e, u2. split; [reflexivity|]. split; [apply (mixed_misc _ _ G1 M1)|].
  split; [inversion G2 as [| | | |e' ? ? ? ? ? G4 G5]; subst; inversion G5; subst; rewrite app_nil_r; exact G4|].
  split; [apply (mixed_misc _ _ G3 M2)|]. destruct HP as [[-> ->]|(s & -> & -> & HC & HA & HT)].
  - cbn [app] in ED. destruct d as [s|]; [exfalso|reflexivity]. destruct pre as [|x pre]; [discriminate ED|]. cbn [app] in ED. destruct x as [| | |s']; try discriminate ED.
    pose proof (mixed_pi _ _ s' G1 (or_introl eq_refl)) as HI. apply instruction_not_xml in HI. rewrite HI in ED. discriminate ED.
  - cbn [app] in ED, DO. rewrite HT in ED, DO. cbn [str_eqb N.eqb Pos.eqb andb] in ED, DO. subst d. split; [reflexivity|].
    apply decl_ok_iff in DO. destruct DO as (fs & DF & DD). apply decl_fields_ok in DF.
    + destruct DF as (DA & n' & att & w & -> & H1 & H2 & H3). exists fs. split; [exact DA|]. split; [exact HA|]. split; [exact DD|]. exists att, w.
      split; [|auto]. f_equal. rewrite <- HT. symmetry. apply pi_target_app; [apply name_no_white, H1|].
      destruct H2 as [|sp k' w1 w2 q tt v rest' l H4 H5]; [|destruct sp as [|c sp]; [contradiction|]; right; inversion H4; subst; eexists _, _; split; [reflexivity|assumption]].
      destruct w as [|c w]; [left; reflexivity|right]. inversion H3; subst. exists c, w. auto.
    + intros HI. apply N13. rewrite !in_app_iff. left. right. left. exact HI.
Qed.
Lemma document_finish t d r : ~ In 13%N t -> document t d r -> finish (run1 init t) = Some (XDoc d r).
Proof.
  intros N13 (p & m & e & m' & -> & H1 & H2 & H3 & HD). destruct (element_elem _ _ H2) as (n & a & k & ->).
  destruct (run1_misc m H1) as (l & L1 & L2 & L3). destruct (run1_misc m' H3) as (l' & K1 & K2 & K3).
  assert (R : forall d0, run1 (Conf false [] d0 (MText 0)) (m ++ e ++ m') = Conf false [] (rev l' ++ XElem n a k :: rev l ++ d0) (MText 0)).
  { intros d0. rewrite run1_app, L3, run1_app, (proj1 grammar_run _ _ H2), K3. reflexivity. }
  assert (RV : forall d0, rev (rev l' ++ XElem n a k :: rev l ++ d0) = rev d0 ++ l ++ XElem n a k :: l').
  { intros d0. rewrite rev_app_distr, rev_involutive. cbn [rev]. rewrite rev_app_distr, rev_involutive, <- !app_assoc. reflexivity. }
  destruct d as [s|].
  - destruct HD as (-> & fs & DA & HA & DD & att & w & -> & HT & HW). set (s := "xml" ++ att ++ w) in *.
    assert (TS : pi_target s = "xml").
    { unfold s. apply pi_target_app; [repeat constructor|].
      destruct HT as [|sp k' w1 w2 q tt v rest' l0 H4 H5]; [|destruct sp as [|c sp]; [contradiction|]; right; inversion H4; subst; eexists _, _; split; [reflexivity|assumption]].
      destruct w as [|c w]; [left; reflexivity|right]. inversion HW; subst. exists c, w. auto. }
    assert (CH : Forall char s).
    { unfold s. apply Forall_app. split; [apply name_chars, name_ok; reflexivity|]. apply Forall_app. split; [apply (attributes_chars _ _ HT)|apply whites_chars, HW]. }
    assert (NS : ~ In 13%N s).
    { intros HI. apply N13. rewrite !in_app_iff. left. right. left. exact HI. }
    assert (DO : decl_ok s = true).
    { apply decl_ok_iff. exists fs. split; [|exact DD]. apply decl_fields_ok; [exact NS|]. split; [exact DA|]. exists "xml", att, w.
      split; [reflexivity|]. split; [apply name_ok; reflexivity|]. auto. }
    clearbody s. rewrite run1_app.
    replace (run1 init ("<?" ++ s ++ "?>")) with (Conf false [] [XPI s] (MText 0)).
    2: { unfold init. change ("<?" ++ s ++ "?>") with (60%N :: 63%N :: s ++ "?>"). rewrite !run1_cons.
         change (step1 (step1 (Conf false [] [] (MText 0)) 60) 63) with (Conf false [] [] (MPI [] false)).
         rewrite run1_instruction by (try assumption; discriminate). cbn [rev app]. unfold end_instruction. rewrite TS. reflexivity. }
    rewrite R. unfold finish. cbn [md stk done_]. rewrite RV. cbn [rev app]. rewrite TS.
    change (str_eqb "xml" "xml") with true. cbn [find_root is_misc]. rewrite find_root_app by assumption. rewrite DO. reflexivity.
  - subst p. cbn [app]. unfold init. rewrite R. unfold finish. cbn [md stk done_]. rewrite RV. cbn [rev app].
    rewrite find_root_app by assumption.
    assert (DN : match l ++ XElem n a k :: l' with XPI s :: _ => if str_eqb (pi_target s) "xml" then Some s else None | _ => None end = None).
    { destruct l as [|x l]; [reflexivity|]. destruct x; try reflexivity. cbn [app]. rewrite instruction_not_xml by (apply L2; left; reflexivity). reflexivity. }
    rewrite DN. reflexivity.
Qed.

(** ** Line ends and the byte order mark *)
Lemma un_no_cr n : forall s, length s <= n -> ~ In 13%N (universal_newlines s).
Proof.
  induction n as [|n IH]; intros s HL; [destruct s; [intros []|cbn in HL; lia]|].
  destruct s as [|c s]; [intros []|]. cbn [length] in HL. destruct (N.eqb_spec c 13) as [->|N13].
  - destruct s as [|d s]; [cbn; intros [H|[]]; discriminate|]. cbn [universal_newlines N.eqb Pos.eqb]. destruct (N.eqb_spec d 10) as [->|N10].
    + cbn [length] in HL. intros [H|H]; [discriminate|]. apply (IH s) in H; [exact H|lia].
    + intros [H|H]; [discriminate|]. apply (IH (d :: s)) in H; [exact H|lia].
  - rewrite un_cons by exact N13. intros [H|H]; [contradiction|]. apply (IH s) in H; [exact H|lia].
Qed.
Lemma un_same n : forall s, length s <= n -> same_lines s (universal_newlines s).
Proof.
  induction n as [|n IH]; intros s HL; [destruct s; [constructor|cbn in HL; lia]|].
  destruct s as [|c s]; [constructor|]. cbn [length] in HL. destruct (N.eqb_spec c 13) as [->|N13].
  - destruct s as [|d s].
    + apply (same_end [13%N] [10%N] [] []); [right; right; split; [reflexivity|discriminate]|right; left; reflexivity|constructor].
    + destruct (N.eqb_spec d 10) as [->|N10].
      * rewrite un_crlf. apply (same_end [13; 10]%N [10]%N s (universal_newlines s)); [left; reflexivity|right; left; reflexivity|]. apply IH. cbn [length] in HL. lia.
      * rewrite un_cr by (cbn; congruence). apply (same_end [13]%N [10]%N (d :: s)); [right; right; split; [reflexivity|cbn; congruence]|right; left; reflexivity|]. apply IH. cbn [length] in *. lia.
  - rewrite un_cons by exact N13. destruct (N.eqb_spec c 10) as [->|N10].
    + apply (same_end [10]%N [10]%N s); [right; left; reflexivity|right; left; reflexivity|]. apply IH. lia.
    + apply same_char; [exact N10|exact N13|]. apply IH. lia.
Qed.
Lemma un_id t : ~ In 13%N t -> universal_newlines t = t.
Proof. induction t as [|c t IH]; intros H; [reflexivity|]. rewrite un_cons by (intros ->; apply H; left; reflexivity). rewrite IH; [reflexivity|]. intros HI. apply H. right. exact HI. Qed.
Lemma skip_bom_mark s t : without_mark s t <-> skip_bom s = t.
Proof.
  assert (E : forall x, skip_bom x = match x with c :: x' => if N.eqb c 65279 then x' else x | [] => [] end).
  { intros [|c x]; [reflexivity|]. destruct (N.eqb_spec c 65279) as [->|N]; [reflexivity|]. unfold skip_bom.
    destruct c as [|c]; [reflexivity|]. do 16 (try (destruct c as [c|c|]; try reflexivity)). contradiction N; reflexivity. }
  rewrite E. unfold without_mark. destruct s as [|c s].
  - split; [intros [H|[_ ->]]; [discriminate|reflexivity]|intros <-; right; split; [discriminate|reflexivity]].
  - destruct (N.eqb_spec c 65279) as [->|N]; cbn [hd_error].
    + split; [intros [H|[H _]]; [injection H as <-; reflexivity|contradiction H; reflexivity]|intros <-; left; reflexivity].
    + split; [intros [H|[_ ->]]; [injection H as -> _; contradiction N; reflexivity|reflexivity]|intros <-; right; split; [congruence|reflexivity]].
Qed.
Theorem read_text_grammar s d root :
  read_text s = Some (XDoc d root)
  <-> exists t t', without_mark s t /\ same_lines t t' /\ ~ In 13%N t' /\ document t' d root.
Proof.
  assert (R : read_text s = finish (run1 init (universal_newlines (skip_bom s)))).
  { rewrite <- read_text_un. unfold read_text. rewrite skip_bom_un. rewrite run_run1; [reflexivity| |reflexivity].
    apply (un_no_cr (length (skip_bom s))). lia. }
  assert (NC : ~ In 13%N (universal_newlines (skip_bom s))) by (apply (un_no_cr (length (skip_bom s))); lia).
  rewrite R. split.
  - intros H. exists (skip_bom s), (universal_newlines (skip_bom s)). split; [apply skip_bom_mark; reflexivity|].
    split; [apply (un_same (length (skip_bom s))); lia|]. split; [exact NC|]. apply finish_document; assumption.
  - intros (t & t' & H1 & H2 & H3 & H4). apply skip_bom_mark in H1. subst t. apply same_lines_un in H2. rewrite (un_id t' H3) in H2.
    rewrite H2. apply document_finish; assumption.
Qed.
