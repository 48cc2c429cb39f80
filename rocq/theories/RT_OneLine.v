(** RT_OneLine.v -- attribute values with tabs and line ends *)
From Verif Require Import Base Xml Utf8 Lxml Py LxmlStr Models AttrDef AttrValue XmlProofs DictProofs SpecEscape EscapeProofs
  SpecPrint SpecRoundTrip Frag.

Lemma run_cr_other s d m c t : c <> 13%N -> c <> 10%N ->
  run (Conf true s d m) (c :: t) = run (Conf false s d m) (c :: t).
Proof.
  intros H1 H2. unfold run. cbn [fold_left]. f_equal. unfold step. cbn [cr stk done_ md andb].
  apply N.eqb_neq in H2. rewrite H2. reflexivity.
Qed.
Lemma run_cr_app s d m e t : e <> [] -> (forall c, In c e -> c <> 13%N /\ c <> 10%N) ->
  run (Conf true s d m) (e ++ t) = run (Conf false s d m) (e ++ t).
Proof.
  intros H1 H2. destruct e as [|c e]; [congruence|]. rewrite <- !app_comm_cons. destruct (H2 c (or_introl eq_refl)) as [A B].
  apply run_cr_other; assumption.
Qed.
Lemma markup_entry_chars c e : entry c markup_table = Some e -> e <> [] /\ forall x, In x e -> x <> 13%N /\ x <> 10%N.
Proof.
  intros H. apply entry_in in H. cbn in H.
  repeat (destruct H as [H|H]; [injection H as <- <-; split; [discriminate|]; intros x Hx; cbn in Hx;
    repeat (destruct Hx as [<-|Hx]; [split; discriminate|]); destruct Hx|]). destruct H.
Qed.
Lemma substitute_cons t c s : substitute t (c :: s) = (match entry c t with Some e => e | None => [c] end) ++ substitute t s.
Proof. reflexivity. Qed.
Lemma markup_plain c : c = 9%N \/ c = 10%N \/ c = 13%N \/ c = 32%N -> entry c markup_table = None.
Proof. intros [H|[H|[H|H]]]; subst c; reflexivity. Qed.

(** between quotes, the text is read as if it were on one line *)
Lemma run_one_line n a k s d : forall v b acc rest, Forall (fun c => is_xml_char c = true) v ->
  run (Conf b s d (MVal n a k 34 acc)) (substitute markup_table v ++ """" ++ rest)
  = run (Conf false s d (MVal n a k 34 acc)) (substitute markup_table (on_one_line b v) ++ """" ++ rest).
Proof.
  induction v as [|c v IH0]; intros b acc rest HV.
  - cbn [on_one_line]. destruct b; [|reflexivity]. apply (run_cr_app _ _ _ """"); [discriminate|]. intros x [<-|[]]. split; discriminate.
  - assert (HC : is_xml_char c = true /\ Forall (fun c => is_xml_char c = true) v) by (inversion HV; auto).
    destruct HC as [HC HV']. assert (IH := fun b acc rest => IH0 b acc rest HV'). clear IH0. cbn [on_one_line].
    destruct (N.eqb_spec c 13) as [->|N13].
    { rewrite !substitute_cons, !(markup_plain _) by auto. rewrite <- !app_assoc. change ([?x] ++ ?t) with (x :: t).
      change (run (Conf b s d (MVal n a k 34 acc)) (13%N :: ?t)) with (run (step (Conf b s d (MVal n a k 34 acc)) 13%N) t).
      assert (E : step (Conf b s d (MVal n a k 34 acc)) 13%N = Conf true s d (MVal n a k 34 (32%N :: acc))) by (destruct b; reflexivity).
      rewrite E, IH. symmetry. rewrite run_cons by discriminate. reflexivity. }
    destruct (N.eqb_spec c 10) as [->|N10].
    { destruct b.
      - rewrite substitute_cons, (markup_plain 10) by auto. rewrite <- app_assoc. change ([?x] ++ ?t) with (x :: t).
        change (run (Conf true s d (MVal n a k 34 acc)) (10%N :: ?t)) with (run (step (Conf true s d (MVal n a k 34 acc)) 10%N) t).
        change (step (Conf true s d (MVal n a k 34 acc)) 10%N) with (Conf false s d (MVal n a k 34 acc)). apply IH.
      - rewrite !substitute_cons, !(markup_plain _) by auto. rewrite <- !app_assoc. change ([?x] ++ ?t) with (x :: t).
        rewrite !run_cons by discriminate. change (step1 (Conf false s d (MVal n a k 34 acc)) 10%N) with (Conf false s d (MVal n a k 34 (32%N :: acc))).
        change (step1 (Conf false s d (MVal n a k 34 acc)) 32%N) with (Conf false s d (MVal n a k 34 (32%N :: acc))). apply IH. }
    destruct (N.eqb_spec c 9) as [->|N9].
    { rewrite !substitute_cons, !(markup_plain _) by auto. rewrite <- !app_assoc.
      assert (E : run (Conf b s d (MVal n a k 34 acc)) ([9%N] ++ substitute markup_table v ++ """" ++ rest)
        = run (Conf false s d (MVal n a k 34 acc)) ([9%N] ++ substitute markup_table v ++ """" ++ rest)).
      { destruct b; [|reflexivity]. apply run_cr_app; [discriminate|]. intros x [<-|[]]. split; discriminate. }
      rewrite E. change ([?x] ++ ?t) with (x :: t). rewrite !run_cons by discriminate.
      change (step1 (Conf false s d (MVal n a k 34 acc)) 9%N) with (Conf false s d (MVal n a k 34 (32%N :: acc))).
      change (step1 (Conf false s d (MVal n a k 34 acc)) 32%N) with (Conf false s d (MVal n a k 34 (32%N :: acc))). apply IH. }
    (* any other character: the same on both sides *)
    rewrite !substitute_cons, <- !app_assoc.
    set (e := match entry c markup_table with Some e => e | None => [c] end).
    assert (HE : e <> [] /\ forall x, In x e -> x <> 13%N /\ x <> 10%N).
    { unfold e. destruct (entry c markup_table) as [e'|] eqn:E; [apply (markup_entry_chars _ _ E)|].
      split; [discriminate|]. intros x [<-|[]]. auto. }
    assert (E : run (Conf b s d (MVal n a k 34 acc)) (e ++ substitute markup_table v ++ """" ++ rest)
        = run (Conf false s d (MVal n a k 34 acc)) (e ++ substitute markup_table v ++ """" ++ rest)).
    { destruct b; [|reflexivity]. apply run_cr_app; apply HE. }
    rewrite E. rewrite !run_app.
    (* the state after e: either inside the value again, or an error *)
    destruct (entry c markup_table) as [e'|] eqn:EC.
    + assert (HA : aval e [c]).
      { subst e. pose proof (entry_in _ _ _ EC) as HI. destruct markup_good as [_ G]. rewrite Forall_forall in G.
        destruct (G _ HI) as (body & E1 & E2 & E3). cbn [fst snd] in E1, E3. subst e'. apply aval_ref; assumption. }
      rewrite HA. cbn [rev app]. rewrite <- !run_app. apply IH.
    + subst e. assert (EC' := EC). apply entry_none in EC'. cbn in EC'.
      assert (S1 : run (Conf false s d (MVal n a k 34 acc)) [c] = Conf false s d (MVal n a k 34 (c :: acc))).
      { change (run (Conf false s d (MVal n a k 34 acc)) [c]) with (run (Conf false s d (MVal n a k 34 acc)) (c :: [])).
        rewrite run_cons by exact N13. cbn [step1 md run fold_left].
        rewrite (proj2 (N.eqb_neq c 34)), (proj2 (N.eqb_neq c 60)), (proj2 (N.eqb_neq c 38)) by intuition.
        destruct (is_ws c) eqn:W.
        - unfold is_ws in W. rewrite (proj2 (N.eqb_neq c 10) N10), (proj2 (N.eqb_neq c 9) N9), (proj2 (N.eqb_neq c 13) N13), !orb_false_r in W.
          apply N.eqb_eq in W. subst c. reflexivity.
        - rewrite HC. reflexivity. }
      rewrite S1, <- !run_app. apply IH.
Qed.

Lemma on_one_line_clean b v x : In x (on_one_line b v) -> ~ In x [9; 10; 13]%N.
Proof.
  revert b. induction v as [|c v IH]; intros b; [intros []|]. cbn [on_one_line].
  destruct (N.eqb_spec c 13) as [->|N13]; [intros [<-|H]; [cbn; intuition discriminate|apply (IH _ H)]|].
  destruct (N.eqb_spec c 10) as [->|N10].
  { destruct b; [apply IH|]. intros [<-|H]; [cbn; intuition discriminate|apply (IH _ H)]. }
  intros [<-|H]; [|apply (IH _ H)]. destruct (N.eqb_spec c 9); cbn; intuition congruence.
Qed.
Lemma on_one_line_xml b v : Forall (fun c => is_xml_char c = true) v -> Forall (fun c => is_xml_char c = true) (on_one_line b v).
Proof.
  intros H. revert b. induction H as [|c v HC HV IH]; intros b; [constructor|]. cbn [on_one_line].
  destruct (N.eqb c 13); [constructor; [reflexivity|apply IH]|]. destruct (N.eqb c 10).
  { destruct b; [apply IH|constructor; [reflexivity|apply IH]]. }
  constructor; [|apply IH]. destruct (N.eqb c 9); [reflexivity|exact HC].
Qed.
Lemma on_one_line_html b v : Forall (fun c => is_xml_char c = true) v -> attr_html (on_one_line b v).
Proof.
  intros H. unfold attr_html, xml_text_without. pose proof (on_one_line_xml b v H) as HX. rewrite Forall_forall in *.
  intros x Hx. split; [apply HX, Hx|apply (on_one_line_clean _ _ _ Hx)].
Qed.
Lemma on_one_line_id v : (forall x, In x v -> ~ In x [9; 10; 13]%N) -> on_one_line false v = v.
Proof.
  induction v as [|c v IH]; intros H; [reflexivity|]. cbn [on_one_line]. pose proof (H c (or_introl eq_refl)) as HC. cbn in HC.
  rewrite (proj2 (N.eqb_neq c 13)), (proj2 (N.eqb_neq c 10)), (proj2 (N.eqb_neq c 9)) by intuition.
  rewrite IH; [reflexivity|]. intros x Hx. apply H. right. exact Hx.
Qed.
