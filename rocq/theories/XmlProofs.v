(** XmlProofs.v -- how the XML reader of Xml.v reads printed fragments *)
From Verif Require Import Base Xml.

(** ** Running *)
Lemma run_app st a b : run st (a ++ b) = run (run st a) b.
Proof. apply fold_left_app. Qed.
Lemma step_lf st c : cr st = false -> c <> 13%N -> step st c = step1 st c.
Proof.
  intros H N. destruct st as [cr0 s d m]. cbn in H. subst. unfold step. cbn [cr stk done_ md andb].
  apply N.eqb_neq in N. rewrite N. reflexivity.
Qed.
Lemma run_cons s d m c t : c <> 13%N -> run (Conf false s d m) (c :: t) = run (step1 (Conf false s d m) c) t.
Proof. intros N. unfold run. cbn [fold_left]. rewrite step_lf by auto. reflexivity. Qed.

Lemma name_char_13 c : is_name_char c = true -> c <> 13%N.
Proof. intros H ->. discriminate. Qed.
Lemma name_start_char c : is_name_start c = true -> is_name_char c = true.
Proof. unfold is_name_char. intros ->. reflexivity. Qed.
Lemma run_name n acc s d :
  forallb is_name_char n = true -> run (Conf false s d (MName acc)) n = Conf false s d (MName (rev n ++ acc)).
Proof.
  revert acc. induction n as [|c n IH]; intros acc H; [reflexivity|]. cbn in H. apply andb_prop in H. destruct H as [H1 H2].
  rewrite run_cons by (apply name_char_13, H1). cbn [step1 md]. rewrite H1. unfold set_md. cbn [cr stk done_].
  rewrite IH by exact H2. cbn. rewrite <- app_assoc. reflexivity.
Qed.
Lemma run_attr_name n a k acc s d :
  forallb is_name_char k = true ->
  run (Conf false s d (MAttr n a acc)) k = Conf false s d (MAttr n a (rev k ++ acc)).
Proof.
  revert acc. induction k as [|c k IH]; intros acc H; [reflexivity|]. cbn in H. apply andb_prop in H. destruct H as [H1 H2].
  rewrite run_cons by (apply name_char_13, H1). cbn [step1 md]. rewrite H1. unfold set_md. cbn [cr stk done_].
  rewrite IH by exact H2. cbn. rewrite <- app_assoc. reflexivity.
Qed.
Lemma run_close_name n acc s d :
  acc <> [] -> forallb is_name_char n = true ->
  run (Conf false s d (MClose acc)) n = Conf false s d (MClose (rev n ++ acc)).
Proof.
  revert acc. induction n as [|c n IH]; intros acc A H; [reflexivity|]. cbn in H. apply andb_prop in H. destruct H as [H1 H2].
  rewrite run_cons by (apply name_char_13, H1). destruct acc as [|c0 acc]; [congruence|]. cbn [step1 md].
  rewrite H1. unfold set_md. cbn [cr stk done_].
  rewrite IH; [|discriminate|exact H2]. cbn. rewrite <- app_assoc. reflexivity.
Qed.
Lemma name_split n : is_name n = true -> exists c n', n = c :: n' /\ is_name_start c = true /\ forallb is_name_char n' = true.
Proof. destruct n as [|c n']; [discriminate|]. cbn. intros H. apply andb_prop in H. eauto. Qed.
Lemma name_start_not c : is_name_start c = true ->
  c <> 47%N /\ c <> 33%N /\ c <> 63%N /\ c <> 62%N /\ is_ws c = false /\ c <> 13%N.
Proof.
  intros H. repeat split; try (intros ->; discriminate).
  unfold is_ws. destruct (N.eqb_spec c 32); [subst; discriminate|]. destruct (N.eqb_spec c 10); [subst; discriminate|].
  destruct (N.eqb_spec c 9); [subst; discriminate|]. destruct (N.eqb_spec c 13); [subst; discriminate|]. reflexivity.
Qed.
Ltac nesolve := repeat match goal with
  | H : ?c <> ?k |- context [N.eqb ?c ?k] => rewrite (proj2 (N.eqb_neq c k) H) end.

(** "<name" *)
Lemma run_open n s d j :
  is_name n = true -> run (Conf false s d (MText j)) ("<" ++ n) = Conf false s d (MName (rev n)).
Proof.
  intros H. destruct (name_split n H) as (c & n' & -> & Hc & Hn).
  change (run (Conf false s d MLt) (c :: n') = Conf false s d (MName (rev (c :: n')))).
  destruct (name_start_not c Hc) as (N1 & N2 & N3 & _ & _ & N4).
  rewrite run_cons by exact N4. cbn [step1 md]. nesolve. rewrite Hc. unfold set_md. cbn [cr stk done_].
  rewrite run_name by exact Hn. reflexivity.
Qed.
(** "</name>" *)
Lemma run_close n a sib s d j :
  is_name n = true ->
  run (Conf false ((n, a, sib) :: s) d (MText j)) ("</" ++ n ++ ">")
  = Conf false s (XElem n a (rev d) :: sib) (MText 0).
Proof.
  intros H. destruct (name_split n H) as (c & n' & -> & Hc & Hn).
  change (run (Conf false ((c :: n', a, sib) :: s) d (MClose [])) ((c :: n') ++ ">")
          = Conf false s (XElem (c :: n') a (rev d) :: sib) (MText 0)).
  destruct (name_start_not c Hc) as (N1 & N2 & N3 & N5 & N6 & N4).
  rewrite <- app_comm_cons, run_cons by exact N4. cbn [step1 md]. rewrite Hc. unfold set_md. cbn [cr stk done_].
  rewrite run_app, run_close_name by (discriminate || exact Hn).
  change (rev n' ++ [c]) with (rev (c :: n')).
  destruct (rev (c :: n')) as [|x r] eqn:E.
  { apply (f_equal (@length N)) in E. rewrite rev_length in E. discriminate. }
  change (run ?st ">") with (step st 62%N). rewrite step_lf by (reflexivity || discriminate). cbn [step1 md].
  change (is_name_char 62) with false. change (is_ws 62) with false. cbn [N.eqb Pos.eqb].
  rewrite <- E, rev_involutive. unfold close_elem. cbn [stk cr done_].
  assert (Q : str_eqb (c :: n') (c :: n') = true).
  { clear. induction (c :: n') as [|x l IH]; [reflexivity|]. cbn. rewrite N.eqb_refl. exact IH. }
  rewrite Q. reflexivity.
Qed.

(** ** Attribute values *)
(** Between double quotes [raw] is read as [v]. *)
Definition aval (raw v : str) : Prop :=
  forall n a k s d acc,
    run (Conf false s d (MVal n a k 34 acc)) raw = Conf false s d (MVal n a k 34 (rev v ++ acc)).
Lemma aval_nil : aval [] [].
Proof. intros n a k s d acc. reflexivity. Qed.
Lemma aval_app r1 v1 r2 v2 : aval r1 v1 -> aval r2 v2 -> aval (r1 ++ r2) (v1 ++ v2).
Proof.
  intros H1 H2 n a k s d acc. rewrite run_app, H1, H2, rev_app_distr, app_assoc. reflexivity.
Qed.
(** a character printed as it is *)
Definition attr_plain (c : N) : bool :=
  is_xml_char c && negb (is_ws c && negb (N.eqb c 32)) && negb (N.eqb c 60) && negb (N.eqb c 38) && negb (N.eqb c 34).
Lemma aval_char c : attr_plain c = true -> aval [c] [c].
Proof.
  unfold attr_plain. rewrite !andb_true_iff, !negb_true_iff. intros [[[[H1 H2] H3] H4] H5] n a k s d acc.
  assert (N13 : c <> 13%N) by (intros ->; discriminate).
  rewrite run_cons by exact N13. cbn [step1 md run fold_left]. rewrite H5, H3, H4, H1.
  destruct (is_ws c); [|reflexivity]. cbn in H2. apply negb_false_iff, N.eqb_eq in H2. subst. reflexivity.
Qed.
Lemma aval_flat_map f s : (forall c, In c s -> aval (f c) [c]) -> aval (flat_map f s) s.
Proof.
  induction s as [|c s IH]; intros H; [apply aval_nil|]. cbn [flat_map].
  apply (aval_app (f c) [c]); [apply H; left; reflexivity|]. apply IH. intros x Hx. apply H. right. exact Hx.
Qed.
Lemma aval_raw s : forallb attr_plain s = true -> aval s s.
Proof.
  intros H. rewrite forallb_forall in H. replace s with (flat_map (fun c => [c]) s) at 1.
  - apply aval_flat_map. intros c Hc. apply aval_char, H, Hc.
  - clear. induction s; cbn; congruence.
Qed.
Definition ref_char (c : N) : bool := is_name_char c || N.eqb c 35.
Lemma ref_char_not c : ref_char c = true -> c <> 59%N /\ c <> 13%N.
Proof. intros H. split; intros ->; discriminate. Qed.
Lemma aval_ref body c :
  forallb ref_char body = true -> decode_ref body = Some c -> aval ("&" ++ body ++ ";") [c].
Proof.
  intros H HD n a k s d acc. rewrite run_app.
  change (run (Conf false s d (MVal n a k 34 acc)) "&") with (Conf false s d (MValRef n a k 34 acc [])).
  assert (R : forall buf, run (Conf false s d (MValRef n a k 34 acc buf)) body
              = Conf false s d (MValRef n a k 34 acc (rev body ++ buf))).
  { clear HD. induction body as [|x body IH]; intros buf; [reflexivity|]. cbn in H. apply andb_prop in H.
    destruct H as [H1 H2]. destruct (ref_char_not x H1) as [N1 N2]. rewrite run_cons by exact N2.
    cbn [step1 md]. nesolve. unfold ref_char in H1. rewrite H1. unfold set_md. cbn [cr stk done_].
    rewrite (IH H2). cbn. rewrite <- app_assoc. reflexivity. }
  rewrite run_app, R, app_nil_r. change (run ?st ";") with (step st 59%N).
  rewrite step_lf by (reflexivity || discriminate). cbn [step1 md N.eqb Pos.eqb].
  rewrite rev_involutive, HD. reflexivity.
Qed.

(** ** Attributes *)
(** key, printed value, value *)
Record pattr := PA { pa_key : str; pa_raw : str; pa_val : str }.
Definition render_attr (a : pattr) : str := " " ++ pa_key a ++ "=""" ++ pa_raw a ++ """".
Definition render_attrs (l : list pattr) : str := flat_map render_attr l.
Definition attr_of (a : pattr) : str * str := (pa_key a, pa_val a).
Definition wf_attr (a : pattr) : Prop := is_name (pa_key a) = true /\ aval (pa_raw a) (pa_val a).
Lemma run_one_attr a n l s d :
  wf_attr a ->
  run (Conf false s d (MTag n l)) (render_attr a) = Conf false s d (MTag n (attr_of a :: l)).
Proof.
  intros [HN HV]. destruct (name_split _ HN) as (c & k & E & Hc & Hk). unfold render_attr, attr_of. rewrite E.
  destruct (name_start_not c Hc) as (N1 & N2 & N3 & N5 & N6 & N4).
  rewrite run_app. change (run (Conf false s d (MTag n l)) " ") with (Conf false s d (MTagSp n l)).
  rewrite <- app_comm_cons, run_cons by exact N4. cbn [step1 md]. rewrite N6. nesolve. rewrite Hc.
  unfold set_md. cbn [cr stk done_]. rewrite run_app, run_attr_name by exact Hk.
  change (rev k ++ [c]) with (rev (c :: k)).
  change ("=""" ++ pa_raw a ++ """") with (61%N :: 34%N :: pa_raw a ++ """").
  rewrite run_cons by discriminate. cbn [step1 md].
  change (is_name_char 61) with false. cbn [N.eqb Pos.eqb]. unfold set_md. cbn [cr stk done_].
  rewrite run_cons by discriminate. cbn [step1 md].
  change (is_ws 34) with false. cbn [N.eqb Pos.eqb orb]. unfold set_md. cbn [cr stk done_].
  rewrite run_app, HV, app_nil_r, rev_involutive. change (run ?st """") with (step st 34%N).
  rewrite step_lf by (reflexivity || discriminate). cbn [step1 md N.eqb Pos.eqb].
  rewrite rev_involutive. reflexivity.
Qed.
Lemma run_attrs as_ n l s d :
  Forall wf_attr as_ ->
  run (Conf false s d (MTag n l)) (render_attrs as_) = Conf false s d (MTag n (rev (map attr_of as_) ++ l)).
Proof.
  intros H. revert l. induction H as [|a as_ Ha _ IH]; intros l; [reflexivity|].
  cbn [render_attrs flat_map]. fold (render_attrs as_). rewrite run_app, run_one_attr by exact Ha.
  rewrite IH. cbn. rewrite <- app_assoc. reflexivity.
Qed.
(** after a name, as after a tag with no attributes yet *)
Lemma name_as_tag n c t s d :
  is_name_char c = false -> c <> 13%N ->
  run (Conf false s d (MName (rev n))) (c :: t) = run (Conf false s d (MTag n [])) (c :: t).
Proof.
  intros H N. rewrite !run_cons by exact N. cbn [step1 md]. rewrite H, rev_involutive. reflexivity.
Qed.
Lemma run_head n as_ rest s d j :
  is_name n = true -> Forall wf_attr as_ ->
  (exists c t, rest = c :: t /\ is_name_char c = false /\ c <> 13%N) ->
  run (Conf false s d (MText j)) ("<" ++ n ++ render_attrs as_ ++ rest)
  = run (Conf false s d (MTag n (rev (map attr_of as_)))) rest.
Proof.
  intros H1 H2 (c & t & -> & H3 & H4).
  rewrite app_assoc, run_app, run_open by exact H1.
  assert (X : exists c' t', render_attrs as_ ++ c :: t = c' :: t' /\ is_name_char c' = false /\ c' <> 13%N).
  { destruct as_ as [|a as_]; [exists c, t; auto|].
    unfold render_attrs, render_attr. cbn [flat_map]. rewrite <- app_assoc.
    exists 32%N. eexists. split; [reflexivity|]. split; [reflexivity|discriminate]. }
  destruct X as (c' & t' & E & X1 & X2). rewrite E, name_as_tag by assumption.
  rewrite <- E, run_app, run_attrs by exact H2. rewrite app_nil_r. reflexivity.
Qed.

(** ** Content *)
(** Inside an element the text [s] is read as the nodes [its]. *)
Definition reads (s : str) (its : list xnode) : Prop :=
  forall st d j, st <> [] -> exists j', run (Conf false st d (MText j)) s = Conf false st (rev its ++ d) (MText j').
Lemma reads_nil : reads [] [].
Proof. intros st d j _. exists j. reflexivity. Qed.
Lemma reads_app s1 i1 s2 i2 : reads s1 i1 -> reads s2 i2 -> reads (s1 ++ s2) (i1 ++ i2).
Proof.
  intros H1 H2 st d j N. destruct (H1 st d j N) as [j1 E1]. destruct (H2 st (rev i1 ++ d) j1 N) as [j2 E2]. exists j2.
  rewrite run_app, E1, E2. rewrite rev_app_distr, app_assoc. reflexivity.
Qed.
Lemma reads_concat l : Forall (fun p => reads (fst p) (snd p)) l -> reads (concat (map fst l)) (concat (map snd l)).
Proof. induction 1; [apply reads_nil|]. cbn. apply reads_app; assumption. Qed.
Definition text_plain (c : N) : bool :=
  is_xml_char c && negb (N.eqb c 13) && negb (N.eqb c 60) && negb (N.eqb c 38) && negb (N.eqb c 62).
Lemma reads_char c : text_plain c = true -> reads [c] [XChar c].
Proof.
  unfold text_plain. rewrite !andb_true_iff, !negb_true_iff. intros [[[[H1 H2] H3] H4] H5] st d j N.
  apply N.eqb_neq in H2. rewrite run_cons by exact H2. cbn [step1 md run fold_left stk]. rewrite H3, H4, H1, H5.
  destruct st; [congruence|]. eexists. reflexivity.
Qed.
Lemma reads_flat_map f s :
  (forall c, In c s -> reads (f c) [XChar c]) -> reads (flat_map f s) (map XChar s).
Proof.
  induction s as [|c s IH]; intros H; [apply reads_nil|]. cbn [flat_map map].
  apply (reads_app (f c) [XChar c]); [apply H; left; reflexivity|]. apply IH. intros x Hx. apply H. right. exact Hx.
Qed.
Lemma reads_raw s : forallb text_plain s = true -> reads s (map XChar s).
Proof.
  intros H. rewrite forallb_forall in H. replace s with (flat_map (fun c => [c]) s) at 1.
  - apply reads_flat_map. intros c Hc. apply reads_char, H, Hc.
  - clear. induction s; cbn; congruence.
Qed.
Lemma reads_ref_mode body c :
  forallb ref_char body = true -> decode_ref body = Some c -> forall s d j, s <> [] ->
  run (Conf false s d (MText j)) ("&" ++ body ++ ";") = Conf false s (XChar c :: d) (MText 0).
Proof.
  intros H HD s d j N. rewrite run_app.
  assert (A : run (Conf false s d (MText j)) "&" = Conf false s d (MTextRef [])) by (destruct s; [congruence|reflexivity]).
  rewrite A.
  assert (R : forall buf, run (Conf false s d (MTextRef buf)) body = Conf false s d (MTextRef (rev body ++ buf))).
  { clear HD A. induction body as [|x body IH]; intros buf; [reflexivity|]. cbn in H. apply andb_prop in H.
    destruct H as [H1 H2]. destruct (ref_char_not x H1) as [N1 N2]. rewrite run_cons by exact N2.
    cbn [step1 md]. nesolve. unfold ref_char in H1. rewrite H1. unfold set_md. cbn [cr stk done_].
    rewrite (IH H2). cbn. rewrite <- app_assoc. reflexivity. }
  rewrite run_app, R, app_nil_r. change (run ?st ";") with (step st 59%N).
  rewrite step_lf by (reflexivity || discriminate). cbn [step1 md N.eqb Pos.eqb].
  rewrite rev_involutive, HD. reflexivity.
Qed.
Lemma reads_ref body c :
  forallb ref_char body = true -> decode_ref body = Some c -> reads ("&" ++ body ++ ";") [XChar c].
Proof. intros H HD s d j N. exists 0. apply reads_ref_mode; assumption. Qed.
(** ... at the beginning of an element *)
Definition reads0 (s : str) (its : list xnode) : Prop :=
  forall st d, st <> [] -> exists j, run (Conf false st d (MText 0)) s = Conf false st (rev its ++ d) (MText j).
Lemma reads_reads0 s its : reads s its -> reads0 s its.
Proof. intros H st d N. apply (H st d 0 N). Qed.
Definition text_open (c : N) : bool := is_xml_char c && negb (N.eqb c 13) && negb (N.eqb c 60) && negb (N.eqb c 38).
Lemma reads0_flat_map f s :
  (forall c, In c s -> f c = [c] /\ text_open c = true
     \/ exists body, f c = "&" ++ body ++ ";" /\ forallb ref_char body = true /\ decode_ref body = Some c) ->
  (forall a b, s <> a ++ "]]>" ++ b) -> reads0 (flat_map f s) (map XChar s).
Proof.
  intros HF HA. assert (X : forall j, (j <> 0 -> forall u, s <> "]>" ++ u) -> (j = 2 -> forall u, s <> ">" ++ u) ->
    forall st d, st <> [] -> exists j', run (Conf false st d (MText j)) (flat_map f s) = Conf false st (rev (map XChar s) ++ d) (MText j')).
  { induction s as [|c s IH]; intros j J1 J2 st d N; [exists j; reflexivity|].
    assert (IH' := IH (fun x H => HF x (or_intror H)) (fun a b E => HA (c :: a) b (f_equal (cons c) E))). clear IH.
    cbn [flat_map map rev]. rewrite run_app, <- app_assoc. cbn [app]. destruct (HF c (or_introl eq_refl)) as [[-> HO]|(body & -> & B1 & B2)].
    - unfold text_open in HO. rewrite !andb_true_iff, !negb_true_iff in HO. destruct HO as [[[H1 H2] H3] H4]. apply N.eqb_neq in H2.
      assert (E : run (Conf false st d (MText j)) [c]
        = Conf false st (XChar c :: d) (MText (if N.eqb c 93 then match j with 0 => 1 | _ => 2 end else 0))).
      { rewrite run_cons by exact H2. cbn [step1 md run fold_left stk cr done_]. rewrite H3, H4, H1. destruct st as [|fr st]; [congruence|].
        destruct (N.eqb c 62 && Nat.eqb j 2) eqn:EE; [|reflexivity]. exfalso. apply andb_prop in EE. destruct EE as [E1 E2].
        apply N.eqb_eq in E1. apply Nat.eqb_eq in E2. subst. apply (J2 eq_refl s). reflexivity. }
      rewrite E. apply IH'; [| |exact N].
      + destruct (N.eqb_spec c 93) as [->|]; [|contradiction]. intros _ u ->. apply (HA [] u). reflexivity.
      + destruct (N.eqb_spec c 93) as [->|]; [|discriminate]. intros J u ->. apply (J1 ltac:(intros ->; discriminate J) u). reflexivity.
    - rewrite (reads_ref_mode body c B1 B2 st d j N). apply IH'; [contradiction|discriminate|exact N]. }
  intros st d N. apply X; [contradiction|discriminate|exact N].
Qed.
(** Elements, anywhere (also at top level) *)
Lemma run_elem n as_ body its s d j :
  is_name n = true -> Forall wf_attr as_ -> reads0 body its ->
  run (Conf false s d (MText j)) ("<" ++ n ++ render_attrs as_ ++ ">" ++ body ++ "</" ++ n ++ ">")
  = Conf false s (XElem n (map attr_of as_) its :: d) (MText 0).
Proof.
  intros H1 H2 H3. rewrite run_head; [|exact H1|exact H2|].
  2: { eexists. eexists. split; [reflexivity|]. split; [reflexivity|discriminate]. }
  rewrite run_app. change (run ?st ">") with (step st 62%N).
  rewrite step_lf by (reflexivity || discriminate). cbn [step1 md].
  change (is_ws 62) with false. cbn [N.eqb Pos.eqb]. unfold open_elem. cbn [cr stk done_].
  destruct (H3 ((n, map attr_of as_, d) :: s) [] ltac:(discriminate)) as [j' E3].
  rewrite run_app, rev_involutive, E3. rewrite run_close by exact H1.
  rewrite app_nil_r, rev_involutive. reflexivity.
Qed.
Lemma run_empty n as_ s d j :
  is_name n = true -> Forall wf_attr as_ ->
  run (Conf false s d (MText j)) ("<" ++ n ++ render_attrs as_ ++ "/>")
  = Conf false s (XElem n (map attr_of as_) [] :: d) (MText 0).
Proof.
  intros H1 H2. rewrite run_head; [|exact H1|exact H2|].
  2: { eexists. eexists. split; [reflexivity|]. split; [reflexivity|discriminate]. }
  rewrite run_cons by discriminate. cbn [step1 md].
  change (is_ws 47) with false. cbn [N.eqb Pos.eqb]. unfold set_md. cbn [cr stk done_].
  rewrite run_cons by discriminate. cbn [step1 md N.eqb Pos.eqb].
  rewrite rev_involutive. reflexivity.
Qed.
Lemma reads_elem n as_ body its :
  is_name n = true -> Forall wf_attr as_ -> reads0 body its ->
  reads ("<" ++ n ++ render_attrs as_ ++ ">" ++ body ++ "</" ++ n ++ ">") [XElem n (map attr_of as_) its].
Proof. intros H1 H2 H3 s d j _. exists 0. apply run_elem; assumption. Qed.
Lemma reads_empty n as_ :
  is_name n = true -> Forall wf_attr as_ ->
  reads ("<" ++ n ++ render_attrs as_ ++ "/>") [XElem n (map attr_of as_) []].
Proof. intros H1 H2 s d j _. exists 0. apply run_empty; assumption. Qed.

(** ** Documents *)
Lemma finish_root d n a k :
  forallb (fun x => match x with XChar c => is_ws c | _ => false end) d = true ->
  finish (Conf false [] (d ++ [XElem n a k]) (MText 0)) = Some (XDoc None (XElem n a k)).
Proof.
  intros H. unfold finish. cbn [md stk done_]. rewrite rev_app_distr. cbn [rev app].
  cbn [find_root]. assert (F : forallb is_misc (rev d) = true).
  { rewrite forallb_forall in *. intros x Hx. apply in_rev in Hx. apply H in Hx. destruct x; try discriminate; exact Hx. }
  rewrite F. reflexivity.
Qed.
