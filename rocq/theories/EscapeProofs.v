(** EscapeProofs.v -- the three escaping functions *)
From Verif Require Import Base Xml Lxml XmlProofs SpecEscape.

Lemma replace_flat_map c e (f : N -> str) (s : str) :
  replace_char c e (flat_map f s) = flat_map (fun x => replace_char c e (f x)) s.
Proof.
  unfold replace_char. induction s as [|x s IH]; [reflexivity|]. cbn [flat_map]. rewrite flat_map_app, IH. reflexivity.
Qed.
Lemma escape_pointwise (f : str -> str) t :
  (forall s, f s = flat_map (fun c => f [c]) s) ->
  (forall c, f [c] = match entry c t with Some e => e | None => [c] end) ->
  forall s, f s = substitute t s.
Proof.
  intros H1 H2 s. rewrite H1. unfold substitute. apply flat_map_ext. exact H2.
Qed.
Lemma replace_eq c e s : replace_char c e s = flat_map (fun x => replace_char c e [x]) s.
Proof.
  unfold replace_char. induction s as [|x s IH]; [reflexivity|]. cbn [flat_map]. rewrite app_nil_r, IH. reflexivity.
Qed.
Ltac pointwise := intros s; unfold lxml_escape_for_html, reqif_escape, html_escape, lxml_escape_title;
  cbv zeta; rewrite (replace_eq 38), ?replace_flat_map; reflexivity.
Ltac perchar c := unfold lxml_escape_for_html, reqif_escape, html_escape, lxml_escape_title; cbn [entry lxml_table reqif_table markup_table app];
  cbv zeta;
  repeat match goal with |- context [N.eqb c ?k] => destruct (N.eqb_spec c k) as [->|?]; [reflexivity|] end;
  unfold replace_char; cbn [flat_map app];
  repeat (match goal with H : c <> ?k |- context [N.eqb c ?k] => rewrite (proj2 (N.eqb_neq c k) H) end; cbn [flat_map app]);
  reflexivity.
Lemma replace_single c e x : replace_char c e [x] = if N.eqb x c then e else [x].
Proof. unfold replace_char. cbn. apply app_nil_r. Qed.
Lemma lxml_escape_eq s : lxml_escape_for_html s = substitute lxml_table s.
Proof.
  revert s. apply escape_pointwise; [pointwise|]. intros c. perchar c.
Qed.
Lemma reqif_escape_eq s : reqif_escape s = substitute reqif_table s.
Proof. revert s. apply escape_pointwise; [pointwise|]. intros c. perchar c. Qed.
Lemma html_escape_eq s : html_escape s = substitute markup_table s.
Proof. revert s. apply escape_pointwise; [pointwise|]. intros c. perchar c. Qed.

(** the tables: every entry is a reference that denotes its character *)
Definition good_table (t : list (N * str)) : Prop :=
  In 38%N (map fst t) /\
  Forall (fun p => exists body, snd p = "&" ++ body ++ ";" /\ forallb ref_char body = true
                                /\ decode_ref body = Some (fst p)) t.
Ltac good := split; [cbn; auto|];
  repeat (apply Forall_cons; [cbn [fst snd]; eexists (removelast (tl _)); split; [reflexivity|]; split; reflexivity|]);
  apply Forall_nil.
Lemma good_of_pairs t :
  In 38%N (map fst t) ->
  forallb (fun p => match snd p with
                    | a :: r => let body := removelast r in
                                str_eqb (snd p) ("&" ++ body ++ ";") && forallb ref_char body
                                && match decode_ref body with Some c => N.eqb c (fst p) | None => false end
                    | [] => false end) t = true ->
  good_table t.
Proof.
  intros H1 H2. split; [exact H1|]. rewrite forallb_forall in H2. apply Forall_forall. intros [c e] Hin.
  apply H2 in Hin. cbn [fst snd] in *. destruct e as [|a r]; [discriminate|].
  cbv zeta in Hin. rewrite !andb_true_iff in Hin. destruct Hin as [[E1 E2] E3]. exists (removelast r).
  split; [|split; [exact E2|]].
  - clear -E1. revert E1. generalize (a :: r) ("&" ++ removelast r ++ ";"). intros x y.
    revert y. induction x as [|c x IH]; intros [|d y]; cbn; try discriminate; auto.
    intros H. apply andb_prop in H. destruct H as [H1 H2]. apply N.eqb_eq in H1. subst. f_equal. auto.
  - destruct (decode_ref (removelast r)) as [x|]; [|discriminate]. apply N.eqb_eq in E3. congruence.
Qed.
Lemma lxml_good : good_table lxml_table.
Proof. apply good_of_pairs; [cbn; auto|reflexivity]. Qed.
Lemma reqif_good : good_table reqif_table.
Proof. apply good_of_pairs; [cbn; auto|reflexivity]. Qed.
Lemma markup_good : good_table markup_table.
Proof. apply good_of_pairs; [cbn; auto|reflexivity]. Qed.
Lemma entry_in c t e : entry c t = Some e -> In (c, e) t.
Proof.
  induction t as [|[c' e'] t IH]; [discriminate|]. cbn. destruct (N.eqb_spec c c') as [->|].
  - intros H. injection H as ->. auto.
  - auto.
Qed.
Lemma entry_none c t : entry c t = None <-> ~ In c (map fst t).
Proof.
  induction t as [|[c' e'] t IH]; [cbn; tauto|]. cbn. destruct (N.eqb_spec c c') as [->|N].
  - split; [discriminate|tauto].
  - rewrite IH. split; intros H; [intros [E|E]; [congruence|tauto]|tauto].
Qed.

Lemma substitute_aval t s bad :
  good_table t -> (forall c, is_xml_char c = true -> ~ In c bad -> entry c t = None -> attr_plain c = true) ->
  xml_text_without bad s -> aval (substitute t s) s.
Proof.
  intros [G1 G2] P H. apply aval_flat_map. intros c Hc.
  unfold xml_text_without in H. rewrite Forall_forall in H. destruct (H c Hc) as [X B].
  destruct (entry c t) as [e|] eqn:E.
  - apply entry_in in E. rewrite Forall_forall in G2. destruct (G2 _ E) as (body & E1 & E2 & E3).
    cbn in E1, E3. subst e. apply aval_ref; assumption.
  - apply aval_char, P; assumption.
Qed.
Lemma substitute_reads t s bad :
  good_table t -> (forall c, is_xml_char c = true -> ~ In c bad -> entry c t = None -> text_plain c = true) ->
  xml_text_without bad s -> reads (substitute t s) (map XChar s).
Proof.
  intros [G1 G2] P H. apply reads_flat_map. intros c Hc.
  unfold xml_text_without in H. rewrite Forall_forall in H. destruct (H c Hc) as [X B].
  destruct (entry c t) as [e|] eqn:E.
  - apply entry_in in E. rewrite Forall_forall in G2. destruct (G2 _ E) as (body & E1 & E2 & E3).
    cbn in E1, E3. subst e. apply reads_ref; assumption.
  - apply reads_char, P; assumption.
Qed.
Lemma plain_attr_of c : is_xml_char c = true ->
  ~ In c [10; 13; 9; 60; 38; 34]%N -> attr_plain c = true.
Proof.
  intros X N. unfold attr_plain. rewrite X. cbn in N.
  destruct (N.eqb_spec c 60); [exfalso; apply N; subst; tauto|]. destruct (N.eqb_spec c 38); [exfalso; apply N; subst; tauto|]. destruct (N.eqb_spec c 34); [exfalso; apply N; subst; tauto|].
  unfold is_ws. destruct (N.eqb_spec c 10); [exfalso; apply N; subst; tauto|]. destruct (N.eqb_spec c 9); [exfalso; apply N; subst; tauto|]. destruct (N.eqb_spec c 13); [exfalso; apply N; subst; tauto|].
  destruct (N.eqb c 32); reflexivity.
Qed.
Lemma plain_text_of c : is_xml_char c = true -> ~ In c [13; 60; 38; 62]%N -> text_plain c = true.
Proof.
  intros X N. unfold text_plain. rewrite X. cbn in N.
  destruct (N.eqb_spec c 60); [exfalso; apply N; subst; tauto|]. destruct (N.eqb_spec c 38); [exfalso; apply N; subst; tauto|]. destruct (N.eqb_spec c 13); [exfalso; apply N; subst; tauto|]. destruct (N.eqb_spec c 62); [exfalso; apply N; subst; tauto|]. reflexivity.
Qed.
Lemma lxml_aval s : xml_text_without [10; 13]%N s -> aval (lxml_escape_for_html s) s.
Proof.
  rewrite lxml_escape_eq. apply substitute_aval; [apply lxml_good|]. intros c X B E.
  apply entry_none in E. apply plain_attr_of; [exact X|]. cbn in *. tauto.
Qed.
Lemma reqif_aval s : xml_text_without [10; 13]%N s -> aval (reqif_escape s) s.
Proof.
  rewrite reqif_escape_eq. apply substitute_aval; [apply reqif_good|]. intros c X B E.
  apply entry_none in E. apply plain_attr_of; [exact X|]. cbn in *. tauto.
Qed.
Lemma html_aval s : xml_text_without [10; 13; 9]%N s -> aval (html_escape s) s.
Proof.
  rewrite html_escape_eq. apply substitute_aval; [apply markup_good|]. intros c X B E.
  apply entry_none in E. apply plain_attr_of; [exact X|]. cbn in *. tauto.
Qed.
Lemma lxml_reads s : xml_text_without [13]%N s -> reads (lxml_escape_for_html s) (map XChar s).
Proof.
  rewrite lxml_escape_eq. apply substitute_reads; [apply lxml_good|]. intros c X B E.
  apply entry_none in E. apply plain_text_of; [exact X|]. cbn in *. tauto.
Qed.
Lemma reqif_reads s : xml_text_without [13]%N s -> reads (reqif_escape s) (map XChar s).
Proof.
  rewrite reqif_escape_eq. apply substitute_reads; [apply reqif_good|]. intros c X B E.
  apply entry_none in E. apply plain_text_of; [exact X|]. cbn in *. tauto.
Qed.
Lemma html_reads s : xml_text_without [13]%N s -> reads (html_escape s) (map XChar s).
Proof.
  rewrite html_escape_eq. apply substitute_reads; [apply markup_good|]. intros c X B E.
  apply entry_none in E. apply plain_text_of; [exact X|]. cbn in *. tauto.
Qed.

(** ** Injectivity and clean output *)
Lemma dec_unique t c d e : good_table t -> In (c, e) t -> In (d, e) t -> c = d.
Proof.
  intros [_ G] H1 H2. rewrite Forall_forall in G.
  destruct (G _ H1) as (b1 & E1 & _ & D1). destruct (G _ H2) as (b2 & E2 & _ & D2). cbn in *.
  rewrite E1 in E2. injection E2 as E2. apply app_inv_tail in E2. congruence.
Qed.
Lemma ref_no_semi b : forallb ref_char b = true -> ~ In 59%N b.
Proof. intros H I. rewrite forallb_forall in H. apply H in I. discriminate. Qed.
Lemma until_semi b1 r1 b2 r2 :
  ~ In 59%N b1 -> ~ In 59%N b2 -> b1 ++ 59%N :: r1 = b2 ++ 59%N :: r2 -> b1 = b2 /\ r1 = r2.
Proof.
  revert b2. induction b1 as [|x b1 IH]; intros [|y b2] H1 H2 E; cbn in *.
  - injection E. auto.
  - injection E as E1 E2. exfalso. apply H2. auto.
  - injection E as E1 E2. exfalso. apply H1. auto.
  - injection E as -> E. destruct (IH b2) as [-> ->]; auto.
Qed.
Lemma substitute_inj t : good_table t -> forall s1 s2, substitute t s1 = substitute t s2 -> s1 = s2.
Proof.
  intros G. pose proof G as [G1 G2]. rewrite Forall_forall in G2.
  induction s1 as [|c s1 IH]; intros [|d s2] H.
  - reflexivity.
  - exfalso. unfold substitute in H. cbn [flat_map] in H. destruct (entry d t) as [e|] eqn:E; [|discriminate].
    apply entry_in in E. destruct (G2 _ E) as (b & Eb & _). cbn in Eb. subst e. discriminate.
  - exfalso. unfold substitute in H. cbn [flat_map] in H. destruct (entry c t) as [e|] eqn:E; [|discriminate].
    apply entry_in in E. destruct (G2 _ E) as (b & Eb & _). cbn in Eb. subst e. discriminate.
  - unfold substitute in H. cbn [flat_map] in H. fold (substitute t s1) (substitute t s2) in H.
    destruct (entry c t) as [e1|] eqn:E1; destruct (entry d t) as [e2|] eqn:E2.
    + apply entry_in in E1, E2. destruct (G2 _ E1) as (b1 & Eb1 & R1 & D1). destruct (G2 _ E2) as (b2 & Eb2 & R2 & D2).
      cbn in Eb1, Eb2, D1, D2. subst e1 e2. cbn in H. injection H as H.
      rewrite <- !app_assoc in H. cbn in H. apply until_semi in H; [|apply ref_no_semi; assumption..].
      destruct H as [-> H]. rewrite D1 in D2. injection D2 as ->. f_equal. auto.
    + apply entry_in in E1. destruct (G2 _ E1) as (b1 & Eb1 & _). cbn in Eb1. subst e1. cbn in H. injection H as H _.
      apply entry_none in E2. subst. contradiction.
    + apply entry_in in E2. destruct (G2 _ E2) as (b1 & Eb1 & _). cbn in Eb1. subst e2. cbn in H. injection H as H _.
      apply entry_none in E1. subst. contradiction.
    + cbn in H. injection H as -> H. f_equal. auto.
Qed.
Lemma substitute_clean t s x :
  In x (substitute t s) ->
  (exists c e, In (c, e) t /\ In x e) \/ (~ In x (map fst t) /\ In x s).
Proof.
  unfold substitute. rewrite in_flat_map. intros (c & Hc & Hx).
  destruct (entry c t) as [e|] eqn:E.
  - left. apply entry_in in E. eauto.
  - right. destruct Hx as [->|[]]. apply entry_none in E. auto.
Qed.
