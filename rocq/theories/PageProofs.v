(** PageProofs.v -- the text of the page and its tree *)
From Verif Require Import Base Xml SpecXml GrammarProofs GrammarMachine GrammarInv GrammarDoc SpecDump Dump SpecPage.

(** [holds t l]: [t] is content whose nodes, without blanks, are [l];
    [reads t l]: and it may stand after any text *)
Definition holds (t : str) (l : list xnode) : Prop := exists k, content t k /\ compact k = l.
Definition reads (t : str) (l : list xnode) : Prop := free t /\ holds t l.
Lemma compact_app a b : compact (a ++ b) = compact a ++ compact b.
Proof. unfold compact. apply flat_map_app. Qed.
Lemma holds_reads t l : reads t l -> holds t l.
Proof. intros [_ H]. exact H. Qed.
Lemma holds_app a l b l' : holds a l -> reads b l' -> holds (a ++ b) (l ++ l').
Proof.
  intros (k & H & <-) (F & k' & H' & <-). exists (k ++ k'). split; [apply content_app; [assumption|apply joined_free, F|assumption]|apply compact_app].
Qed.
Lemma reads_app a l b l' : reads a l -> reads b l' -> reads (a ++ b) (l ++ l').
Proof. intros [F H] H'. split; [apply free_app; [exact F|apply H']|apply holds_app; assumption]. Qed.
Lemma reads_nil : reads [] [].
Proof. split; [exact free_nil|]. exists []. split; [constructor|reflexivity]. Qed.
Lemma reads_flat_map {A} (f : A -> str) (g : A -> list xnode) l : (forall x, In x l -> reads (f x) (g x)) -> reads (flat_map f l) (flat_map g l).
Proof.
  induction l as [|x l IH]; intros H; [exact reads_nil|]. cbn [flat_map]. apply reads_app; [apply H; left; reflexivity|].
  apply IH. intros y Hy. apply H. right. exact Hy.
Qed.
(** text with "<" and ">" written as references *)
Definition esc (s : str) : str := flat_map (fun c => if N.eqb c 60 then "&lt;" else if N.eqb c 62 then "&gt;" else [c]) s.
Definition text_char (c : N) : bool := is_xml_char c && negb (N.eqb c 38).
Lemma free_esc s : free (esc s).
Proof.
  apply free_flat_map. intros c _. destruct (N.eqb_spec c 60); [apply free_first; discriminate|].
  destruct (N.eqb_spec c 62); [apply free_first; discriminate|]. apply free_one. assumption.
Qed.
Lemma content_esc s : forallb text_char s = true -> content (esc s) (map XChar s).
Proof.
  induction s as [|c s IH]; intros H; [constructor|]. cbn [forallb] in H. apply andb_true_iff in H. destruct H as [H1 H2].
  apply andb_true_iff in H1. destruct H1 as [H1 H3]. specialize (IH H2). cbn [esc flat_map map]. fold (esc s).
  destruct (N.eqb_spec c 60) as [->|N1]; [exact (content_reference "lt" 60%N _ _ reference_lt IH)|].
  destruct (N.eqb_spec c 62) as [->|N2]; [exact (content_reference "gt" 62%N _ _ reference_gt IH)|].
  cbn [app]. apply content_free; [apply char_ok, H1|exact N1| |apply free_esc|exact IH]. intros ->. discriminate H3.
Qed.
Lemma reads_esc s : forallb text_char s = true -> reads (esc s) (words s).
Proof. intros H. split; [apply free_esc|]. exists (map XChar s). split; [apply content_esc, H|reflexivity]. Qed.
Lemma holds_white w t l : forallb is_ws w = true -> holds t l -> holds (w ++ t) l.
Proof.
  induction w as [|c w IH]; intros H HT; [exact HT|]. cbn [forallb] in H. apply andb_true_iff in H. destruct H as [H1 H2].
  destruct (IH H2 HT) as (k & K1 & K2). exists (XChar c :: k). apply white_ok in H1. split.
  - cbn [app]. apply content_char; [apply white_char, H1| | | |exact K1]; [..|intros t' E; injection E as -> _]; try intros ->;
      destruct H1 as [H1|[H1|[H1|[H1|[]]]]]; discriminate H1.
  - unfold compact. cbn [flat_map blank]. destruct H1 as [<-|[<-|[<-|[<-|[]]]]]; exact K2.
Qed.
(** elements *)
Definition att_text (a : list (str * str)) : str := flat_map (fun kv => " " ++ fst kv ++ "=""" ++ snd kv ++ """") a.
Definition value_okb (c : N) : bool := is_xml_char c && negb (N.eqb c 38) && negb (N.eqb c 60) && negb (N.eqb c 34) && (negb (is_ws c) || N.eqb c 32).
Definition att_okb (a : list (str * str)) : bool := forallb (fun kv => is_name (fst kv) && forallb value_okb (snd kv)) a.
Lemma value_plain v : forallb value_okb v = true -> value 34 v v.
Proof.
  induction v as [|c v IH]; intros H; [constructor|]. cbn [forallb] in H. apply andb_true_iff in H. destruct H as [H1 H2]. specialize (IH H2).
  unfold value_okb in H1. repeat (apply andb_true_iff in H1; destruct H1 as [H1 ?]).
  destruct (is_ws c) eqn:W.
  - cbn [negb orb] in *. assert (c = 32%N) by (apply N.eqb_eq; assumption). subst c. apply (value_white 34 32); [left; reflexivity|exact IH].
  - apply value_char; [apply char_ok; assumption| | | | |exact IH].
    + intros Q. apply white_ok in Q. congruence.
    + intros ->. discriminate.
    + intros ->. discriminate.
    + intros ->. discriminate.
Qed.
Lemma attributes_text a : att_okb a = true -> attributes (att_text a) a.
Proof.
  induction a as [|[k v] a IH]; intros H; [constructor|]. unfold att_okb in H. cbn [forallb fst snd] in H. apply andb_true_iff in H. destruct H as [H1 H2].
  apply andb_true_iff in H1. destruct H1 as [H1 H3]. cbn [att_text flat_map fst snd]. rewrite <- !app_assoc.
  apply (attributes_cons " " k [] [] 34 v v (att_text a) a); try constructor; auto; try discriminate.
  - left. reflexivity.
  - apply name_ok, H1.
  - apply value_plain, H3.
Qed.
Definition tagged (n : str) (a : list (str * str)) (t : str) : str := "<" ++ n ++ att_text a ++ ">" ++ t ++ "</" ++ n ++ ">".
Lemma element_tagged n a t k : is_name n && att_okb a = true -> content t k -> element (tagged n a t) (XElem n a k).
Proof.
  intros H C. apply andb_true_iff in H. destruct H as [H1 H2].
  apply (element_full n (att_text a) a [] t k []); [apply name_ok, H1|apply attributes_text, H2|constructor|exact C|constructor].
Qed.
Lemma reads_tagged n a t l : is_name n && att_okb a = true -> holds t l -> reads (tagged n a t) [XElem n a l].
Proof.
  intros H (k & C & <-). split; [apply free_first; discriminate|]. exists [XElem n a k]. split; [|reflexivity].
  rewrite <- (app_nil_r (tagged n a t)). apply content_element; [apply element_tagged; assumption|constructor].
Qed.
Lemma reads_single n a : is_name n && att_okb a = true -> reads ("<" ++ n ++ att_text a ++ "/>") [XElem n a []].
Proof.
  intros H. apply andb_true_iff in H. destruct H as [H1 H2].
  split; [apply free_first; discriminate|]. exists [XElem n a []]. split; [|reflexivity].
  rewrite <- (app_nil_r (_ ++ _)). apply content_element; [|constructor].
  apply (element_empty n (att_text a) a []); [apply name_ok, H1|apply attributes_text, H2|constructor].
Qed.
(** white space before the content [t] *)
Definition after (n : nat) (t : str) : str := nl ++ repeat 32%N n ++ t.
Lemma reads_after n t l : holds t l -> reads (after n t) l.
Proof.
  intros H. split; [apply free_first; discriminate|]. unfold after. rewrite app_assoc. apply holds_white; [|exact H].
  rewrite forallb_app. apply andb_true_iff. split; [reflexivity|]. induction n as [|n IH]; [reflexivity|exact IH].
Qed.

Section Page.
Variable tree : str -> list xnode.
Definition meant (v : str) : Prop := content v (tree v).
Lemma holds_value v : meant v -> holds v (compact (tree v)).
Proof. intros H. exists (tree v). auto. Qed.


Lemma reads_eq t l l' : reads t l -> l = l' -> reads t l'.
Proof. intros H <-. exact H. Qed.
Ltac norm := unfold after, tagged, att_text, level, nl, esc; cbn [repeat flat_map fst snd app N.eqb Pos.eqb]; repeat (rewrite <- app_assoc; cbn [app]); cbn [app].
Ltac rd := repeat first
  [ eapply reads_after | eapply reads_nil
  | eapply reads_tagged; [vm_compute; reflexivity|]
  | eapply reads_single; vm_compute; reflexivity
  | eapply reads_esc; vm_compute; reflexivity
  | eapply holds_value; assumption
  | eassumption
  | match goal with |- reads _ _ => eapply reads_app end
  | eapply holds_reads; eapply reads_single; vm_compute; reflexivity
  | match goal with |- holds (_ ++ _) _ => eapply holds_app end
  | eapply holds_reads ].
Ltac rds := eapply reads_eq; [rd|reflexivity].

Lemma data_type_reads d : meant d -> reads (t7 ++ d ++ t8) [title_table tree "5" d].
Proof.
  intros H. replace (t7 ++ d ++ t8) with (after 2 (tagged "table" (level "5") (after 4 (tagged "tr" []
      (after 6 (tagged "td" [] (esc "TITLE:")) ++ after 6 (tagged "td" [] d) ++ after 4 [])) ++ after 2 []) ++ after 2 []))
    by (unfold t7, t8; norm; reflexivity).
  rds.
Qed.
Lemma spec_type_reads d : meant d -> reads (t14 ++ d ++ t15) [title_table tree "5" d].
Proof.
  intros H. replace (t14 ++ d ++ t15) with (after 4 (tagged "table" (level "5") (after 6 (tagged "tr" []
      (after 8 (tagged "td" [] (esc "TITLE:")) ++ after 8 (tagged "td" [] d) ++ after 6 [])) ++ after 4 []) ++ after 2 []))
    by (unfold t14, t15; norm; reflexivity).
  rds.
Qed.
Lemma row_reads a v : meant a -> meant v -> reads (t27 ++ a ++ t28 ++ v ++ t29) [row tree (compact (tree a)) v].
Proof.
  intros H1 H2. replace (t27 ++ a ++ t28 ++ v ++ t29) with (after 6 (tagged "tr" []
      (after 8 (tagged "td" [] a) ++ after 8 (tagged "td" [] v) ++ after 6 []) ++ after 4 []))
    by (unfold t27, t28, t29; norm; reflexivity).
  rds.
Qed.
Definition wide (a : list (str * str)) (t : str) : str := after 8 (tagged "td" a (after 10 (t ++ after 8 []))).
Definition line (t : str) : str := after 6 (tagged "tr" [] (t ++ after 6 [])).
Definition centre : list (str * str) := [("style", "text-align: center;"); ("colspan", "2")].
Lemma flat_map_single {A B} (f : A -> B) l : flat_map (fun x => [f x]) l = map f l.
Proof. induction l as [|x l IH]; [reflexivity|]. cbn. rewrite IH. reflexivity. Qed.
Lemma table_reads t : Forall meant (shown_in_table t) -> reads (show_table t) [object_table tree t].
Proof.
  destruct t as [ty id vs]. unfold show_table, shown_in_table, object_table. cbn [tb_type tb_identifier tb_values]. intros H.
  inversion H as [|? ? H1 H']. subst. inversion H' as [|? ? H2 H3]. subst. clear H H'.
  set (rows := flat_map _ vs).
  assert (R : reads rows (map (fun r => row tree (compact (tree (fst r))) (snd r)) vs)).
  { unfold rows. clear rows. rewrite <- flat_map_single. apply reads_flat_map. intros [a v] I. cbn [fst snd].
    rewrite Forall_forall in H3. apply row_reads; apply H3, in_flat_map; exists (a, v); split; auto; cbn; auto. }
  clearbody rows.
  replace (t23 ++ t24 ++ ty ++ t25 ++ id ++ t26 ++ rows ++ t30) with
    (after 0 (after 4 (after 0 (after 4 (tagged "table" []
       (line (wide centre (esc "<SPEC-OBJECT>")) ++ line (wide [] (esc "<SPEC-OBJECT-TYPE>") ++ wide [] ty)
        ++ line (wide [] (esc "IDENTIFIER") ++ wide [] id) ++ line (wide centre (esc "<VALUES>"))
        ++ after 4 (rows ++ after 4 [])) ++ after 2 [])))))
    by (unfold t23, t24, t25, t26, t30, line, wide, centre; norm; reflexivity).
  unfold line, wide. eapply reads_eq; [rd|]. rewrite ?app_nil_r. reflexivity.
Qed.
Lemma specification_reads s : Forall meant (fst s :: flat_map shown_in_table (snd s)) -> reads (show_specification s) (specification_part tree s).
Proof.
  destruct s as [n ts]. cbn [fst snd]. intros H. inversion H as [|? ? H1 H2]. subst. unfold show_specification, specification_part. cbn [fst snd].
  set (tabs := flat_map show_table ts).
  assert (R : reads tabs (map (object_table tree) ts)).
  { unfold tabs. rewrite <- flat_map_single. apply reads_flat_map. intros t I. apply table_reads. rewrite Forall_forall in *.
    intros x Hx. apply H2, in_flat_map. eauto. }
  clearbody tabs.
  replace (t21 ++ n ++ t22 ++ tabs ++ t31) with (after 2 (tagged "h1" [] n ++ after 0 (after 2 (tabs ++ after 0 []))))
    by (unfold t21, t22, t31; norm; reflexivity).
  eapply reads_eq; [rd|]. rewrite ?app_nil_r. reflexivity.
Qed.

Definition head_part : str :=
  after 0 (after 0 (tagged "head" []
    (after 2 ("<meta" ++ att_text [("charset", "UTF-8")] ++ "/>") ++ after 2 [] ++ after 2 [] ++ after 2 []
     ++ after 2 (tagged "title" [] (esc "..."))
     ++ after 0 (after 2 (tagged "style" [] (esc "
    table {
      margin: 10px;
      border-collapse: collapse;
    }
    td {
      border: 1px #bbb solid;
    }
    .level-2 {
      margin-left: 20px;
    }
    .level-3 {
      margin-left: 40px;
    }
    .level-4 {
      margin-left: 60px;
    }
    .level-5 {
      margin-left: 80px;
    }
  "))) ++ after 0 []))).
Definition header_part (p : page) : str :=
  match pg_header p with
  | Some (a, b) => after 4 (tagged "h3" (level "3") (esc "<REQ-IF-HEADER>"))
      ++ after 4 (tagged "table" (level "4")
           (after 6 (tagged "tr" [] (after 8 (tagged "td" [] (esc "TITLE:")) ++ after 8 (tagged "td" [] a) ++ after 6 []))
            ++ after 6 (tagged "tr" [] (after 8 (tagged "td" [] (esc "CREATION-TIME:")) ++ after 8 (tagged "td" [] b) ++ after 6 []))
            ++ after 4 []) ++ after 2 [])
  | None => []
  end.
Definition types_part (p : page) (f : list str * list str * list (str * list table) -> str) : str :=
  match pg_content p with
  | None => []
  | Some None => after 2 (after 2 [])
  | Some (Some c) => after 2 (after 2 (f c ++ after 2 (after 2 [])))
  end.
Definition specifications_part (p : page) : str :=
  match pg_content p with
  | None => []
  | Some None => after 0 (after 0 [])
  | Some (Some (_, _, sps)) => after 0 (after 0 (after 0 (flat_map show_specification sps ++ after 0 (after 0 (after 0 [])))))
  end.
Definition body_part (p : page) : str :=
  after 0 (after 0 (tagged "h1" [] (esc "<REQ-IF>") ++ after 2 (tagged "h2" (level "2") (esc "<THE-HEADER>") ++ after 2 (header_part p ++
  after 0 (after 0 (tagged "h2" (level "2") (esc "<CORE-CONTENT>") ++ after 0 (tagged "h3" (level "3") (esc "<REQ-IF-CONTENT>")
   ++ after 0 (after 0 (tagged "h4" (level "4") (esc "<DATATYPES>") ++ after 2 (
  types_part p (fun c => flat_map (fun d => t7 ++ d ++ t8) (fst (fst c))) ++
  after 0 (after 0 (tagged "h4" (level "4") (esc "<SPEC-TYPES>") ++ after 2 (
  types_part p (fun c => flat_map (fun d => t14 ++ d ++ t15) (snd (fst c))) ++
  after 0 (after 0 (tagged "h4" (level "4") (esc "<SPEC-OBJECTS>") ++ after 0 (tagged "h4" (level "4") (esc "<SPEC-RELATIONS>")
   ++ after 0 (tagged "h4" (level "4") (esc "<SPECIFICATIONS>") ++ after 0 (after 0 (tagged "h2" (level "2") (esc "<TOOL-EXTENSIONS>")
   ++ after 0 (after 0 (("<hr" ++ att_text [] ++ "/>") ++ after 0 (after 0 (specifications_part p ++ after 0 []))))))))))))))))))))))).
Definition page_inner (p : page) : str := head_part ++ after 0 (after 0 (tagged "body" [("class", "")] (body_part p))) ++ after 0 [].
Definition page_element (p : page) : str := tagged "html" [("lang", "en")] (page_inner p).
Lemma page_text p : show_page p = "<!DOCTYPE html>" ++ nl ++ page_element p ++ nl.
Proof.
  destruct p as [h c]. unfold show_page, page_element, page_inner, body_part, header_part, types_part, specifications_part, head_part. cbn [pg_header pg_content].
  destruct h as [[a b]|], c as [[[[ds ss] sps]|]|]; cbn [fst snd];
  try set (x1 := flat_map (fun d => t7 ++ d ++ t8) ds); try set (x2 := flat_map (fun d => t14 ++ d ++ t15) ss); try set (x3 := flat_map show_specification sps);
  unfold t0, t1, t2, t3, t4, t5, t6, t9, t10, t11, t12, t13, t16, t17, t18, t19, t20, t32, t33, t34; norm; reflexivity.
Qed.
Lemma Forall_app_r {A} (P : A -> Prop) a b : Forall P (a ++ b) -> Forall P b.
Proof. intros H. apply Forall_app in H. tauto. Qed.
Lemma page_reads p : Forall meant (shown p) -> exists root, element (page_element p) root /\ without_blanks root = html_of tree p.
Proof.
  intros H. assert (R : exists l, html_of tree p = XElem "html" [("lang", "en")] l /\ reads (page_inner p) l).
  { destruct p as [h c]. unfold shown in H. cbn [pg_header pg_content] in H. apply Forall_app in H. destruct H as [HH HC].
    unfold html_of, page_inner, body_part, types_part, specifications_part. cbn [pg_header pg_content].
    assert (RH : reads (header_part (Page h c)) match h with
           | Some (a, b) => [XElem "h3" (level "3") (words "<REQ-IF-HEADER>");
                             XElem "table" (level "4") [row tree (words "TITLE:") a; row tree (words "CREATION-TIME:") b]]
           | None => []
           end).
    { unfold header_part. cbn [pg_header]. destruct h as [[a b]|]; [|exact reads_nil]. inversion HH as [|? ? Ha HH']. subst. inversion HH' as [|? ? Hb _]. subst. rds. }
    assert (RD : forall ds ss sps, c = Some (Some (ds, ss, sps)) ->
               reads (flat_map (fun d => t7 ++ d ++ t8) ds) (map (title_table tree "5") ds)
               /\ reads (flat_map (fun d => t14 ++ d ++ t15) ss) (map (title_table tree "5") ss)
               /\ reads (flat_map show_specification sps) (flat_map (specification_part tree) sps)).
    { intros ds ss sps ->. apply Forall_app in HC. destruct HC as [H1 HC]. apply Forall_app in HC. destruct HC as [H2 H3].
      rewrite Forall_forall in *. rewrite <- !flat_map_single. split; [|split]; apply reads_flat_map; intros x I.
      - apply data_type_reads, H1, I.
      - apply spec_type_reads, H2, I.
      - apply specification_reads. apply Forall_forall. intros y Y. apply H3, in_flat_map. exists x. auto. }
    unfold head_part. destruct c as [[[[ds ss] sps]|]|].
    - destruct (RD _ _ _ eq_refl) as (R1 & R2 & R3). clear RD. cbn [fst snd]. set (hp := header_part _) in *. clearbody hp.
      set (x1 := flat_map _ ds) in *. set (x2 := flat_map _ ss) in *. set (x3 := flat_map show_specification sps) in *. clearbody x1 x2 x3.
      eexists; split; [reflexivity|]. eapply reads_eq; [rd|]. rewrite ?app_nil_r. repeat (rewrite <- app_assoc; cbn [app]). reflexivity.
    - clear RD. set (hp := header_part _) in *. clearbody hp. eexists; split; [reflexivity|]. eapply reads_eq; [rd|]. rewrite ?app_nil_r. reflexivity.
    - clear RD. set (hp := header_part _) in *. clearbody hp. eexists; split; [reflexivity|]. eapply reads_eq; [rd|]. rewrite ?app_nil_r. reflexivity. }
  destruct R as (l & -> & _ & k & C & <-). exists (XElem "html" [("lang", "en")] k). split; [|reflexivity].
  apply element_tagged; [vm_compute; reflexivity|exact C].
Qed.
End Page.
