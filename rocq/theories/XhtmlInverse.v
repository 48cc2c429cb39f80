(** XhtmlInverse.v -- the text of an XHTML value determines its content *)
From Verif Require Import Base Xml Lxml Py LxmlStr SpecEscape SpecXhtml EscapeProofs DictProofs Frag SpaceProofs ParserProofs.

(** ** Texts that can be read in one way only *)
Definition esc (c : N) : str := match entry c lxml_table with Some e => e | None => [c] end.
Lemma esc_one c : substitute lxml_table [c] = esc c.
Proof. unfold substitute, esc. cbn [flat_map]. apply app_nil_r. Qed.
Lemma esc_cons c s : substitute lxml_table (c :: s) = esc c ++ substitute lxml_table s.
Proof. reflexivity. Qed.
Lemma esc_form c : (exists b, esc c = 38%N :: b ++ [59%N] /\ ~ In 59%N b /\ decode_ref b = Some c) \/ (esc c = [c] /\ c <> 38%N /\ c <> 60%N /\ c <> 34%N).
Proof.
  unfold esc. destruct (entry c lxml_table) as [e|] eqn:E.
  - left. apply entry_in in E. destruct lxml_good as [_ G]. rewrite Forall_forall in G. destruct (G _ E) as (b & Eb & R & D). cbn in Eb, D.
    exists b. split; [exact Eb|]. split; [apply ref_no_semi, R|exact D].
  - right. apply entry_none in E. split; [reflexivity|]. repeat split; intros ->; apply E; cbn; tauto.
Qed.
Lemma esc_split c d A B : esc c ++ A = esc d ++ B -> c = d /\ A = B.
Proof.
  destruct (esc_form c) as [(b & -> & N & D)|(-> & N1 & _)], (esc_form d) as [(b' & -> & N' & D')|(-> & N1' & _)]; cbn [app]; intros H.
  - injection H as H. rewrite <- !app_assoc in H. cbn [app] in H. apply until_semi in H; [|assumption..]. destruct H as [-> ->].
    split; [congruence|reflexivity].
  - injection H as H _. congruence.
  - injection H as H _. congruence.
  - injection H as H1 H2. auto.
Qed.
Lemma esc_head c : exists x r, esc c = x :: r /\ x <> 60%N /\ x <> 34%N.
Proof.
  destruct (esc_form c) as [(b & -> & _)|(-> & _ & N1 & N2)]; [|eauto]. exists 38%N. eexists. split; [reflexivity|]. split; discriminate.
Qed.
Lemma quoted_split v w A B : substitute lxml_table v ++ 34%N :: A = substitute lxml_table w ++ 34%N :: B -> v = w /\ A = B.
Proof.
  revert w. induction v as [|c v IH]; intros [|d w] H.
  - cbn in H. injection H as H. auto.
  - exfalso. rewrite esc_cons in H. destruct (esc_head d) as (x & r & E & _ & N). rewrite E in H. cbn in H. injection H as H _. congruence.
  - exfalso. rewrite esc_cons in H. destruct (esc_head c) as (x & r & E & _ & N). rewrite E in H. cbn in H. injection H as H _. congruence.
  - rewrite !esc_cons, <- !app_assoc in H. apply esc_split in H. destruct H as [-> H]. apply IH in H. destruct H as [-> ->]. auto.
Qed.
(** a run of name characters ends where the first other character stands *)
Definition stops (A : str) : Prop := exists x r, A = x :: r /\ is_name_char x = false.
Lemma run_split a b A B : forallb is_name_char a = true -> forallb is_name_char b = true -> stops A -> stops B ->
  a ++ A = b ++ B -> a = b /\ A = B.
Proof.
  revert b. induction a as [|c a IH]; intros [|d b] Ha Hb HA HB H.
  - auto.
  - exfalso. cbn in H, Hb. subst A. destruct HA as (x & r & E & N). injection E as <- <-. rewrite N in Hb. discriminate.
  - exfalso. cbn in H, Ha. subst B. destruct HB as (x & r & E & N). injection E as <- <-. rewrite N in Ha. discriminate.
  - cbn in *. injection H as -> H. apply andb_prop in Ha, Hb. destruct (IH b (proj2 Ha) (proj2 Hb) HA HB H) as [-> ->]. auto.
Qed.
Lemma start_char c : is_name_start c = true -> is_name_char c = true.
Proof. intros H. unfold is_name_char. rewrite H. reflexivity. Qed.
Lemma plain_facts s : plain_name s = true ->
  forallb is_name_char s = true /\ ~ In 58%N s /\ exists c r, s = c :: r /\ is_name_start c = true.
Proof.
  unfold plain_name. intros H. apply andb_prop in H. destruct H as [H1 H2]. destruct s as [|c r]; [discriminate|]. apply andb_prop in H1. destruct H1 as [H1 H3].
  split; [cbn [forallb]; rewrite (start_char _ H1); exact H3|]. split; [|eauto]. intros HI. apply negb_true_iff in H2.
  assert (X : existsb (N.eqb 58) (c :: r) = true) by (apply existsb_exists; exists 58%N; split; [exact HI|reflexivity]). congruence.
Qed.
(** the last colon *)
Lemma colon_split a b a' b' : ~ In 58%N b -> ~ In 58%N b' -> a ++ 58%N :: b = a' ++ 58%N :: b' -> a = a' /\ b = b'.
Proof.
  revert a'. induction a as [|x a IH]; intros [|y a'] N N' H; cbn in H.
  - injection H as H. auto.
  - injection H as _ H. exfalso. apply N. rewrite H. apply in_or_app. right. left. reflexivity.
  - injection H as _ H. exfalso. apply N'. rewrite <- H. apply in_or_app. right. left. reflexivity.
  - injection H as -> H. destruct (IH a' N N' H) as [-> ->]. auto.
Qed.

(** ** Elements whose names are names *)
Inductive good_names : node -> Prop :=
| good_chr c : good_names (Chr c)
| good_cmt s : good_names (Cmt s)
| good_pin s : good_names (Pin s)
| good_el ns l d i a ks :
    plain_name l = true -> Forall (fun x => plain_name (a_local x) = true) a -> Forall good_names ks -> good_names (El ns l d i a ks).
(** the content that a forest describes *)
Inductive looks : node -> xh -> Prop :=
| looks_chr c : looks (Chr c) (XT c)
| looks_el ns l d i a at_ ks kf :
    a = map (fun kv => Attr None (fst kv) (snd kv)) at_ -> Forall2 looks ks kf -> looks (El (Some ns) l d i a ks) (XE l at_ kf).

Section Inverse.
Variables (p : str) (k : option str).
Hypothesis P : plain_name p = true.
Hypothesis K : forallb is_name_char (fmt k) = true.
Definition ender (A : str) : Prop := A = [] \/ exists r, A = "</" ++ r.
Definition shows := show_node (fun _ => false) (p ++ ":").

Lemma attrs_split a at_ A B :
  Forall (fun x => plain_name (a_local x) = true) a -> Forall (fun kv => plain_name (fst kv) = true) at_ ->
  (exists x r, A = x :: r /\ x <> 32%N) -> (exists x r, B = x :: r /\ x <> 32%N) ->
  flat_map (fun kv => " " ++ fst kv ++ "=""" ++ lxml_escape_for_html (snd kv) ++ """") (map (fun x => (a_key x, a_val x)) a) ++ A
  = show_attrs at_ ++ B ->
  a = map (fun kv => Attr None (fst kv) (snd kv)) at_ /\ A = B.
Proof.
  intros HA HT (x & r & -> & NA) (y & r' & -> & NB). revert at_ HT. induction HA as [|[ns l v] a HL _ IH]; intros at_ HT H.
  - destruct HT as [|[k0 w] at_ HW HT]; [cbn in H; auto|]. cbn in H. injection H as H _. congruence.
  - destruct HT as [|[k0 w] at_ HW HT]; [cbn in H; injection H as H _; congruence|]. cbn [a_local fst] in HL, HW.
    unfold show_attrs in H. cbn [map flat_map fst snd a_key a_val a_ns a_local] in H. fold (show_attrs at_) in H. rewrite lxml_escape_eq in H.
    rewrite <- !app_assoc in H. apply app_inv_head in H. destruct (plain_facts _ HW) as (W1 & _ & W3). destruct (plain_facts _ HL) as (L1 & _ & L3).
    unfold a_key in H. cbn [a_ns a_local] in H.
    destruct ns as [[q u]|].
    { exfalso. unfold clark in H. rewrite <- !app_assoc in H. destruct W3 as (c & r0 & -> & S). cbn in H. injection H as <- _. discriminate S. }
    unfold clark in H. apply run_split in H; [|exact L1|exact W1|eexists _, _; split; [reflexivity|reflexivity]..].
    destruct H as [-> H]. apply app_inv_head in H. change ([34%N]) with ("""" : str) in *. cbn [app] in H. apply quoted_split in H. destruct H as [-> H].
    destruct (IH at_ HT H) as [-> ->]. auto.
Qed.

Definition inverse (ks : list node) : Prop :=
  forall s fs A B, stringify_ns_kids k false ks = Ok s -> Forall good_names ks -> Forall xh_ok fs -> ender A -> ender B ->
    s ++ A = flat_map shows fs ++ B -> Forall2 looks ks fs /\ A = B.
Definition inverse_node (n : node) : Prop := match n with El _ _ _ _ _ ks => inverse ks | _ => True end.

Lemma xh_ok_el n attrs kids : xh_ok (XE n attrs kids) ->
  plain_name n = true /\ Forall (fun kv => plain_name (fst kv) = true /\ fst kv <> "xmlns") attrs /\ Forall xh_ok kids.
Proof.
  cbn [xh_ok]. intros (H1 & H2 & _ & H4). split; [exact H1|]. split.
  - unfold attr_names in H2. apply andb_prop in H2. destruct H2 as [H2 _]. rewrite forallb_forall in H2. apply Forall_forall. intros kv HK.
    assert (G := H2 (fst kv) (in_map fst _ _ HK)). apply andb_prop in G. destruct G as [G1 G2]. split; [exact G1|]. intros E. rewrite E in G2. discriminate G2.
  - induction kids as [|x kids IH]; [constructor|]. destruct H4 as [H4 H5]. constructor; auto.
Qed.
Lemma ender_not c s A : ender A -> c <> 60%N -> c :: s = A -> False.
Proof. intros [->|(r & ->)] N H; [discriminate|]. injection H as H _. congruence. Qed.
Lemma ender_not_open c s A : ender A -> is_name_start c = true -> 60%N :: c :: s = A -> False.
Proof. intros [->|(r & ->)] N H; [discriminate|]. injection H as H _. subst. discriminate. Qed.
Lemma shows_el n attrs kids : shows (XE n attrs kids)
  = "<" ++ p ++ ":" ++ n ++ show_attrs attrs
    ++ (match kids with [] => "/>" | _ => ">" ++ flat_map shows kids ++ "</" ++ p ++ ":" ++ n ++ ">" end).
Proof. unfold shows. cbn [show_node]. rewrite <- !app_assoc. destruct kids; reflexivity. Qed.

Lemma inverse_list ks : Forall inverse_node ks -> inverse ks.
Proof.
  destruct (plain_facts _ P) as (P1 & _ & (pc & pr & PE & PS)).
  induction 1 as [|n ks HN _ IH]; intros s fs A B H HG HF EA EB E.
  - injection H as <-. cbn [app] in E. destruct fs as [|[c|nm at_ kf] fs]; [split; [constructor|exact E]| |].
    + exfalso. cbn [flat_map] in E. unfold shows at 1 in E. cbn [show_node] in E. rewrite esc_one, <- app_assoc in E.
      destruct (esc_head c) as (x & r & X & N & _). rewrite X in E. cbn [app] in E. symmetry in E. exact (ender_not _ _ _ EA N E).
    + exfalso. cbn [flat_map] in E. rewrite shows_el, PE in E. cbn [app] in E. symmetry in E. exact (ender_not_open _ _ _ EA PS E).
  - inversion HG as [|? ? HG1 HG2]; subst. destruct n as [c|ns l d i a k0|t|t]; try discriminate H.
    + rewrite ns_kids_string, kids_chr in H. destruct (kids_string (stringify_ns_node k false) ks) as [s'|] eqn:ES; [|discriminate]. cbn [bind] in H. injection H as <-.
      rewrite lxml_escape_eq, esc_one in E. destruct fs as [|[c'|nm at_ kf] fs].
      * exfalso. rewrite <- app_assoc in E. destruct (esc_head c) as (x & r & X & N & _). rewrite X in E. cbn [flat_map app] in E. exact (ender_not _ _ _ EB N E).
      * cbn [flat_map] in E. unfold shows at 1 in E. cbn [show_node] in E. rewrite esc_one, <- !app_assoc in E. apply esc_split in E. destruct E as [-> E].
        assert (HF2 := Forall_inv_tail HF).
        destruct (IH s' fs A B) as [I1 I2]; try assumption. split; [constructor; [constructor|exact I1]|exact I2].
      * exfalso. cbn [flat_map] in E. rewrite shows_el in E. destruct (esc_head c) as (x & r & X & N & _). rewrite X in E. cbn [app] in E. injection E as E _. congruence.
    + change (stringify_ns_kids k false (El ns l d i a k0 :: ks))
        with (let! s := stringify_ns_node k false (El ns l d i a k0) in let! r := stringify_ns_kids k false ks in Ok (s ++ r)) in H.
      destruct (stringify_ns_node k false (El ns l d i a k0)) as [s1|] eqn:E1; [|discriminate]. cbn [bind] in H.
      destruct (stringify_ns_kids k false ks) as [s2|] eqn:E2; [|discriminate]. cbn [bind] in H. injection H as <-. rewrite <- app_assoc in E.
      inversion HG1 as [| | |? ? ? ? ? ? L1 L2 L3]; subst. destruct (plain_facts _ L1) as (LC & LN & (lc & lr & LE & LS)).
      cbn [stringify_ns_node] in E1.
      set (own := match ns with Some (_, u) => _ | None => false end) in E1.
      set (tg := if own then l else _) in E1.
      set (hd := "<" ++ tg ++ _) in E1.
      (* the text starts with "<" and the tag *)
      assert (TG : forallb is_name_char tg = true /\ exists tc tr, tg = tc :: tr /\ is_name_char tc = true /\ tc <> 47%N).
      { unfold tg. destruct own; [split; [exact LC|]; exists lc, lr; repeat split; [exact LE|apply start_char, LS|intros ->; discriminate LS]|].
        destruct ns as [[q u]|]; cbn [orb].
        - split; [rewrite !forallb_app, K, LC; reflexivity|]. destruct (fmt k) as [|kc kr] eqn:EK.
          + exists 58%N. eexists. split; [reflexivity|]. split; [reflexivity|discriminate].
          + exists kc. eexists. split; [reflexivity|]. cbn in K. apply andb_prop in K. split; [apply K|]. intros ->. destruct K as [K0 _]. discriminate K0.
        - unfold clark. split; [exact LC|]. exists lc, lr. repeat split; [exact LE|apply start_char, LS|intros ->; discriminate LS]. }
      destruct TG as (T1 & tc & tr & T2 & T3 & T4).
      assert (S1 : exists rest, s1 = hd ++ rest /\ (exists x r, rest = x :: r /\ x <> 32%N /\ is_name_char x = false)
         /\ (needs_close (clark ns l) k0 = false /\ rest = "/>"
             \/ needs_close (clark ns l) k0 = true /\ exists inner, stringify_ns_kids k false k0 = Ok inner /\ rest = ">" ++ inner ++ "</" ++ tg ++ ">")).
      { destruct (needs_close (clark ns l) k0) eqn:NC.
        - change ((fix go (ks0 : list node) : result str := match ks0 with [] => Ok [] | Chr c :: ks1 => let! r0 := go ks1 in Ok (lxml_escape_for_html [c] ++ r0)
                     | k1 :: ks2 => let! s0 := stringify_ns_node _ false k1 in let! r1 := go ks2 in Ok (s0 ++ r1) end) k0) with (stringify_ns_kids k false k0) in E1.
          destruct (stringify_ns_kids k false k0) as [inner|]; [|discriminate]. cbn [bind] in E1. injection E1 as <-.
          exists (">" ++ inner ++ "</" ++ tg ++ ">"). split; [reflexivity|]. split; [eexists _, _; split; [reflexivity|split; [discriminate|reflexivity]]|]. right. eauto.
        - injection E1 as <-. exists "/>". split; [reflexivity|]. split; [eexists _, _; split; [reflexivity|split; [discriminate|reflexivity]]|]. auto. }
      clear E1. destruct S1 as (rest & -> & (rx & rr & RE & R1 & R2) & RC). unfold hd in E. rewrite <- !app_assoc in E.
      destruct fs as [|[c'|nm at_ kf] fs].
      * exfalso. rewrite T2 in E. cbn [flat_map app] in E. destruct EB as [->|(r & ->)]; [discriminate|]. injection E as E _. congruence.
      * exfalso. cbn [flat_map] in E. unfold shows at 1 in E. cbn [show_node] in E. rewrite esc_one, <- !app_assoc in E.
        destruct (esc_head c') as (x & r & X & N & _). rewrite X in E. cbn [app] in E. injection E as E _. congruence.
      * assert (HX := Forall_inv HF); assert (HF2 := Forall_inv_tail HF). destruct (xh_ok_el _ _ _ HX) as (N1 & N2 & N3). destruct (plain_facts _ N1) as (NC & NN & _).
        cbn [flat_map] in E. rewrite shows_el, <- !app_assoc in E. apply app_inv_head in E.
        rewrite !(app_assoc p), !(app_assoc (p ++ ":")) in E.
        assert (AT1 : forall Z, stops (print_attrs (El ns l d i a k0) ++ (rx :: rr) ++ Z)).
        { intros Z. unfold print_attrs, attrib. destruct a; cbn [map flat_map]; [exists rx; eexists; split; [reflexivity|exact R2]|]. eexists _, _. split; [reflexivity|reflexivity]. }
        assert (AT2 : forall Z, stops (show_attrs at_ ++ match kf with [] => "/>" | _ => ">" ++ flat_map shows kf ++ "</" ++ ((p ++ ":") ++ nm) ++ ">" end ++ Z)).
        { intros Z. unfold show_attrs. destruct at_; cbn [flat_map]; [|eexists _, _; split; [reflexivity|reflexivity]]. destruct kf; eexists _, _; split; reflexivity. }
        assert (XQ : tg = (p ++ ":") ++ nm /\ own = false /\ ns <> None
           /\ print_attrs (El ns l d i a k0) ++ rest ++ s2 ++ A
              = show_attrs at_ ++ match kf with [] => "/>" | _ => ">" ++ flat_map shows kf ++ "</" ++ ((p ++ ":") ++ nm) ++ ">" end ++ flat_map shows fs ++ B).
        { assert (PN : forallb is_name_char ((p ++ ":") ++ nm) = true) by (rewrite !forallb_app, P1, NC; reflexivity).
          rewrite RE in E |- *.
          apply run_split in E; [|exact T1|exact PN| |apply AT2].
          2:{ destruct own; [eexists _, _; split; reflexivity|]. cbn [app]. apply (AT1 (s2 ++ A)). }
          destruct E as [ET E]. split; [exact ET|].
          assert (CO : In 58%N tg) by (rewrite ET; rewrite !in_app_iff; cbn; tauto).
          unfold tg in CO. destruct own; [contradiction|]. split; [reflexivity|].
          destruct ns as [r0|]; [|unfold clark in CO; cbn [orb] in CO; contradiction]. split; [discriminate|]. exact E. }
        clear E. destruct XQ as (ET & EO & NS & E). destruct ns as [nsr|]; [|congruence].
        unfold tg in ET. rewrite EO in ET. cbn [orb] in ET. rewrite <- app_assoc in ET. cbn [app] in ET.
        apply colon_split in ET; [|exact LN|exact NN]. destruct ET as [EK ->].
        apply attrs_split in E; [|exact L2| | |].
        2:{ eapply Forall_impl; [|exact N2]. intros kv [Z _]. exact Z. }
        2:{ rewrite RE. exists rx. eexists. split; [reflexivity|exact R1]. }
        2:{ destruct kf; eexists _, _; (split; [reflexivity|discriminate]). }
        destruct E as [EAT E].
        assert (HT : tg = (p ++ ":") ++ nm) by (unfold tg; rewrite EO; cbn [orb]; rewrite EK, <- app_assoc; reflexivity).
        destruct RC as [[C1 C2]|(C1 & inner & C2 & C3)].
        -- rewrite C2 in E. clear RE. destruct k0 as [|x0 k0]; [|discriminate C1]. destruct kf as [|y0 kf]; [|discriminate E].
           apply app_inv_head in E. destruct (IH s2 fs A B) as [I1 I2]; try assumption. split; [|exact I2].
           constructor; [|exact I1]. constructor; [exact EAT|constructor].
        -- rewrite C3 in E. clear RE. destruct kf as [|y0 kf]; [discriminate E|]. rewrite <- !app_assoc in E. apply app_inv_head in E.
           destruct (HN inner (y0 :: kf) ("</" ++ tg ++ ">" ++ s2 ++ A) ("</" ++ p ++ ":" ++ nm ++ ">" ++ flat_map shows fs ++ B)) as [J1 J2]; try assumption.
           { right. eauto. } { right. eauto. }
           rewrite HT, <- !app_assoc in J2. do 5 apply app_inv_head in J2.
           destruct (IH s2 fs A B) as [I1 I2]; try assumption. split; [|exact I2].
           constructor; [|exact I1]. constructor; [exact EAT|exact J1].
Qed.
Lemma inverse_all n : inverse_node n.
Proof. induction n as [c|s|s|ns l d i a ks IH] using node_ind'; try exact I. apply inverse_list, IH. Qed.
(** A text of a forest is printed for no other content. *)
Theorem text_inverse ks f : stringify_ns_kids k false ks = Ok (show p f) -> Forall good_names ks -> forest_ok f -> Forall2 looks ks f.
Proof.
  intros H HG HF. destruct (inverse_list ks (proj2 (Forall_forall _ _) (fun n _ => inverse_all n)) (show p f) f [] []) as [G _]; auto; try (left; reflexivity).
Qed.
End Inverse.
