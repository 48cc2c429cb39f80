(** GrammarMachine.v -- texts of the grammar are read as the trees they denote *)
From Verif Require Import Base Xml DictProofs XmlProofs LineProofs SpecLines SpecXml GrammarProofs.

(** the machine on texts whose lines end with LF *)
Definition run1 (st : conf) (s : str) : conf := fold_left step1 s st.
Lemma run1_app st a b : run1 st (a ++ b) = run1 (run1 st a) b.
Proof. apply fold_left_app. Qed.
Lemma run1_cons st c t : run1 st (c :: t) = run1 (step1 st c) t.
Proof. reflexivity. Qed.
Lemma run_run1 s : ~ In 13%N s -> forall st, cr st = false -> run st s = run1 st s.
Proof.
  induction s as [|c s IH]; intros H st HC; [reflexivity|]. unfold run, run1. cbn [fold_left].
  rewrite step_lf by (try exact HC; intros ->; apply H; left; reflexivity).
  apply IH; [intros G; apply H; right; exact G|]. rewrite cr_step1. exact HC.
Qed.
Ltac stp := rewrite run1_cons; cbn [step1 md].
Ltac fields := unfold set_md, push, open_elem; cbn [cr stk done_ md].

Lemma run1_white m0 w b s d :
  (forall c, is_ws c = true -> step1 (Conf b s d m0) c = Conf b s d m0) -> Forall white w ->
  run1 (Conf b s d m0) w = Conf b s d m0.
Proof.
  intros H. induction 1 as [|c w HC _ IH]; [reflexivity|]. rewrite run1_cons, H by (apply white_ok, HC). exact IH.
Qed.
Lemma run1_name n acc b s d :
  forallb is_name_char n = true -> run1 (Conf b s d (MName acc)) n = Conf b s d (MName (rev n ++ acc)).
Proof.
  revert acc. induction n as [|c n IH]; intros acc H; [reflexivity|]. cbn [forallb] in H. apply andb_prop in H. destruct H as [H1 H2].
  stp. rewrite H1. fields. rewrite IH by exact H2. cbn [rev]. rewrite <- app_assoc. reflexivity.
Qed.
Lemma run1_attr k n a acc b s d :
  forallb is_name_char k = true -> run1 (Conf b s d (MAttr n a acc)) k = Conf b s d (MAttr n a (rev k ++ acc)).
Proof.
  revert acc. induction k as [|c k IH]; intros acc H; [reflexivity|]. cbn [forallb] in H. apply andb_prop in H. destruct H as [H1 H2].
  stp. rewrite H1. fields. rewrite IH by exact H2. cbn [rev]. rewrite <- app_assoc. reflexivity.
Qed.
Lemma run1_close n acc b s d : acc <> [] ->
  forallb is_name_char n = true -> run1 (Conf b s d (MClose acc)) n = Conf b s d (MClose (rev n ++ acc)).
Proof.
  revert acc. induction n as [|c n IH]; intros acc HA H; [reflexivity|]. cbn [forallb] in H. apply andb_prop in H. destruct H as [H1 H2].
  stp. destruct acc as [|x acc]; [contradiction|]. rewrite H1. fields. rewrite IH by (discriminate || exact H2). cbn [rev]. rewrite <- app_assoc. reflexivity.
Qed.
Definition text_ref_char (x : N) : bool := is_name_char x || N.eqb x 35.
Lemma ref_not_59 x : text_ref_char x = true -> N.eqb x 59 = false.
Proof. intros H. apply N.eqb_neq. intros ->. discriminate. Qed.
Lemma run1_text_ref r acc b s d :
  forallb text_ref_char r = true -> run1 (Conf b s d (MTextRef acc)) r = Conf b s d (MTextRef (rev r ++ acc)).
Proof.
  revert acc. induction r as [|c r IH]; intros acc H; [reflexivity|]. cbn [forallb] in H. apply andb_prop in H. destruct H as [H1 H2].
  stp. rewrite ref_not_59 by exact H1. unfold text_ref_char in H1. rewrite H1. fields. rewrite IH by exact H2. cbn [rev]. rewrite <- app_assoc. reflexivity.
Qed.
Lemma run1_val_ref r n a k q v acc b s d :
  forallb text_ref_char r = true -> run1 (Conf b s d (MValRef n a k q v acc)) r = Conf b s d (MValRef n a k q v (rev r ++ acc)).
Proof.
  revert acc. induction r as [|c r IH]; intros acc H; [reflexivity|]. cbn [forallb] in H. apply andb_prop in H. destruct H as [H1 H2].
  stp. rewrite ref_not_59 by exact H1. unfold text_ref_char in H1. rewrite H1. fields. rewrite IH by exact H2. cbn [rev]. rewrite <- app_assoc. reflexivity.
Qed.

(** ** Attributes *)
Lemma neqb (a c : N) : a <> c -> N.eqb a c = false.
Proof. apply N.eqb_neq. Qed.
Lemma run1_value q t v : quote q -> value q t v -> forall n a k acc b s d,
  run1 (Conf b s d (MVal n a k q acc)) t = Conf b s d (MVal n a k q (rev v ++ acc)).
Proof.
  intros HQ. induction 1 as [|c t v H1 H2 H3 H4 H5 _ IH|c t v H1 _ IH|r c t v H1 _ IH]; intros n a k acc b s d; [reflexivity| | |].
  - stp. rewrite (neqb c q), (neqb c 60), (neqb c 38) by assumption.
    assert (HW : is_ws c = false) by (destruct (is_ws c) eqn:E; [apply white_ok in E; contradiction|reflexivity]).
    rewrite HW. apply char_ok in H1. rewrite H1. fields. rewrite IH. cbn [rev]. rewrite <- app_assoc. reflexivity.
  - stp. assert (X : c <> q /\ c <> 60%N /\ c <> 38%N) by (destruct H1 as [<-|[<-|[<-|[<-|[]]]]], HQ as [-> | ->]; repeat split; discriminate).
    destruct X as (X1 & X2 & X3). rewrite (neqb c q), (neqb c 60), (neqb c 38) by assumption.
    apply white_ok in H1. rewrite H1. fields. rewrite IH. cbn [rev]. rewrite <- app_assoc. reflexivity.
  - change ("&" ++ r ++ ";" ++ t) with (38%N :: r ++ 59%N :: t). stp.
    assert (X : 38%N <> q) by (destruct HQ as [-> | ->]; discriminate). rewrite (neqb 38 q) by exact X. cbn [N.eqb Pos.eqb].
    fields. rewrite run1_app, run1_val_ref by (apply (reference_chars _ _ H1)). stp. cbn [N.eqb Pos.eqb].
    rewrite app_nil_r, rev_involutive. apply decode_ref_ok in H1. rewrite H1. fields. rewrite IH. cbn [rev]. rewrite <- app_assoc. reflexivity.
Qed.
Lemma name_parts k : name k -> exists c k', k = c :: k' /\ is_name_start c = true /\ forallb is_name_char k' = true.
Proof. intros (c & k' & H1 & H2 & H3). exists c, k'. rewrite name_start_ok, (forall_ok _ _ _ name_char_ok). auto. Qed.
Lemma start_facts c : is_name_start c = true ->
  is_ws c = false /\ N.eqb c 62 = false /\ N.eqb c 47 = false /\ N.eqb c 61 = false /\ N.eqb c 33 = false /\ N.eqb c 63 = false.
Proof.
  intros H. repeat split; try (apply N.eqb_neq; intros ->; discriminate).
  destruct (is_ws c) eqn:E; [|reflexivity]. apply white_ok in E. destruct E as [<-|[<-|[<-|[<-|[]]]]]; discriminate.
Qed.
(** the head of a tag: after the name, or after an attribute *)
Definition in_head (m : mode) (n : str) (a : list (str * str)) : Prop :=
  m = MTag n a \/ (exists acc, m = MName acc /\ rev acc = n /\ a = []).
Lemma head_white m n a c b s d : in_head m n a -> is_ws c = true -> step1 (Conf b s d m) c = Conf b s d (MTagSp n a).
Proof.
  intros [-> |(acc & -> & <- & ->)] HW; cbn [step1 md]; rewrite HW; [reflexivity|].
  assert (E : is_name_char c = false) by (apply white_ok in HW; destruct HW as [<-|[<-|[<-|[<-|[]]]]]; reflexivity). rewrite E. reflexivity.
Qed.
Lemma white_facts c : is_ws c = true -> is_name_char c = false /\ N.eqb c 61 = false /\ N.eqb c 62 = false.
Proof. intros HW. apply white_ok in HW. destruct HW as [<-|[<-|[<-|[<-|[]]]]]; repeat split; reflexivity. Qed.
Lemma run1_sp m n a w b s d : in_head m n a -> Forall white w -> w <> [] ->
  run1 (Conf b s d m) w = Conf b s d (MTagSp n a).
Proof.
  intros HM HW HN. destruct HW as [|c w HC HW]; [contradiction|]. rewrite run1_cons, (head_white m n a) by (try assumption; apply white_ok, HC).
  apply run1_white; [|exact HW]. intros c' H. cbn [step1 md]. rewrite H. reflexivity.
Qed.
Lemma run1_attributes t l : attributes t l -> forall m n a b s d, in_head m n a ->
  exists m', in_head m' n (rev l ++ a) /\ run1 (Conf b s d m) t = Conf b s d m'.
Proof.
  induction 1 as [|sp k w w' q t v rest l H1 H2 H3 H4 H5 H6 H7 _ IH]; intros m n a b s d HM.
  { exists m. split; [exact HM|reflexivity]. }
  destruct (name_parts k H3) as (c & k' & -> & HS & HK). destruct (start_facts c HS) as (F1 & F2 & F3 & _).
  rewrite run1_app, (run1_sp m n a) by assumption. change ((c :: k') ++ w ++ "=" ++ w' ++ [q] ++ t ++ [q] ++ rest) with (c :: k' ++ w ++ 61%N :: w' ++ q :: t ++ q :: rest).
  stp. rewrite F1, F2, F3, HS. fields. rewrite run1_app, run1_attr by exact HK.
  assert (E : run1 (Conf b s d (MAttr n a (rev k' ++ [c]))) (w ++ 61%N :: w' ++ q :: t ++ q :: rest)
    = run1 (Conf b s d (MEq n a (c :: k'))) (w' ++ q :: t ++ q :: rest)).
  { rewrite run1_app. destruct H4 as [|x w HX HW].
    - cbn [app]. change (run1 (Conf b s d (MAttr n a (rev k' ++ [c]))) []) with (Conf b s d (MAttr n a (rev k' ++ [c]))). stp. change (is_name_char 61) with false. cbn [N.eqb Pos.eqb]. fields.
      rewrite rev_app_distr, rev_involutive. reflexivity.
    - rewrite (run1_cons _ x w). apply white_ok in HX. destruct (white_facts x HX) as (G1 & G2 & _). cbn [step1 md]. rewrite G1, G2, HX. fields.
      rewrite run1_white; [|intros y Hy; cbn [step1 md]; rewrite Hy; reflexivity|exact HW].
      stp. change (is_ws 61) with false. cbn [N.eqb Pos.eqb]. fields. rewrite rev_app_distr, rev_involutive. reflexivity. }
  rewrite E, run1_app, run1_white; [|intros y Hy; cbn [step1 md]; rewrite Hy; reflexivity|exact H5].
  stp. assert (HQ : is_ws q = false /\ (N.eqb q 34 || N.eqb q 39) = true) by (destruct H6 as [-> | ->]; split; reflexivity).
  destruct HQ as [HQ1 HQ2]. rewrite HQ1, HQ2. fields. rewrite run1_app, (run1_value q t v H6 H7). stp. rewrite N.eqb_refl. fields.
  rewrite app_nil_r, rev_involutive. destruct (IH (MTag n ((c :: k', v) :: a)) n ((c :: k', v) :: a) b s d) as (m' & M1 & M2); [left; reflexivity|].
  exists m'. split; [|exact M2]. cbn [rev]. rewrite <- app_assoc. exact M1.
Qed.
(** from "<" to the end of the head *)
Lemma run1_head n att a w b s d j : name n -> attributes att a -> Forall white w ->
  exists m, (in_head m n (rev a) \/ m = MTagSp n (rev a)) /\ run1 (Conf b s d (MText j)) ("<" ++ n ++ att ++ w) = Conf b s d m.
Proof.
  intros HN HA HW. destruct (name_parts n HN) as (c & n' & -> & HS & HK). destruct (start_facts c HS) as (F1 & F2 & F3 & F4 & F5 & F6).
  change ("<" ++ (c :: n') ++ att ++ w) with (60%N :: c :: n' ++ att ++ w). stp. cbn [N.eqb Pos.eqb]. fields. stp. rewrite F3, F5, F6, HS. fields.
  rewrite run1_app, run1_name by exact HK.
  destruct (run1_attributes att a HA (MName (rev n' ++ [c])) (c :: n') [] b s d) as (m & M1 & M2).
  { right. eexists. split; [reflexivity|]. split; [rewrite rev_app_distr, rev_involutive; reflexivity|reflexivity]. }
  rewrite app_nil_r in M1. rewrite run1_app, M2. destruct w as [|x w].
  - exists m. split; [left; exact M1|reflexivity].
  - exists (MTagSp (c :: n') (rev a)). split; [right; reflexivity|]. apply run1_sp; [exact M1|exact HW|discriminate].
Qed.
Lemma head_end m n a b s d : in_head m n a \/ m = MTagSp n a ->
  step1 (Conf b s d m) 62 = Conf b ((n, rev a, d) :: s) [] (MText 0)
  /\ step1 (Conf b s d m) 47 = Conf b s d (MSlash n a).
Proof. intros [[-> |(acc & -> & <- & ->)]| ->]; split; reflexivity. Qed.

(** ** Comments, instructions, CDATA *)
Lemma absent_prefix p s t : absent p (s ++ t) -> absent p s.
Proof. intros H a b ->. apply (H a (b ++ t)). rewrite <- !app_assoc. reflexivity. Qed.
Lemma absent_cons p c s : absent p (c :: s) -> absent p s.
Proof. intros H a b ->. apply (H (c :: a) b). reflexivity. Qed.
Lemma run1_comment s : Forall char s -> forall acc b k d,
  (absent "--" (s ++ "-") -> run1 (Conf b k d (MCom acc 0)) (s ++ "-->") = Conf b k (XComment (rev acc ++ s) :: d) (MText 0))
  /\ (absent "--" ("-" ++ s ++ "-") -> run1 (Conf b k d (MCom acc 1)) (s ++ "-->") = Conf b k (XComment (rev acc ++ "-" ++ s) :: d) (MText 0)).
Proof.
  induction 1 as [|c s HC _ IH]; intros acc b k d.
  - split.
    + intros _. cbn. rewrite app_nil_r. reflexivity.
    + intros H. exfalso. apply (H [] []). reflexivity.
  - apply char_ok in HC. split.
    + intros H. cbn [app]. stp. rewrite HC. cbn [negb]. destruct (N.eqb_spec c 45) as [->|NC].
      * fields. apply IH. exact H.
      * fields. rewrite (proj1 (IH (c :: acc) b k d)) by (apply (absent_cons _ _ _ H)). cbn [rev]. rewrite <- app_assoc. reflexivity.
    + intros H. cbn [app]. stp. rewrite HC. cbn [negb]. destruct (N.eqb_spec c 45) as [->|NC].
      * exfalso. apply (H [] (s ++ "-")). reflexivity.
      * fields. rewrite (proj1 (IH (c :: 45%N :: acc) b k d)) by (apply absent_cons in H; apply (absent_cons _ _ _ H)).
        cbn [rev app]. rewrite <- !app_assoc. reflexivity.
Qed.
Definition end_instruction (st : conf) (s : str) : conf :=
  if str_eqb (pi_target s) "xml" then match stk st, done_ st with [], [] => push st (XPI s) | _, _ => err st end
  else if is_name (pi_target s) && negb (reserved (pi_target s)) then push st (XPI s) else err st.
Lemma run1_instruction s : Forall char s -> forall acc qu b k d,
  absent "?>" s -> (qu = true -> hd_error s <> Some 62%N) ->
  run1 (Conf b k d (MPI acc qu)) (s ++ "?>") = end_instruction (Conf b k d (MPI (63%N :: rev s ++ acc) true)) (rev acc ++ s).
Proof.
  induction 1 as [|c s HC _ IH]; intros acc qu b k d HA HQ.
  - cbn [app rev]. rewrite app_nil_r. stp. change (is_xml_char 63) with true. cbn [negb N.eqb Pos.eqb]. rewrite andb_false_r.
    fields. stp. change (is_xml_char 62) with true. cbn [negb N.eqb Pos.eqb andb tl]. reflexivity.
  - cbn [app]. stp. apply char_ok in HC. rewrite HC. cbn [negb].
    assert (E : qu && N.eqb c 62 = false).
    { destruct qu; [|reflexivity]. cbn [andb]. apply N.eqb_neq. intros ->. apply HQ; reflexivity. }
    rewrite E. fields. rewrite IH.
    + cbn [rev]. rewrite <- !app_assoc. reflexivity.
    + apply (absent_cons _ _ _ HA).
    + intros H G. apply N.eqb_eq in H. subst c. destruct s as [|x s]; [discriminate|]. cbn in G. injection G as ->. apply (HA [] s). reflexivity.
Qed.
Lemma run1_cdata s : Forall char s -> forall j b f k d, j <= 2 -> absent "]]>" (repeat 93%N j ++ s) ->
  run1 (Conf b (f :: k) d (MCdata j)) (s ++ "]]>") = Conf b (f :: k) (rev (map XChar (repeat 93%N j ++ s)) ++ d) (MText 0).
Proof.
  induction 1 as [|c s HC _ IH]; intros j b f k d HJ HA.
  - destruct j as [|[|[|j]]]; [reflexivity|reflexivity|reflexivity|lia].
  - cbn [app]. stp. apply char_ok in HC. rewrite HC. cbn [negb]. destruct (N.eqb_spec c 93) as [->|NC].
    + destruct j as [|[|[|j]]]; [| | |lia].
      * fields. apply IH; [lia|]. exact HA.
      * fields. apply IH; [lia|]. exact HA.
      * cbn [cr stk done_]. rewrite IH by (lia || apply (absent_cons _ _ _ HA)). cbn [repeat app map rev]. rewrite <- !app_assoc. reflexivity.
    + destruct (N.eqb c 62 && Nat.eqb j 2) eqn:E.
      * exfalso. apply andb_prop in E. destruct E as [E1 E2]. apply N.eqb_eq in E1. apply Nat.eqb_eq in E2. subst. apply (HA [] s). reflexivity.
      * fields. rewrite IH.
        -- cbn [repeat app]. rewrite !map_app, !rev_app_distr. cbn [map rev]. rewrite <- !app_assoc. cbn [app].
           f_equal. f_equal. f_equal. f_equal. clear. induction j as [|j IH]; [reflexivity|]. cbn [repeat map rev]. rewrite <- IH.
           clear. induction j as [|j IH]; [reflexivity|]. cbn [repeat app]. rewrite IH. reflexivity.
        -- lia.
        -- cbn [repeat app]. intros x y E'. apply (HA (repeat 93%N j ++ [c] ++ x) y). rewrite E'. rewrite <- !app_assoc. reflexivity.
Qed.
Lemma target_ok s : is_name s && negb (reserved s) = true <-> target s.
Proof.
  unfold target. rewrite andb_true_iff, negb_true_iff, name_ok.
  assert (R : reserved s = true <-> exists x m l, s = [x; m; l] /\ In x "xX" /\ In m "mM" /\ In l "lL").
  { split.
    - destruct s as [|x [|m [|l [|? ?]]]]; try discriminate. cbn [reserved]. rewrite !andb_true_iff, !orb_true_iff, !N.eqb_eq.
      intros H. exists x, m, l. split; [reflexivity|]. cbn [In]. intuition congruence.
    - intros (x & m & l & -> & H). cbn [In] in H. cbn [reserved]. rewrite !andb_true_iff, !orb_true_iff, !N.eqb_eq. intuition congruence. }
  split.
  - intros [H1 H2]. split; [exact H1|]. intros G. apply R in G. congruence.
  - intros [H1 H2]. split; [exact H1|]. destruct (reserved s); [|reflexivity]. exfalso. apply H2, R. reflexivity.
Qed.
Lemma pi_target_app n rest : Forall (fun c => is_ws c = false) n -> (rest = [] \/ exists c rest', rest = c :: rest' /\ white c) ->
  pi_target (n ++ rest) = n.
Proof.
  intros HN HR. unfold pi_target. induction HN as [|c n HC _ IH].
  - cbn [app]. destruct HR as [-> |(c & r & -> & HW)]; [reflexivity|]. cbn [take_while]. apply white_ok in HW. rewrite HW. reflexivity.
  - cbn [app take_while]. rewrite HC. cbn [negb]. rewrite IH. reflexivity.
Qed.
Lemma name_no_white n : name n -> Forall (fun c => is_ws c = false) n.
Proof.
  intros (c & n' & -> & H1 & H2). assert (X : forall x, name_char x -> is_ws x = false).
  { intros x Hx. apply name_char_ok in Hx. destruct (is_ws x) eqn:E; [|reflexivity]. destruct (white_facts x E) as (F & _). congruence. }
  constructor; [apply X, name_char_ok, name_start_char, name_start_ok, H1|]. revert H2. apply Forall_impl, X.
Qed.
Lemma instruction_target s : instruction s -> target (pi_target s).
Proof.
  intros (_ & _ & n & rest & -> & HT & HR). rewrite pi_target_app; [exact HT|apply name_no_white, HT|exact HR].
Qed.
Lemma run1_pi s b k d j : instruction s -> run1 (Conf b k d (MText j)) ("<?" ++ s ++ "?>") = Conf b k (XPI s :: d) (MText 0).
Proof.
  intros HI. pose proof (instruction_target s HI) as HT. destruct HI as (H1 & H2 & _).
  change ("<?" ++ s ++ "?>") with (60%N :: 63%N :: s ++ "?>"). stp. cbn [N.eqb Pos.eqb]. fields. stp. cbn [N.eqb Pos.eqb]. fields.
  rewrite run1_instruction by (try assumption; discriminate). cbn [rev app]. unfold end_instruction.
  pose proof (proj2 (target_ok _) HT) as G. rewrite G.
  assert (NX : str_eqb (pi_target s) "xml" = false).
  { destruct (str_eqb_spec (pi_target s) "xml") as [E|]; [|reflexivity]. rewrite E in G. vm_compute in G. discriminate G. }
  rewrite NX. reflexivity.
Qed.

(** ** Elements and content *)
Scheme element_mind := Induction for element Sort Prop
  with content_mind := Induction for content Sort Prop.
Combined Scheme element_content_ind from element_mind, content_mind.
(** after [j] brackets the text [t] may follow *)
Definition may_follow (j : nat) (t : str) : Prop :=
  (j <> 0 -> forall u, t <> "]>" ++ u) /\ (j = 2 -> forall u, t <> ">" ++ u).
Lemma may_follow_0 t : may_follow 0 t.
Proof. split; [contradiction|discriminate]. Qed.
Theorem grammar_run :
  (forall e x, element e x -> forall b s d j, run1 (Conf b s d (MText j)) e = Conf b s (x :: d) (MText 0))
  /\ (forall t k, content t k -> forall b f s d j, may_follow j t ->
        exists j', run1 (Conf b (f :: s) d (MText j)) t = Conf b (f :: s) (rev k ++ d) (MText j')).
Proof.
  apply element_content_ind.
  - intros n att a w HN HA HW b s d j. rewrite !app_assoc. rewrite run1_app. rewrite <- !app_assoc.
    destruct (run1_head n att a w b s d j HN HA HW) as (m & M1 & M2). rewrite M2. destruct (head_end m n (rev a) b s d M1) as (_ & E).
    change "/>" with [47%N; 62%N]. rewrite run1_cons, E. stp. cbn [N.eqb Pos.eqb]. fields. rewrite rev_involutive. reflexivity.
  - intros n att a w t k w' HN HA HW _ IH HW' b s d j.
    replace ("<" ++ n ++ att ++ w ++ ">" ++ t ++ "</" ++ n ++ w' ++ ">") with (("<" ++ n ++ att ++ w) ++ ">" ++ t ++ "</" ++ n ++ w' ++ ">")
      by (rewrite <- !app_assoc; reflexivity).
    rewrite run1_app. destruct (run1_head n att a w b s d j HN HA HW) as (m & M1 & M2). rewrite M2. destruct (head_end m n (rev a) b s d M1) as (E & _).
    change (">" ++ t ++ "</" ++ n ++ w' ++ ">") with (62%N :: t ++ "</" ++ n ++ w' ++ ">"). rewrite run1_cons, E, run1_app.
    match goal with |- run1 (run1 (Conf _ (?f :: _) ?d1 _) _) _ = _ => destruct (IH b f s d1 0 (may_follow_0 t)) as [j' EJ] end.
    etransitivity; [exact (f_equal (fun C => run1 C _) EJ)|]. rewrite rev_involutive, app_nil_r.
    change ("</" ++ n ++ w' ++ ">") with (60%N :: 47%N :: n ++ w' ++ ">"). stp. cbn [N.eqb Pos.eqb]. fields. stp. cbn [N.eqb Pos.eqb]. fields.
    destruct (name_parts n HN) as (c & n' & -> & HS & HK). cbn [app]. stp. rewrite HS. fields. rewrite run1_app, run1_close by (discriminate || exact HK).
    assert (NE : rev n' ++ [c] <> []) by (destruct (rev n'); discriminate).
    assert (REV : rev (rev n' ++ [c]) = c :: n') by (rewrite rev_app_distr, rev_involutive; reflexivity).
    destruct (rev n' ++ [c]) as [|x acc] eqn:EA; [contradiction|]. rewrite run1_app. destruct HW' as [|y w' HY HW'].
    + change (run1 (Conf b ((c :: n', a, d) :: s) (rev k) (MClose (x :: acc))) []) with (Conf b ((c :: n', a, d) :: s) (rev k) (MClose (x :: acc))).
      stp. change (is_name_char 62) with false. change (is_ws 62) with false. cbn [N.eqb Pos.eqb]. rewrite REV. unfold close_elem. cbn [stk cr done_].
      rewrite str_eqb_refl, rev_involutive. reflexivity.
    + rewrite (run1_cons _ y w'). apply white_ok in HY. destruct (white_facts y HY) as (F1 & _). cbn [step1 md]. rewrite F1, HY, REV. fields.
      rewrite run1_white; [|intros z Hz; cbn [step1 md]; rewrite Hz; reflexivity|exact HW'].
      stp. change (is_ws 62) with false. cbn [N.eqb Pos.eqb]. unfold close_elem. cbn [stk cr done_]. rewrite str_eqb_refl, rev_involutive. reflexivity.
  - intros b f s d j _. exists j. reflexivity.
  - intros c t k H1 H2 H3 H4 _ IH b f s d j (J1 & J2). stp. rewrite (neqb c 60), (neqb c 38) by assumption. apply char_ok in H1. rewrite H1. fields.
    destruct (N.eqb c 62 && Nat.eqb j 2) eqn:EE.
    { exfalso. apply andb_prop in EE. destruct EE as [E1 E2]. apply N.eqb_eq in E1. apply Nat.eqb_eq in E2. subst. apply (J2 eq_refl t). reflexivity. }
    destruct (IH b f s (XChar c :: d) (if N.eqb c 93 then match j with 0 => 1 | _ => 2 end else 0)) as [j' E].
    { destruct (N.eqb_spec c 93) as [->|]; [|apply may_follow_0]. split.
      - intros _ u ->. apply (H4 u). reflexivity.
      - intros J u ->. apply (J1 ltac:(intros ->; discriminate J) u). reflexivity. }
    exists j'. rewrite E. cbn [rev]. rewrite <- app_assoc. reflexivity.
  - intros r c t k HR _ IH b f s d j _. destruct (IH b f s (XChar c :: d) 0 (may_follow_0 t)) as [j' E]. exists j'.
    change ("&" ++ r ++ ";" ++ t) with (38%N :: r ++ 59%N :: t). stp. cbn [N.eqb Pos.eqb stk]. fields.
    rewrite run1_app, run1_text_ref by (apply (reference_chars _ _ HR)). stp. cbn [N.eqb Pos.eqb]. rewrite app_nil_r, rev_involutive.
    apply decode_ref_ok in HR. rewrite HR. fields. rewrite E. cbn [rev]. rewrite <- app_assoc. reflexivity.
  - intros e x t k _ IHe _ IHt b f s d j _. destruct (IHt b f s (x :: d) 0 (may_follow_0 t)) as [j' E]. exists j'.
    rewrite run1_app, IHe, E. cbn [rev]. rewrite <- app_assoc. reflexivity.
  - intros s t k (HC & HA) _ IH b f st d j _. destruct (IH b f st (XComment s :: d) 0 (may_follow_0 t)) as [j' E]. exists j'.
    replace ("<!--" ++ s ++ "-->" ++ t) with ("<!--" ++ (s ++ "-->") ++ t) by (rewrite <- !app_assoc; reflexivity).
    rewrite run1_app. change (run1 (Conf b (f :: st) d (MText j)) "<!--") with (Conf b (f :: st) d (MCom [] 0)).
    rewrite run1_app, (proj1 (run1_comment s HC [] b (f :: st) d)) by exact HA. cbn [rev app] in *. rewrite E, <- app_assoc. reflexivity.
  - intros s t k (HC & HA) _ IH b f st d j _. destruct (IH b f st (rev (map XChar s) ++ d) 0 (may_follow_0 t)) as [j' E]. exists j'.
    replace ("<![CDATA[" ++ s ++ "]]>" ++ t) with ("<![CDATA[" ++ (s ++ "]]>") ++ t) by (rewrite <- !app_assoc; reflexivity).
    rewrite run1_app. change (run1 (Conf b (f :: st) d (MText j)) "<![CDATA[") with (Conf b (f :: st) d (MCdata 0)).
    rewrite run1_app, run1_cdata by (lia || assumption). cbn [repeat app]. rewrite E, rev_app_distr, app_assoc. reflexivity.
  - intros s t k HI _ IH b f st d j _. destruct (IH b f st (XPI s :: d) 0 (may_follow_0 t)) as [j' E]. exists j'.
    replace ("<?" ++ s ++ "?>" ++ t) with (("<?" ++ s ++ "?>") ++ t) by (rewrite <- !app_assoc; reflexivity).
    rewrite run1_app, run1_pi, E by exact HI. cbn [rev]. rewrite <- app_assoc. reflexivity.
Qed.
Lemma run1_misc t : misc t -> exists l, forallb is_misc l = true /\ (forall s, In (XPI s) l -> instruction s)
  /\ forall b d, run1 (Conf b [] d (MText 0)) t = Conf b [] (rev l ++ d) (MText 0).
Proof.
  induction 1 as [|c t HW _ (l & L1 & L2 & L3)|s t (HC & HA) _ (l & L1 & L2 & L3)|s t HI _ (l & L1 & L2 & L3)].
  - exists []. split; [reflexivity|]. split; [intros ? []|reflexivity].
  - exists (XChar c :: l). cbn [forallb is_misc]. pose proof (proj2 (white_ok c) HW) as W. rewrite W. split; [exact L1|]. split.
    + intros s' [H|H]; [discriminate|apply L2, H].
    + intros b d. stp. assert (X : N.eqb c 60 = false /\ N.eqb c 38 = false /\ is_xml_char c = true) by (destruct HW as [<-|[<-|[<-|[<-|[]]]]]; auto).
      destruct X as (X1 & X2 & X3). rewrite X1, X2, X3. cbn [stk]. rewrite W. fields. rewrite L3. cbn [rev]. rewrite <- app_assoc. reflexivity.
  - exists (XComment s :: l). split; [exact L1|]. split.
    + intros s' [H|H]; [discriminate|apply L2, H].
    + intros b d. replace ("<!--" ++ s ++ "-->" ++ t) with ("<!--" ++ (s ++ "-->") ++ t) by (rewrite <- !app_assoc; reflexivity).
      rewrite run1_app. change (run1 (Conf b [] d (MText 0)) "<!--") with (Conf b [] d (MCom [] 0)).
      rewrite run1_app, (proj1 (run1_comment s HC [] b [] d)), L3 by exact HA. cbn [rev app]. rewrite <- app_assoc. reflexivity.
  - exists (XPI s :: l). split; [exact L1|]. split.
    + intros s' [H|H]; [injection H as <-; exact HI|apply L2, H].
    + intros b d. replace ("<?" ++ s ++ "?>" ++ t) with (("<?" ++ s ++ "?>") ++ t) by (rewrite <- !app_assoc; reflexivity).
      rewrite run1_app, run1_pi, L3 by exact HI. cbn [rev]. rewrite <- app_assoc. reflexivity.
Qed.
