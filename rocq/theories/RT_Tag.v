(** RT_Tag.v -- whatever follows it, the first opening tag of a document that is
    accepted belongs to the root element *)
From Verif Require Import Base Xml Utf8 Lxml Py Models Parser XmlProofs SpecDocument Frag RT_Document.

Inductive move (st : conf) : conf -> Prop :=
| move_add b e m : move st (Conf b (stk st) (e ++ done_ st) m)
| move_open b n a m : move st (Conf b ((n, a, done_ st) :: stk st) [] m)
| move_close b n a sib s k m : stk st = (n, a, sib) :: s -> move st (Conf b s (XElem n a k :: sib) m).

Lemma move_same st b m : move st (Conf b (stk st) (done_ st) m).
Proof. apply (move_add st b []). Qed.
Lemma step1_move st c : move st (step1 st c).
Proof.
  assert (HS : forall m, move st (set_md st m)) by (intros m; apply move_same).
  assert (HE : move st (err st)) by apply move_same.
  assert (HP : forall x, move st (push st x)) by (intros x; apply (move_add st (cr st) [x])).
  assert (HO : forall n a, move st (open_elem st n a)) by (intros; apply move_open).
  assert (HC : forall n, move st (close_elem st n)).
  { intros n. unfold close_elem. destruct (stk st) as [|[[n' a] sib] s] eqn:E; [exact HE|].
    destruct (str_eqb n n'); [|exact HE]. apply (move_close st _ _ _ _ _ _ _ E). }
  assert (HI : move st st) by (destruct st as [b s d m]; apply move_same).
  unfold step1. destruct (md st).
  all: repeat match goal with
    | |- move _ (if ?b then _ else _) => destruct b eqn:?
    | |- move _ (let b := _ in _) => cbv zeta
    | |- move _ (match ?x with _ => _ end) => lazymatch type of x with conf => fail | _ => destruct x eqn:? end
    end; auto.
  - match goal with H : ?f :: ?l = stk _ |- _ => rewrite H | H : stk _ = ?f :: ?l |- _ => rewrite <- H end. apply (move_add st (cr st) [XChar c]).
  - apply (move_add st (cr st) [XChar 93]).
  - match goal with |- move _ (Conf _ _ (XChar ?c :: repeat ?x ?d ++ _) _) => apply (move_add st (cr st) (XChar c :: repeat x d)) end.
Qed.
Lemma step_move st c : move st (step st c).
Proof.
  unfold step. destruct (cr st && N.eqb c 10); [apply move_same|].
  destruct (N.eqb c 13).
  - pose proof (step1_move (Conf true (stk st) (done_ st) (md st)) 10) as H. inversion H; subst; cbn [stk done_] in *; econstructor; eassumption.
  - pose proof (step1_move (Conf false (stk st) (done_ st) (md st)) c) as H. inversion H; subst; cbn [stk done_] in *; econstructor; eassumption.
Qed.

(** the nodes at the top level, in reverse *)
Fixpoint top (s : list frame) (d : list xnode) : list xnode :=
  match s with [] => d | (_, _, sib) :: s' => top s' sib end.
Section Rooted.
Variables (n : str) (a : list (str * str)) (pre : list xnode).
Definition rooted (st : conf) : Prop :=
  (exists l, stk st = l ++ [(n, a, pre)]) \/ (exists l k, top (stk st) (done_ st) = l ++ XElem n a k :: pre).
Lemma rooted_move st st' : rooted st -> move st st' -> rooted st'.
Proof.
  intros H HM. inversion HM as [b e m E|b n' a' m E|b n' a' sib s k m ES E]; subst st'; unfold rooted; cbn [stk done_].
  - destruct H as [[l H]|(l & k & H)]; [left; eauto|right]. destruct (stk st) as [|[[n1 a1] s1] s2]; cbn [top] in *.
    + exists (e ++ l), k. rewrite H, app_assoc. reflexivity.
    + eauto.
  - destruct H as [[l H]|(l & k & H)]; [left; exists ((n', a', done_ st) :: l); rewrite H; reflexivity|right]. cbn [top]. eauto.
  - unfold rooted in H. rewrite ES in H. destruct H as [[l H]|(l & k' & H)].
    + destruct l as [|f l]; cbn [app] in H.
      * injection H as -> -> -> ->. right. exists [], k. reflexivity.
      * injection H as _ ->. left. eauto.
    + right. cbn [top] in *. destruct s as [|[[n1 a1] s1] s2]; cbn [top] in *; [|eauto].
      exists (XElem n' a' k :: l), k'. rewrite H. reflexivity.
Qed.
Lemma rooted_run t : forall st, rooted st -> rooted (run st t).
Proof.
  induction t as [|c t IH]; intros st H; [exact H|]. change (run st (c :: t)) with (run (step st c) t). apply IH.
  apply (rooted_move st); [exact H|apply step_move].
Qed.
Lemma rooted_finish st doc : rooted st -> forallb is_misc (rev pre) = true -> finish st = Some doc ->
  exists k, d_root doc = XElem n a k /\ d_decl doc = (match rev pre with XPI s :: _ => if str_eqb (pi_target s) "xml" then Some s else None | _ => None end).
Proof.
  intros H HP HF. unfold finish in HF. destruct (md st); try discriminate. destruct (stk st) eqn:ES; [|discriminate].
  destruct H as [[l H]|(l & k & H)]; [rewrite ES in H; destruct l; discriminate|]. rewrite ES in H. cbn [top] in H. rewrite H in HF.
  rewrite rev_app_distr in HF. cbn [rev] in HF. rewrite <- !app_assoc in HF. cbn [app] in HF.
  set (rest := rev l) in *. assert (FR : forall q, forallb is_misc q = true -> find_root (q ++ XElem n a k :: rest) = if forallb is_misc rest then Some (XElem n a k) else None).
  { induction q as [|x q IH]; intros HQ; [reflexivity|]. cbn [forallb] in HQ. apply andb_prop in HQ. destruct HQ as [HQ1 HQ2].
    destruct x; try discriminate; cbn [app find_root]; rewrite HQ1; apply IH, HQ2. }
  rewrite FR in HF by exact HP. destruct (forallb is_misc rest); [|discriminate]. exists k.
  match type of HF with (if ?c then _ else _) = _ => destruct c; [|discriminate] end. injection HF as <-. cbn [d_root d_decl]. split; [reflexivity|].
  destruct (rev pre) as [|x q]; [reflexivity|]. destruct x; reflexivity.
Qed.
End Rooted.

(** a document that starts with the tag of [r], after the usual declaration or
    nothing *)
Definition prolog : str := "<?xml version=""1.0"" encoding=""UTF-8""?>" ++ nl.
Lemma run_root_tag r d : root_ok r ->
  run (Conf false [] d (MText 0)) (root_text r) = Conf false [("REQ-IF", map attr_of (root_pattrs r), d)] [] (MText 0).
Proof.
  intros HR. rewrite root_text_eq. change "<REQ-IF" with ("<" ++ "REQ-IF"). rewrite <- app_assoc.
  rewrite run_head; [|reflexivity|apply root_wf, HR|]. 2: { eexists. eexists. split; [reflexivity|]. split; [reflexivity|discriminate]. }
  change (run ?st ">") with (step st 62%N). rewrite step_lf by (reflexivity || discriminate). cbn [step1 md].
  change (is_ws 62) with false. cbn [N.eqb Pos.eqb]. unfold open_elem. cbn [cr stk done_]. rewrite rev_involutive. reflexivity.
Qed.
Lemma document_root r pre rest doc : root_ok r -> pre = [] \/ pre = prolog ->
  read_text (pre ++ root_text r ++ rest) = Some doc ->
  exists k, d_root doc = XElem "REQ-IF" (map attr_of (root_pattrs r)) k
    /\ d_decl doc = if str_eqb pre prolog then Some xml_decl else None.
Proof.
  intros HR HP HD. unfold read_text in HD.
  assert (SB : skip_bom (pre ++ root_text r ++ rest) = pre ++ root_text r ++ rest) by (destruct HP as [-> | ->]; reflexivity).
  rewrite SB, !run_app in HD. destruct HP as [-> | ->].
  - change (run init []) with (Conf false [] [] (MText 0)) in HD. rewrite run_root_tag in HD by exact HR.
    apply (rooted_finish "REQ-IF" (map attr_of (root_pattrs r)) []) in HD; [exact HD| |reflexivity]. apply rooted_run. left. exists []. reflexivity.
  - assert (R : run init prolog = Conf false [] [XChar 10; XPI xml_decl] (MText 0)) by (vm_compute; reflexivity).
    rewrite R, run_root_tag in HD by exact HR.
    apply (rooted_finish "REQ-IF" (map attr_of (root_pattrs r)) [XChar 10; XPI xml_decl]) in HD; [exact HD| |reflexivity]. apply rooted_run. left. exists []. reflexivity.
Qed.
Lemma parse_root r pre rest d n : root_ok r -> pre = [] \/ pre = prolog ->
  lxml_parse (pre ++ root_text r ++ rest) = Some (d, n) ->
  (exists kids, n = root_node r kids) /\ d = if str_eqb pre prolog then Some xml_decl else None.
Proof.
  intros HR HP. unfold lxml_parse, etree_parse. destruct (read_text (pre ++ root_text r ++ rest)) as [doc|] eqn:E; [|discriminate].
  destruct (document_root r pre rest doc HR HP E) as (k & E1 & E2). rewrite E2.
  intros H.
  assert (HD : exists kids, resolve [] (d_root doc) = Some kids /\ n = kids /\ d = (if str_eqb pre prolog then Some xml_decl else None)).
  { assert (E3 : decl_encoding (Some xml_decl) = Some "UTF-8") by (vm_compute; reflexivity).
    destruct HP as [-> | ->].
    1: change (str_eqb [] prolog) with false in *. 2: change (str_eqb prolog prolog) with true in *.
    all: cbv iota in H. 2: rewrite E3 in H. 2: change (str_eqb (upper "UTF-8") "UTF-8") with true in H.
    all: cbn [decl_encoding] in H; cbv iota in H.
    all: rewrite ?E2 in H. all: clear E E2 E3.
    all: destruct (resolve [] (d_root doc)) as [kk|]; [|discriminate H].
    all: exists kk.
    all: injection H as <- <-.
    all: auto. }
  destruct HD as (kids & HD1 & -> & ->). split; [|reflexivity]. rewrite E1 in HD1.
  assert (HK : exists ks, map_opt (resolve (rt_decls r)) k = Some ks).
  { cbn [resolve] in HD1. rewrite root_decls, extend_r in HD1 by exact HR. rewrite root_keys, root_allowed in HD1 by exact HR. cbn [negb] in HD1.
    destruct (qname "REQ-IF") as [[? ?]|]; [|discriminate]. destruct (elem_ns (rt_decls r) o); [|discriminate].
    destruct (map_opt (resolve_attr (rt_decls r)) _); [|discriminate]. destruct (negb _); [discriminate|].
    destruct (map_opt (resolve (rt_decls r)) k); [eauto|discriminate]. }
  destruct HK as (ks & HK). rewrite (root_resolve r HR ks k HK) in HD1. injection HD1 as <-. eauto.
Qed.
