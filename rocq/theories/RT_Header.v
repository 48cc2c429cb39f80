(** RT_Header.v -- the header round trip *)
From Verif Require Import Base Xml Lxml Py LxmlStr Models AttrDef Header XmlProofs DictProofs
  SpecEscape EscapeProofs SpecPrint Frag RT.

Infix "+++" := fapp (at level 60, right associativity).
Ltac frags := cbn [fapp fel fem fws ftxt fnil f_str f_x f_n f_use].
Lemma find_app t a b : find_list t (a ++ b) = match find_list t a with Some x => Some x | None => find_list t b end.
Proof. unfold find_list. induction a as [|x a IH]; [reflexivity|]. cbn. destruct (tag_is t x); [reflexivity|exact IH]. Qed.
Lemma find_cons t n as_ body m l :
  find_list t (el n as_ body m :: l) = if str_eqb n t then Some (el n as_ body m) else find_list t l.
Proof. reflexivity. Qed.
Ltac names := cbn [str_eqb N.eqb Pos.eqb andb].
Ltac okn := reflexivity.
(** elements of a concatenation *)
Ltac elems := frags; repeat rewrite ?elements_app, ?elements_chr, ?elements_el, ?app_nil_l, ?app_nil_r.

Section Header.
Variables (p u : str).
Definition fte (t : str) (esc : str -> str) (v : option str) : frag :=
  match v with
  | Some (c :: s) => fws "      " +++ fel t [] (ftxt (esc (c :: s)) (c :: s)) +++ fws nl
  | _ => fnil
  end.
Lemma fte_str t esc v : f_str (fte t esc v) = text_elem t esc v.
Proof. destruct v as [[|c s]|]; try reflexivity. unfold fte, text_elem. frags. strs. Qed.
Lemma fte_use t esc v : f_use (fte t esc v) = false.
Proof. destruct v as [[|c s]|]; reflexivity. Qed.
Lemma fte_good t esc v (P : str -> Prop) : okname t = true -> (forall s, P s -> reads0 (esc s) (map XChar s)) -> when P v ->
  good p u (fte t esc v).
Proof.
  intros HT HR W. destruct v as [[|c s]|]; [apply good_nil| |apply good_nil].
  apply good_app; [apply good_ws; reflexivity|]. apply good_app; [|apply good_ws; reflexivity].
  apply good_el_txt; [exact HT|split; [reflexivity|constructor]|]. apply HR, W.
Qed.
Lemma find_fte t t' esc v m :
  find_list t (elements (f_n (fte t' esc v) m))
  = if str_eqb t' t then match v with Some (c :: s) => Some (el t' [] (ftxt (esc (c :: s)) (c :: s)) m) | _ => None end
    else None.
Proof.
  destruct v as [[|c s]|]; [destruct (str_eqb t' t); reflexivity| |destruct (str_eqb t' t); reflexivity].
  unfold fte. elems. cbn [app find_list find]. reflexivity.
Qed.
Lemma child_text_drop t t' esc v m rest :
  match (if str_eqb t t' then match v with Some (c :: s) => Some (el t' [] (ftxt (esc (c :: s)) (c :: s)) m) | _ => None end
         else rest) with Some x => text x | None => None end
  = if str_eqb t t' then drop_empty v else match rest with Some x => text x | None => None end.
Proof. destruct (str_eqb t t'); [|reflexivity]. destruct v as [[|c s]|]; try reflexivity. rewrite text_el. reflexivity. Qed.

Definition frepo (r : repo_id) : frag :=
  match r with
  | RepoNone => fnil
  | RepoStr s => fws "      " +++ fel "REPOSITORY-ID" [] (ftxt s s) +++ fws nl
  | RepoEmptyTag => fws "      " +++ fem "REPOSITORY-ID" [] +++ fws nl
  end.
Lemma find_frepo t r m :
  find_list t (elements (f_n (frepo r) m))
  = if str_eqb "REPOSITORY-ID" t then
      match r with RepoNone => None | RepoStr s => Some (el "REPOSITORY-ID" [] (ftxt s s) m)
                 | RepoEmptyTag => Some (el "REPOSITORY-ID" [] fnil m) end
    else None.
Proof.
  destruct r; [destruct (str_eqb "REPOSITORY-ID" t); reflexivity|unfold frepo; elems; reflexivity..].
Qed.

Definition fheader_body (h : header) : frag :=
  fws nl +++ fte "COMMENT" (fun x => x) (hd_comment h)
  +++ fte "CREATION-TIME" (fun x => x) (hd_creation_time h)
  +++ frepo (hd_repository_id h)
  +++ fte "REQ-IF-TOOL-ID" (fun x => x) (hd_req_if_tool_id h)
  +++ fte "REQ-IF-VERSION" (fun x => x) (hd_req_if_version h)
  +++ fte "SOURCE-TOOL-ID" (fun x => x) (hd_source_tool_id h)
  +++ fte "TITLE" lxml_escape_title (hd_title h)
  +++ fws "    ".
Definition fheader (s : str) (h : header) : frag :=
  fws "  "
  +++ fel "THE-HEADER" []
        (fws (nl ++ "    ") +++ fel "REQ-IF-HEADER" [PA "IDENTIFIER" s s] (fheader_body h) +++ fws (nl ++ "  "))
  +++ fws nl.

Lemma rt_header ctx h : printable_header h ->
  rt p u ctx unparse_header parse_header (fun x => x) normal_header (fun _ => false) h.
Proof.
  intros ((s & HI & HN & HR) & H1 & H2 & H3 & H4 & H5 & H6 & H7).
  exists (fheader s h). split; [|split; [|split]].
  - unfold fheader, fheader_body.
    repeat first [apply good_app|apply good_ws; reflexivity|apply good_nil
      |apply good_el; [reflexivity|split; [reflexivity|avals_tac]|]
      |eapply fte_good; [reflexivity| |eassumption]; first [exact text_raw_reads|exact text_title_reads]].
    destruct (hd_repository_id h) as [| |r] eqn:ER; cbn [frepo].
    + apply good_nil.
    + repeat first [apply good_app|apply good_ws; reflexivity|apply good_em; [reflexivity|split; [reflexivity|avals_tac]]].
    + repeat first [apply good_app|apply good_ws; reflexivity|apply good_el_txt; [reflexivity|split; [reflexivity|avals_tac]|]].
      apply text_raw_reads. apply (H3 r eq_refl).
  - unfold unparse_header. rewrite HI. destruct s as [|c s]; [congruence|]. f_equal.
    unfold fheader, fheader_body. frags. rewrite !fte_str. renders.
    assert (ER : match hd_repository_id h with
      | RepoNone => [] | RepoEmptyTag => "      <REPOSITORY-ID/>" ++ nl
      | RepoStr r => "      <REPOSITORY-ID>" ++ r ++ "</REPOSITORY-ID>" ++ nl end = f_str (frepo (hd_repository_id h))).
    { destruct (hd_repository_id h); try reflexivity. cbn [frepo]. frags. renders. strs. }
    rewrite ER. strs.
  - unfold fheader, fheader_body. frags. rewrite !fte_use. destruct (hd_repository_id h); reflexivity.
  - intros m _. eexists. exists (normal_header h). split; [|split; [|split; [reflexivity|]]].
    + unfold fheader. elems. cbn [app]. reflexivity.
    + unfold parse_header. rewrite find_child_elements, children_el. elems. cbn [app]. rewrite find_cons. names.
      unfold tag_is. rewrite tag_el. names. cbn [py_assert bind].
      unfold attr_req. unfold el at 1. rewrite attr_opt_el. cbn [map attr_of pa_key pa_val assoc]. names. cbn [or_not_impl bind].
      unfold child_text. rewrite !find_child_elements, !children_el. unfold fheader_body. frags.
      rewrite !elements_app, !elements_chr. cbn [app]. rewrite !find_app, !find_fte, !find_frepo.
      names. unfold normal_header. rewrite HI.
      f_equal. f_equal;
        try match goal with |- _ = drop_empty ?v => destruct v as [[|]|]; [reflexivity|rewrite text_el; reflexivity|reflexivity] end.
      destruct (hd_repository_id h) as [| |r]; [reflexivity|reflexivity|]. rewrite text_el_ne by apply (H3 r eq_refl). reflexivity.
    + unfold unparse_header, normal_header. cbn [hd_identifier hd_comment hd_creation_time hd_repository_id hd_req_if_tool_id hd_req_if_version hd_source_tool_id hd_title].
      assert (TD : forall t esc v, text_elem t esc (drop_empty v) = text_elem t esc v) by (intros ? ? [[|]|]; reflexivity).
      rewrite !TD. reflexivity.
Qed.
End Header.
