(** LineProofs.v -- lemmas on line ends *)
From Verif Require Import Base Xml Utf8 Lxml Py LxmlStr Models Progress Parser SpecLines
  XmlProofs Utf8Proofs DictProofs ProgressProofs.

Lemma un_cons c s : c <> 13%N -> universal_newlines (c :: s) = c :: universal_newlines s.
Proof. intros H. cbn [universal_newlines]. destruct (N.eqb_spec c 13); [contradiction|reflexivity]. Qed.
Lemma un_crlf s : universal_newlines (13 :: 10 :: s)%N = (10 :: universal_newlines s)%N.
Proof. reflexivity. Qed.
Lemma un_cr s : hd_error s <> Some 10%N -> universal_newlines (13%N :: s) = (10 :: universal_newlines s)%N.
Proof.
  intros H. destruct s as [|d s]; [reflexivity|]. cbn [hd_error] in H. cbn [universal_newlines N.eqb Pos.eqb].
  destruct (N.eqb_spec d 10); [congruence|reflexivity].
Qed.
Lemma un_end e s : line_end e s -> universal_newlines (e ++ s) = (10 :: universal_newlines s)%N.
Proof.
  intros [->|[->|[-> H]]]; cbn [app]; [apply un_crlf|apply un_cons; discriminate|apply un_cr, H].
Qed.
Lemma same_lines_un s t : same_lines s t -> universal_newlines s = universal_newlines t.
Proof.
  induction 1 as [|c s t H1 H2 _ IH|e e' s t H1 H2 _ IH]; [reflexivity| |].
  - rewrite !un_cons, IH by exact H2. reflexivity.
  - rewrite (un_end e), (un_end e'), IH by assumption. reflexivity.
Qed.

(** ** The XML reader *)
Definition forget (st : conf) : list frame * list xnode * mode := (stk st, done_ st, md st).
Lemma forget_step1 s s' c : forget s = forget s' -> forget (step1 s c) = forget (step1 s' c).
Proof.
  destruct s as [b k d m], s' as [b' k' d' m']. unfold forget. cbn [stk done_ md]. intros H.
  assert (k' = k) by congruence. assert (d' = d) by congruence. assert (m' = m) by congruence. subst. clear H.
  destruct m; cbn [step1 md stk done_ cr];
    unfold close_elem, open_elem, push, set_md, err; cbn [md stk done_ cr];
    repeat (match goal with
            | |- context [if ?b then _ else _] => destruct b
            | |- context [match ?x with [] => _ | _ => _ end] => destruct x
            | |- context [match ?x with Some _ => _ | None => _ end] => destruct x
            | |- context [match ?x with O => _ | _ => _ end] => destruct x
            | |- context [let (_, _) := ?x in _] => destruct x
            end; cbn [md stk done_ cr]); reflexivity.
Qed.
Lemma cr_step1 st c : cr (step1 st c) = cr st.
Proof.
  destruct st as [b k d m]. destruct m; cbn [step1 md stk done_ cr];
    unfold close_elem, open_elem, push, set_md, err; cbn [md stk done_ cr];
    repeat (match goal with
            | |- context [if ?b then _ else _] => destruct b
            | |- context [match ?x with [] => _ | _ => _ end] => destruct x
            | |- context [match ?x with Some _ => _ | None => _ end] => destruct x
            | |- context [match ?x with O => _ | _ => _ end] => destruct x
            | |- context [let (_, _) := ?x in _] => destruct x
            end; cbn [md stk done_ cr]); reflexivity.
Qed.
Lemma run_un n : forall s st st', length s <= n -> forget st = forget st' -> cr st' = false ->
  (cr st = true -> hd_error s <> Some 10%N) ->
  forget (run st s) = forget (run st' (universal_newlines s)).
Proof.
  induction n as [|n IH]; intros s st st' HL HF HC HH.
  { destruct s; [exact HF|cbn in HL; lia]. }
  destruct s as [|c s]; [exact HF|]. cbn [length] in HL. unfold run. cbn [fold_left]. fold (run (step st c) s).
  assert (HS : step st c = if N.eqb c 13 then step1 (Conf true (stk st) (done_ st) (md st)) 10
                           else step1 (Conf false (stk st) (done_ st) (md st)) c).
  { unfold step. destruct (cr st) eqn:EC; cbn [andb]; [|reflexivity]. destruct (N.eqb_spec c 10) as [->|]; [|reflexivity].
    exfalso. apply (HH eq_refl). reflexivity. }
  rewrite HS. destruct (N.eqb_spec c 13) as [->|N13].
  - assert (HT : step st' 10 = step1 st' 10).
    { apply step_lf; [exact HC|discriminate]. }
    assert (HF' : forget (step1 (Conf true (stk st) (done_ st) (md st)) 10) = forget (step1 st' 10)).
    { apply forget_step1. exact HF. }
    destruct s as [|d s].
    + cbn [universal_newlines N.eqb Pos.eqb fold_left]. cbn [run fold_left]. rewrite HT. exact HF'.
    + cbn [universal_newlines N.eqb Pos.eqb]. destruct (N.eqb_spec d 10) as [->|N10].
      * cbn [run fold_left]. fold (run (step st' 10) (universal_newlines s)). rewrite HT.
        match goal with |- forget (fold_left step s ?x) = _ => change (forget (run x s) = forget (run (step1 st' 10) (universal_newlines s))) end.
        apply IH; [cbn [length] in HL; lia| |rewrite cr_step1; exact HC|].
        -- unfold step. rewrite cr_step1. cbn [cr andb N.eqb Pos.eqb]. exact HF'.
        -- unfold step. rewrite cr_step1. cbn [cr andb N.eqb Pos.eqb]. discriminate.
      * cbn [fold_left]. fold (run (step st' 10) (universal_newlines (d :: s))). rewrite HT.
        apply IH; [lia|exact HF'|rewrite cr_step1; exact HC|]. intros _. cbn [hd_error]. congruence.
  - rewrite un_cons by exact N13. cbn [fold_left]. fold (run (step st' c) (universal_newlines s)).
    rewrite (step_lf st' c HC N13). apply IH; [lia| |rewrite cr_step1; exact HC|].
    + apply forget_step1. exact HF.
    + rewrite cr_step1. discriminate.
Qed.
Lemma skip_bom_un s : skip_bom (universal_newlines s) = universal_newlines (skip_bom s).
Proof.
  assert (E : forall x, skip_bom x = match x with c :: x' => if N.eqb c 65279 then x' else x | [] => [] end).
  { intros [|c x]; [reflexivity|]. destruct (N.eqb_spec c 65279) as [->|N]; [reflexivity|]. unfold skip_bom.
    destruct c as [|q]; [reflexivity|]. do 17 (try (destruct q as [q|q|]; try reflexivity)). exfalso. apply N. reflexivity. }
  rewrite !E. destruct s as [|c s]; [reflexivity|]. destruct (N.eqb_spec c 13) as [->|N13].
  - destruct s as [|d s]; [reflexivity|]. cbn [universal_newlines N.eqb Pos.eqb]. destruct (N.eqb d 10); reflexivity.
  - rewrite un_cons by exact N13. destruct (N.eqb c 65279); [reflexivity|]. rewrite un_cons by exact N13. reflexivity.
Qed.
Lemma read_text_un s : read_text (universal_newlines s) = read_text s.
Proof.
  unfold read_text. rewrite skip_bom_un.
  assert (H : forget (run init (skip_bom s)) = forget (run init (universal_newlines (skip_bom s)))).
  { apply (run_un (length (skip_bom s))); auto. discriminate. }
  revert H. generalize (run init (skip_bom s)) (run init (universal_newlines (skip_bom s))).
  intros [b k d m] [b' k' d' m']. unfold forget, finish. cbn [stk done_ md]. intros H. assert (k' = k) by congruence.
  assert (d' = d) by congruence. assert (m' = m) by congruence. subst. reflexivity.
Qed.

(** ** Encodings *)
Lemma enc_high c b : In b (enc_char c) -> (128 <= c)%N -> (128 <= b)%N.
Proof.
  unfold enc_char. intros H HC. destruct (N.ltb_spec c 128); [lia|]. destruct (N.ltb c 2048); [|destruct (N.ltb c 65536)];
    cbn [In] in H; repeat destruct H as [<-|H]; try contradiction; lia.
Qed.
Lemma un_app_plain l s : Forall (fun c => c <> 13%N) l -> universal_newlines (l ++ s) = l ++ universal_newlines s.
Proof. induction 1 as [|c l H _ IH]; [reflexivity|]. cbn [app]. rewrite un_cons, IH by exact H. reflexivity. Qed.
Lemma hd_enc s : hd_error (flat_map enc_char s) <> Some 10%N <-> hd_error s <> Some 10%N.
Proof.
  destruct s as [|c s]; [reflexivity|]. cbn [flat_map hd_error]. unfold enc_char. destruct (N.ltb_spec c 128); [reflexivity|].
  destruct (N.ltb c 2048); [|destruct (N.ltb c 65536)]; cbn [app hd_error]; (split; intros _ E; [|]);
    apply (f_equal (fun o => match o with Some x => x | None => 0%N end)) in E; lia.
Qed.
Lemma enc_un n : forall s, length s <= n -> flat_map enc_char (universal_newlines s) = universal_newlines (flat_map enc_char s).
Proof.
  induction n as [|n IH]; intros s HL; [destruct s; [reflexivity|cbn in HL; lia]|].
  destruct s as [|c s]; [reflexivity|]. cbn [length] in HL. destruct (N.eqb_spec c 13) as [->|N13].
  - destruct s as [|d s]; [reflexivity|]. destruct (N.eqb_spec d 10) as [->|N10].
    + rewrite un_crlf. cbn [flat_map]. change (enc_char 13) with [13%N]. change (enc_char 10) with [10%N]. cbn [app].
      rewrite un_crlf. f_equal. apply IH. cbn [length] in HL. lia.
    + assert (HH : hd_error (d :: s) <> Some 10%N) by (cbn; congruence). rewrite (un_cr _ HH).
      change (flat_map enc_char (13%N :: d :: s)) with (13%N :: flat_map enc_char (d :: s)).
      rewrite un_cr by (apply hd_enc, HH). change (flat_map enc_char (10%N :: universal_newlines (d :: s))) with (10%N :: flat_map enc_char (universal_newlines (d :: s))).
      f_equal. apply IH. lia.
  - rewrite un_cons by exact N13. cbn [flat_map]. rewrite un_app_plain; [f_equal; apply IH; lia|].
    apply Forall_forall. intros b Hb. destruct (N.ltb_spec c 128) as [HC|HC].
    + unfold enc_char in Hb. destruct (N.ltb_spec c 128); [|lia]. cbn in Hb. destruct Hb as [<-|[]]. exact N13.
    + pose proof (enc_high c b Hb HC). lia.
Qed.
Lemma forallb_un (f : N -> bool) n : f 10%N = true -> f 13%N = true -> forall s, length s <= n -> forallb f (universal_newlines s) = forallb f s.
Proof.
  intros F1 F2. induction n as [|n IH]; intros s HL; [destruct s; [reflexivity|cbn in HL; lia]|].
  destruct s as [|c s]; [reflexivity|]. cbn [length] in HL. destruct (N.eqb_spec c 13) as [->|N13].
  - destruct s as [|d s]; [cbn; rewrite F1, F2; reflexivity|]. destruct (N.eqb_spec d 10) as [->|N10].
    + rewrite un_crlf. cbn [forallb]. rewrite F1, F2, IH by (cbn [length] in HL; lia). reflexivity.
    + rewrite un_cr by (cbn; congruence). change (forallb f (10%N :: universal_newlines (d :: s)) = f 13%N && forallb f (d :: s)).
      cbn [forallb]. rewrite F1, F2, IH by lia. reflexivity.
  - rewrite un_cons by exact N13. cbn [forallb]. rewrite IH by lia. reflexivity.
Qed.
Lemma encode_un s : utf8_encode (universal_newlines s) = option_map universal_newlines (utf8_encode s).
Proof.
  unfold utf8_encode. rewrite (forallb_un is_scalar (length s)) by (reflexivity || lia). destruct (forallb is_scalar s); [|reflexivity].
  cbn [option_map]. rewrite (enc_un (length s)) by lia. reflexivity.
Qed.
Lemma etree_parse_un s : etree_parse (universal_newlines s) = etree_parse s.
Proof.
  unfold etree_parse. rewrite read_text_un. destruct (read_text s) as [d|]; [|reflexivity].
  destruct (decl_encoding (d_decl d)) as [e|]; [|reflexivity]. rewrite (forallb_un _ (length s)) by (reflexivity || lia).
  rewrite encode_un. destruct (utf8_encode s) as [b|]; cbn [option_map]; [rewrite read_text_un|]; reflexivity.
Qed.
Lemma parse_from_string_un cb s : parse_from_string cb (universal_newlines s) = parse_from_string cb s.
Proof.
  assert (E : parse_from_string cb s = match s with [] => lift (Raise EReqIFXMLParsingError)
    | _ => match lxml_parse s with None => lift (Raise EReqIFXMLParsingError) | Some (decl, root) => parse_reqif cb decl root end end) by (destruct s; reflexivity).
  assert (EL : lxml_parse (universal_newlines s) = lxml_parse s) by (unfold lxml_parse; rewrite etree_parse_un; reflexivity).
  destruct s as [|c s]; [reflexivity|]. rewrite E, <- EL.
  destruct (universal_newlines (c :: s)) as [|d t] eqn:EU; [|reflexivity]. exfalso. cbn [universal_newlines] in EU.
  destruct (N.eqb c 13); [destruct s as [|d s]; [|destruct (N.eqb d 10)]|]; discriminate.
Qed.
Lemma parse_from_string_lines cb s t : same_lines s t -> parse_from_string cb s = parse_from_string cb t.
Proof.
  intros H. rewrite <- (parse_from_string_un cb s), <- (parse_from_string_un cb t), (same_lines_un _ _ H). reflexivity.
Qed.
Lemma crlf_same s : Forall (fun c => c <> 13%N) s -> same_lines s (crlf s).
Proof.
  induction 1 as [|c s H HS IH]; [constructor|]. unfold crlf. cbn [flat_map]. fold (crlf s). destruct (N.eqb_spec c 10) as [->|N10].
  - change (10%N :: s) with ([10%N] ++ s). apply same_end; [right; left; reflexivity|left; reflexivity|exact IH].
  - apply same_char; assumption.
Qed.
