(** Prop_Reformat.v -- C62: a formatted file is parsed to the same bundle *)
From Coq Require Import Permutation.
From Verif Require Import Base Xml Utf8 Lxml Py LxmlStr Models Progress Parser Unparser Serialise Validate Zip Anonymize Dump
  Commands SpecCommands SpecPrint SpecDocument SpecXml SpecFormat SpecLayout XmlProofs DictProofs ParserProofs FormatProofs SpaceProofs LayoutProofs Prop_Lines
  Prop_Commands Prop_Format.

(** ** Reformatted documents are laid out differently *)
Lemma encoded_ascii s s' : encoded true s s' -> ascii s -> s' = s.
Proof.
  intros H. induction H as [|c s s' _ _ IH|c d s s' _ HC _ _ _]; intros A; [reflexivity|..]; inversion A; subst.
  - rewrite IH by assumption. reflexivity.
  - lia.
Qed.
Lemma instruction_ascii s s' : same_instruction true s s' -> ascii s -> same_instruction false s s'.
Proof.
  intros (t & w & w' & r & W & W' & E & -> & H) A. exists t, w, w', r. do 3 (split; [assumption|]). split; [reflexivity|].
  apply encoded_ascii in H; [rewrite H; apply encoded_refl|]. unfold ascii in *. rewrite !Forall_app in *. destruct A as (A1 & A2 & A3).
  repeat split; try assumption. apply Forall_forall. intros c HC. rewrite Forall_forall in W'. apply W' in HC.
  unfold white in HC. cbn [In] in HC. intuition (subst; reflexivity).
Qed.
Lemma ascii_respaced n : forall n', ascii_markup n -> respaced true n n' -> respaced false n n'.
Proof.
  induction n as [c|s|s|ns l d i a kids IH] using node_ind'; intros n' A H; inversion H; subst; inversion A; subst.
  - constructor. match goal with E : encoded true _ _ |- _ => apply encoded_ascii in E; [rewrite E; apply encoded_refl|assumption] end.
  - constructor. apply instruction_ascii; assumption.
  - apply respaced_text. assumption.
  - match goal with K : Forall ascii_markup kids |- _ => rename K into AK end.
    match goal with F : Forall2 _ m m' |- _ => rename F into HF end.
    match goal with P : pieces kids = _ |- _ => rename P into HP end.
    apply (respaced_element false _ _ _ _ _ _ _ t t' m m'); try assumption.
    assert (IN : forall z, In z m -> In (fst z) kids) by (intros z HZ; apply (pieces_in kids); rewrite HP; exact HZ).
    clear - HF IN AK IH. induction HF as [|y y' m m' [G1 G2] _ IHm]; constructor.
    + split; [|exact G2]. rewrite Forall_forall in IH, AK. assert (HI : In (fst y) kids) by (apply IN; left; reflexivity). apply IH; auto.
    + apply IHm. intros z HZ. apply IN. right. exact HZ.
Qed.
Lemma items_pieces kids t m : pieces kids = (t, m) -> items kids = map fst m.
Proof. intros H. apply pieces_un in H. destruct H as [-> M]. apply items_un, M. Qed.
Lemma reformatted_kids x p kids kids' :
  Forall (fun k => forall p n', tidy x p k -> respaced true k n' -> relaid x p k n') kids ->
  forall t t' m m', m <> [] -> pieces kids = (t, m) -> pieces kids' = (t', m') ->
  Forall2 (fun y z => respaced true (fst y) (fst z) /\ same_text (snd y) (snd z)) m m' ->
  Forall (tidy x p) (items kids) ->
  items kids <> [] /\ exists mid, rearranged p (items kids) mid /\ Forall2 (relaid x p) mid (items kids').
Proof.
  intros IH t t' m m' HM E E' HF HT.
  assert (IN : forall z, In z m -> In (fst z) kids) by (intros z HZ; apply (pieces_in kids); rewrite E; exact HZ).
  rewrite (items_pieces _ _ _ E) in *. rewrite (items_pieces _ _ _ E'). split; [destruct m; [contradiction|discriminate]|].
  exists (map fst m). split; [left; reflexivity|]. clear E E' HM. induction HF as [|y z m m' [G1 G2] _ IHm]; cbn [map]; constructor.
  - rewrite Forall_forall in IH. inversion HT; subst. apply IH; auto. apply IN. left. reflexivity.
  - apply IHm; [|intros w HW; apply IN; right; exact HW]. inversion HT; assumption.
Qed.
Lemma reformatted x n : forall p n', tidy x p n -> respaced true n n' -> relaid x p n n'.
Proof.
  induction n as [c|s|s|ns l d i a kids IH] using node_ind'; intros p n' T H; [inversion H|..].
  - inversion H as [? s' E| | |]; subst. inversion T as [? ? A| | |]; subst. destruct (comments_read p) eqn:C.
    + rewrite (encoded_ascii _ _ E (A eq_refl)). apply relaid_same.
    + apply relaid_comment, C.
  - inversion T.
  - inversion H as [| |? ? ? ? ? ? HK|? ? ? ? ? ? kids' t t' m m' HM E E' HT HF]; subst; [apply relaid_same|].
    inversion T as [|? ? ? ? ? ? ? TX|? ? ? ? ? ? ? FR AK|? p' ? ? ? ? ? ? TI TK]; subst.
    + exfalso. apply HM. assert (A : snd (pieces kids) = []); [|rewrite E in A; exact A].
      apply pieces_all. apply forallb_forall. intros k HK. rewrite Forall_forall in TX. destruct (TX k HK) as [c ->]. reflexivity.
    + apply relaid_free; [exact FR|]. apply ascii_respaced; [constructor; exact AK|exact H].
    + apply (relaid_element x p p'); [exact TI|apply Permutation_refl|left; reflexivity|right].
      apply (reformatted_kids x p' kids kids' IH t t' m m' HM E E' HF TK).
Qed.
Lemma reformatted_root x n n' : tidy_root x n -> respaced true n n' -> relaid_root x n n'.
Proof.
  intros (ns & l & d & i & a & kids & -> & T) H. inversion H as [| |? ? ? ? ? ? HK|? ? ? ? ? ? kids' t t' m m' HM E E' HT HF]; subst.
  - exists ns, l, d, i, a, kids, kids. auto.
  - exists ns, l, d, i, a, kids, kids'. do 2 (split; [reflexivity|]). right.
    apply (reformatted_kids x InReqIF kids kids' ltac:(apply Forall_forall; intros; apply reformatted; assumption) t t' m m' HM E E' HF T).
Qed.

(** ** The declaration *)
Definition on_value {A B} (f : A -> B) (r : result A) : result B := match r with Ok a => Ok (f a) | Raise e => Raise e end.
Lemma declared_parse cb decl root h :
  parse_reqif cb (Some "xml version=""1.0"" encoding=""UTF-8""") root h
  = (fst (parse_reqif cb decl root h), on_value declared (snd (parse_reqif cb decl root h))).
Proof.
  unfold parse_reqif, mbind, lift, ret. destruct (strip_if_namespaced root) as [nons|e]; [|reflexivity].
  destruct (negb (tag_is "REQ-IF" nons)); [reflexivity|]. destruct (children nons) as [|k ks]; [reflexivity|].
  destruct (match find_child "THE-HEADER" nons with None => _ | Some _ => _ end) as [hd|e]; [|reflexivity].
  match goal with |- context [match ?m h with (_, _) => _ end] => set (r := m h) end.
  destruct r as [h' [[[core lk] ex]|e]]; reflexivity.
Qed.
Lemma same_declared x b b' : same_bundle (z_bundle x b) (z_bundle x b') -> same_bundle (z_bundle x (declared b)) (z_bundle x (declared b')).
Proof. intros (H1 & H2 & H3 & H4 & H5 & H6). destruct x; cbn in *; (split; [cbn; rewrite H1; reflexivity|]); repeat split; assumption. Qed.
Lemma rel_declared x b b' : bundle_rel x b b' -> bundle_rel x (declared b) (declared b').
Proof. intros (H1 & H2 & H3 & H4 & H5 & H6). split; [cbn; rewrite H1; reflexivity|]. repeat split; assumption. Qed.
Lemma utf8_document text decl root : read_document text = Some (decl, root) -> in_utf8 decl -> lxml_parse text = Some (decl, root).
Proof.
  intros HR HE. unfold read_document in HR. unfold lxml_parse, etree_parse.
  destruct (read_text text) as [d|] eqn:EX; [|discriminate HR]. destruct (resolve [] (d_root d)) as [r|] eqn:ER; [|discriminate HR].
  injection HR as <- <-. destruct (in_utf8_read _ _ EX HE) as [->|(e & -> & ->)]; [rewrite ER; auto|].
  change (str_eqb "UTF-8" "UTF-8") with true. cbv iota. rewrite ER. auto.
Qed.
Lemma formatted_parse x cb s decl root t h :
  read_document s = Some (decl, root) -> in_utf8 decl ->
  portable true root -> Forall (portable true) (fst (surroundings s)) -> Forall (portable true) (snd (surroundings s)) ->
  tidy_root x root -> format_text s = Ok t ->
  fst (parse_from_string cb s h) = fst (parse_from_string cb t h)
  /\ same_result (fun b b' => bundle_rel x (declared b) b') (snd (parse_from_string cb s h)) (snd (parse_from_string cb t h)).
Proof.
  intros HR HE P1 P2 P3 HT HF.
  destruct (C60_formatting_keeps_the_document s decl root HR P1 P2 P3) as (t0 & root' & E1 & _ & _ & E4 & E5 & _).
  assert (t0 = t) by congruence. subst t0. apply utf8_document in HR; [|exact HE].
  pose proof (reqif_rel x cb (Some "xml version=""1.0"" encoding=""UTF-8""") root root' (reformatted_root x _ _ HT E5) h) as [G1 G2].
  rewrite (declared_parse cb decl root h) in G1, G2. cbn [fst snd] in G1, G2.
  unfold parse_from_string. destruct s as [|c s]; [discriminate HR|]. destruct t as [|c' t]; [discriminate E4|]. rewrite HR, E4.
  split; [exact G1|]. destruct (snd (parse_reqif cb decl root h)) as [b|e]; exact G2.
Qed.

(** ** C62

    A document in the ReqIF structure ([tidy_root], SpecLayout.v) is parsed from
    the formatted text as from the original one: with the same progress reports
    and the same exception, or to bundles that differ in the declaration of the
    document ([declared]), in the XML nodes stored in them, and in the white
    space of XHTML values ([squeeze_bundle]). *)
Theorem C62_formatting_keeps_the_bundle :
  forall cb s decl root t h,
    read_document s = Some (decl, root) -> in_utf8 decl ->
    portable true root -> Forall (portable true) (fst (surroundings s)) -> Forall (portable true) (snd (surroundings s)) ->
    tidy_root true root -> format_text s = Ok t ->
    fst (parse_from_string cb s h) = fst (parse_from_string cb t h)
    /\ same_result (fun b b' => same_bundle (squeeze_bundle (declared b)) (squeeze_bundle b'))
         (snd (parse_from_string cb s h)) (snd (parse_from_string cb t h)).
Proof.
  intros cb s decl root t h HR HE P1 P2 P3 HT HF.
  destruct (formatted_parse true cb s decl root t h HR HE P1 P2 P3 HT HF) as [G1 G2]. split; [exact G1|].
  apply same_mono with (2 := G2). intros b b'. apply (bundle_rel_same true).
Qed.
(** If XHTML values hold text only ([tidy_root false]), nothing in the bundle
    changes, and it is written as the same text. *)
Theorem C62_formatting_without_xhtml_elements :
  forall cb s decl root t h,
    read_document s = Some (decl, root) -> in_utf8 decl ->
    portable true root -> Forall (portable true) (fst (surroundings s)) -> Forall (portable true) (snd (surroundings s)) ->
    tidy_root false root -> format_text s = Ok t ->
    fst (parse_from_string cb s h) = fst (parse_from_string cb t h)
    /\ same_result (fun b b' => same_bundle (declared b) b' /\ forall cb' h', unparse cb' (declared b) h' = unparse cb' b' h')
         (snd (parse_from_string cb s h)) (snd (parse_from_string cb t h)).
Proof.
  intros cb s decl root t h HR HE P1 P2 P3 HT HF.
  destruct (formatted_parse false cb s decl root t h HR HE P1 P2 P3 HT HF) as [G1 G2]. split; [exact G1|].
  apply same_mono with (2 := G2). intros b b' B. split; [apply (bundle_rel_same false), B|]. intros cb' h'. apply bundle_rel_text, B.
Qed.
(** The format command: the file it writes is parsed as its input file is. *)
Theorem C62_format_command :
  forall t s cwd i o raw text decl root cb h,
    fs_file s i = Some raw -> utf8_decode raw = Some text -> read_document text = Some (decl, root) -> in_utf8 decl ->
    portable true root -> Forall (portable true) (fst (surroundings text)) -> Forall (portable true) (snd (surroundings text)) ->
    tidy_root true root -> fs_can_write s o = true ->
    let r := perform t s cwd (RFormat i o) in
    ended r = Exit 0
    /\ fst (parse_file cb (fs_file s i) h) = fst (parse_file cb (fs_file (final s r) o) h)
    /\ same_result (fun b b' => same_bundle (squeeze_bundle (declared b)) (squeeze_bundle b'))
         (snd (parse_file cb (fs_file s i) h)) (snd (parse_file cb (fs_file (final s r) o) h)).
Proof.
  intros t s cwd i o raw text decl root cb h HF HD HR HE P1 P2 P3 HT HC r.
  destruct (C60_same_document raw text decl root HD HR HE) as [HX _].
  destruct (C60_formatting_keeps_the_document text decl root HR P1 P2 P3) as (out & root' & E1 & E2 & _).
  assert (EN : ended r = Exit 0).
  { unfold r. cbn [perform]. unfold format. rewrite HF. unfold format_bytes. rewrite HX, E1. unfold write_bytes. rewrite HC. reflexivity. }
  split; [exact EN|]. destruct (C41_output_file t s cwd (RFormat i o) o eq_refl EN) as (d & N & F & _). fold r in F.
  cbn [new_content] in N. rewrite HF in N. unfold format_bytes in N. rewrite HX, E1 in N. injection N as <-.
  rewrite HF, F, (C51_file_is_its_text cb raw text h HD), (C51_file_is_its_text cb out out h (ascii_bytes _ E2)).
  apply (C62_formatting_keeps_the_bundle cb text decl root out h HR HE P1 P2 P3 HT E1).
Qed.
Print Assumptions C62_formatting_keeps_the_bundle.
Print Assumptions C62_formatting_without_xhtml_elements.
Print Assumptions C62_format_command.

(** ** An example: comments, an alternative identifier and an XHTML value *)
Fixpoint ascii_markupb (n : node) : bool :=
  match n with
  | Chr _ => true
  | Cmt s | Pin s => asciib s
  | El _ _ _ _ _ kids => forallb ascii_markupb kids
  end.
Lemma ascii_markupb_sound n : ascii_markupb n = true -> ascii_markup n.
Proof.
  induction n as [c|s|s|ns l defs inh attrs kids IH] using node_ind'; cbn [ascii_markupb]; intros H; constructor;
    try (apply asciib_sound, H). exact (forallb_Forall _ _ _ IH H).
Qed.
Fixpoint tidyb (x : bool) (p : place) (n : node) : bool :=
  match n with
  | Chr _ | Pin _ => false
  | Cmt s => if comments_read p then asciib s else true
  | El _ l _ _ _ kids =>
      if forallb is_chr kids then true
      else if free x p l then forallb ascii_markupb kids
      else existsb (fun e => str_eqb l (fst e)) (table p)
           && forallb (fun k => if is_chr k then true else tidyb x (look l (table p)) k) kids
  end.
Lemma look_found l t : existsb (fun e => str_eqb l (fst e)) t = true -> In (l, look l t) t.
Proof.
  induction t as [|[k p] t IH]; cbn [existsb look]; [discriminate|]. cbn [fst]. destruct (str_eqb_spec l k) as [->|]; [left; reflexivity|].
  intros H. right. apply IH, H.
Qed.
Lemma tidyb_sound x n : forall p, tidyb x p n = true -> tidy x p n.
Proof.
  induction n as [c|s|s|ns l defs inh attrs kids IH] using node_ind'; cbn [tidyb]; intros p H; try discriminate H.
  - apply tidy_comment. intros C. rewrite C in H. apply asciib_sound, H.
  - destruct (forallb is_chr kids) eqn:E.
    { apply tidy_text. apply forallb_all with (2 := E). intros k HK. destruct k; try discriminate HK. eexists. reflexivity. }
    destruct (free x p l) eqn:F.
    { apply tidy_free; [exact F|]. apply forallb_all with (2 := H). exact ascii_markupb_sound. }
    apply andb_prop in H. destruct H as [H1 H2]. apply (tidy_element x p (look l (table p))); [apply look_found, H1|].
    apply Forall_forall. intros k HK. apply filter_In in HK. destruct HK as [HK1 HK2].
    rewrite Forall_forall in IH. apply (IH k HK1). pose proof (proj1 (forallb_forall _ _) H2 k HK1) as G. cbv beta in G.
    destruct k; [discriminate HK2|exact G..].
Qed.
Definition tidy_rootb (x : bool) (n : node) : bool :=
  match n with El _ _ _ _ _ kids => forallb (fun k => if is_chr k then true else tidyb x InReqIF k) kids | _ => false end.
Lemma tidy_rootb_sound x n : tidy_rootb x n = true -> tidy_root x n.
Proof.
  destruct n as [c|ns l d i a kids|s|s]; try discriminate. cbn [tidy_rootb]. intros H. exists ns, l, d, i, a, kids. split; [reflexivity|].
  apply Forall_forall. intros k HK. apply filter_In in HK. destruct HK as [HK1 HK2]. apply tidyb_sound.
  pose proof (proj1 (forallb_forall _ _) H k HK1) as G. cbv beta in G. destruct k; [discriminate HK2|exact G..].
Qed.
(** [value]: the content of an XHTML value *)
Definition with_value (value : str) : str :=
  "<REQ-IF xmlns='http://www.omg.org/spec/ReqIF/20110401/reqif.xsd' xmlns:h='http://www.w3.org/1999/xhtml'><THE-HEADER>"
  ++ "<REQ-IF-HEADER IDENTIFIER='i'><TITLE>caf" ++ [0xE9%N] ++ "</TITLE></REQ-IF-HEADER></THE-HEADER><CORE-CONTENT><REQ-IF-CONTENT>"
  ++ "<SPEC-OBJECTS><!--caf" ++ [0xE9%N] ++ "--><SPEC-OBJECT IDENTIFIER='o'><ALTERNATIVE-ID><ALTERNATIVE-ID IDENTIFIER='a'/></ALTERNATIVE-ID>"
  ++ "<VALUES><ATTRIBUTE-VALUE-XHTML><DEFINITION><ATTRIBUTE-DEFINITION-XHTML-REF>d</ATTRIBUTE-DEFINITION-XHTML-REF></DEFINITION><THE-VALUE>"
  ++ value ++ "</THE-VALUE></ATTRIBUTE-VALUE-XHTML></VALUES><TYPE><SPEC-OBJECT-TYPE-REF>t</SPEC-OBJECT-TYPE-REF></TYPE></SPEC-OBJECT>"
  ++ "</SPEC-OBJECTS></REQ-IF-CONTENT></CORE-CONTENT></REQ-IF>".
Definition formattable (x : bool) (s : str) : Prop :=
  exists decl root,
    read_document s = Some (decl, root) /\ in_utf8 decl /\ portable true root
    /\ Forall (portable true) (fst (surroundings s)) /\ Forall (portable true) (snd (surroundings s)) /\ tidy_root x root.
Definition formattableb (x : bool) (s : str) : bool :=
  match read_document s with
  | Some (decl, root) =>
      match decl_encoding decl with None => true | Some e => str_eqb (upper e) "UTF-8" end
      && portableb root && forallb portableb (fst (surroundings s)) && forallb portableb (snd (surroundings s)) && tidy_rootb x root
  | None => false
  end.
Lemma formattableb_sound x s : formattableb x s = true -> formattable x s.
Proof.
  unfold formattableb. destruct (read_document s) as [[decl root]|] eqn:E; [|discriminate]. intros H. exists decl, root. split; [exact E|].
  repeat match goal with H : _ && _ = true |- _ => apply andb_prop in H; destruct H end.
  split; [|split; [apply portableb_sound; assumption|split; [|split; [|apply tidy_rootb_sound; assumption]]]].
  - apply (utf8_doc _ _ _ E). assumption.
  - apply (forallb_all portableb); [exact portableb_sound|assumption].
  - apply (forallb_all portableb); [exact portableb_sound|assumption].
Qed.
(** what the format command makes of it, and the bundles and their values *)
Definition reparsed (s : str) : option (bundle * bundle) :=
  match parse_string s, format_text s with
  | Ok b, Ok t => match parse_string t with Ok b' => Some (b, b') | Raise _ => None end
  | _, _ => None
  end.
Definition values_of (b : bundle) : list attr_value :=
  match b_core_content b with
  | Some (Some c) => match rc_spec_objects c with Some l => flat_map (fun o => map sa_value (so_attributes o)) l | None => [] end
  | _ => []
  end.
Example C62_example :
  formattable true (with_value "<h:div><h:p>a</h:p><!--x--></h:div>")
  /\ formattable false (with_value "some text")
  /\ (exists t, format_text (with_value "<h:div><h:p>a</h:p><!--x--></h:div>") = Ok t)
  /\ (exists b b', reparsed (with_value "some text") = Some (b, b') /\ values_of b = [VStr "some text"] /\ values_of b' = values_of b).
Proof.
  split; [apply formattableb_sound; vm_compute; reflexivity|]. split; [apply formattableb_sound; vm_compute; reflexivity|].
  split; [eexists; vm_compute; reflexivity|]. eexists _, _. split; [vm_compute; reflexivity|]. split; vm_compute; reflexivity.
Qed.

(** ** XHTML values do change: white space is added between inline elements, so
    that words fall apart; and a tab, which the parser keeps as a reference, is
    lost. *)
Theorem C62_values_stay_refuted :
  exists v1 v2 b1 b1' b2 b2',
    v1 = "<h:div><h:b>Req</h:b><h:i>IF</h:i></h:div>" /\ v2 = "<h:div>" ++ [9%N] ++ "<h:p>a</h:p></h:div>"
    /\ formattable true (with_value v1) /\ reparsed (with_value v1) = Some (b1, b1')
    /\ formattable true (with_value v2) /\ reparsed (with_value v2) = Some (b2, b2')
    /\ values_of b1 = [VStr v1]
    /\ values_of b1' = [VStr (nl ++ spaces 16 ++ "<h:div>" ++ nl ++ spaces 18 ++ "<h:b>Req</h:b>" ++ nl ++ spaces 18 ++ "<h:i>IF</h:i>"
                              ++ nl ++ spaces 16 ++ "</h:div>" ++ nl ++ spaces 14)]
    /\ values_of b2 = [VStr "<h:div>&#9;<h:p>a</h:p></h:div>"]
    /\ values_of b2' = [VStr (nl ++ spaces 16 ++ "<h:div>" ++ nl ++ spaces 18 ++ "<h:p>a</h:p>"
                              ++ nl ++ spaces 16 ++ "</h:div>" ++ nl ++ spaces 14)].
Proof.
  eexists _, _, _, _, _, _. split; [reflexivity|]. split; [reflexivity|].
  split; [apply formattableb_sound; vm_compute; reflexivity|]. split; [vm_compute; reflexivity|].
  split; [apply formattableb_sound; vm_compute; reflexivity|]. split; [vm_compute; reflexivity|].
  split; [vm_compute; reflexivity|]. split; [vm_compute; reflexivity|]. split; vm_compute; reflexivity.
Qed.
Print Assumptions C62_values_stay_refuted.
