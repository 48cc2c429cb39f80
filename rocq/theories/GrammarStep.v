(** GrammarStep.v -- every step of the reader extends the text by the grammar *)
From Verif Require Import Base Xml DictProofs XmlProofs LineProofs SpecLines SpecXml GrammarProofs GrammarMachine GrammarInv.

Lemma repeat_snoc {A} (x : A) j : repeat x j ++ [x] = repeat x (S j).
Proof. induction j as [|j IH]; [reflexivity|]. cbn [repeat app] in *. rewrite IH. reflexivity. Qed.
Lemma value_one q c : quote q -> c <> q -> c <> 60%N -> c <> 38%N -> is_ws c = false -> is_xml_char c = true -> value q [c] [c].
Proof.
  intros HQ H1 H2 H3 H4 H5. apply value_char; auto; [apply char_ok, H5| |constructor]. intros H. apply white_ok in H. congruence.
Qed.
Lemma comment_snoc s c : comment s -> char c -> c <> 45%N -> comment (s ++ [c]).
Proof.
  intros (H1 & H2) HC HN. split; [apply Forall_app; split; [exact H1|constructor; [exact HC|constructor]]|].
  apply absent_prefix in H2. apply absent_snoc; [apply absent_snoc; [exact H2|]|].
  - intros a E. change "--" with ([45%N] ++ [45%N]) in E. rewrite app_assoc in E. apply app_inj_tail in E. destruct E. contradiction.
  - intros a E. change "--" with ([45%N] ++ [45%N]) in E. rewrite app_assoc in E. apply app_inj_tail in E. destruct E as [E _].
    apply app_inj_tail in E. destruct E. contradiction.
Qed.
Lemma comment_dash s c : comment s -> char c -> c <> 45%N -> comment (s ++ [45%N; c]).
Proof.
  intros (H1 & H2) HC HN. split.
  - apply Forall_app; split; [exact H1|]. constructor; [apply char_ok; reflexivity|]. constructor; [exact HC|constructor].
  - replace ((s ++ [45%N; c]) ++ "-") with (((s ++ "-") ++ [c]) ++ [45%N]) by (rewrite <- !app_assoc; reflexivity).
    apply absent_snoc; [apply absent_snoc; [exact H2|]|].
    + intros a E. change "--" with ([45%N] ++ [45%N]) in E. rewrite app_assoc in E. apply app_inj_tail in E. destruct E. contradiction.
    + intros a E. change "--" with ([45%N] ++ [45%N]) in E. rewrite app_assoc in E. apply app_inj_tail in E. destruct E as [E _].
      apply app_inj_tail in E. destruct E. contradiction.
Qed.
Lemma chars_snoc s c : Forall char s -> is_xml_char c = true -> Forall char (s ++ [c]).
Proof. intros H HC. apply Forall_app. split; [exact H|]. constructor; [apply char_ok, HC|constructor]. Qed.
Lemma cdata_snoc s j c : cdata s -> j <= 2 -> is_xml_char c = true -> c <> 93%N -> (c = 62%N -> j < 2) ->
  (j < 2 -> forall s', s <> s' ++ [93%N]) -> cdata (s ++ repeat 93%N j ++ [c]).
Proof.
  intros (H1 & H2) HJ HC HN HG HE.
  assert (HB : Forall char (s ++ repeat 93%N j) /\ absent "]]>" (s ++ repeat 93%N j)).
  { clear HG HE. induction j as [|j IH]; [rewrite app_nil_r; auto|]. destruct IH as [I1 I2]; [lia|].
    rewrite <- repeat_snoc, app_assoc. split; [apply chars_snoc; [exact I1|reflexivity]|]. apply absent_snoc; [exact I2|].
    intros a E. change "]]>" with ([93%N; 93%N] ++ [62%N]) in E. rewrite app_assoc in E. apply app_inj_tail in E. destruct E. discriminate. }
  destruct HB as [B1 B2]. rewrite app_assoc. split; [apply chars_snoc; assumption|]. apply absent_snoc; [exact B2|].
  intros a E. change "]]>" with ([93%N; 93%N] ++ [62%N]) in E. rewrite app_assoc in E. apply app_inj_tail in E. destruct E as [E ->].
  specialize (HG eq_refl). specialize (HE HG). destruct j as [|[|j]]; [| |lia].
  - cbn [repeat] in E. rewrite app_nil_r in E. change [93%N; 93%N] with ([93%N] ++ [93%N]) in E. rewrite app_assoc in E. apply (HE _ E).
  - cbn [repeat] in E. change [93%N; 93%N] with ([93%N] ++ [93%N]) in E. rewrite app_assoc in E. apply app_inj_tail in E. destruct E as [E _]. apply (HE _ E).
Qed.
Lemma instruction_of s : Forall char s -> absent "?>" s -> is_name (pi_target s) && negb (reserved (pi_target s)) = true -> instruction s.
Proof.
  intros H1 H2 H3. split; [exact H1|]. split; [exact H2|]. apply target_ok in H3.
  assert (X : forall s, exists rest, s = pi_target s ++ rest /\ (rest = [] \/ exists c rest', rest = c :: rest' /\ white c)).
  { clear. induction s as [|c s (rest & E & H)]; [exists []; split; [reflexivity|left; reflexivity]|]. unfold pi_target in *. cbn [take_while].
    destruct (is_ws c) eqn:EW; cbn [negb].
    - exists (c :: s). split; [reflexivity|]. right. exists c, s. split; [reflexivity|]. apply white_ok, EW.
    - exists rest. split; [cbn [app]; rewrite <- E; reflexivity|exact H]. }
  destruct (X s) as (rest & E & HR). exists (pi_target s), rest. auto.
Qed.

(** ** The brackets just read *)
Definition counted (t : str) (st : conf) : Prop :=
  forall j, md st = MText j -> (j = 0 -> forall x, t <> x ++ "]") /\ (j <> 2 -> forall x, t <> x ++ "]]").
Lemma last_other t c : c <> 93%N -> (forall x, t ++ [c] <> x ++ "]") /\ (forall x, t ++ [c] <> x ++ "]]").
Proof.
  intros N. split; intros x E.
  - apply app_inj_tail in E. destruct E. contradiction.
  - change "]]" with ("]" ++ "]") in E. rewrite app_assoc in E. apply app_inj_tail in E. destruct E. contradiction.
Qed.
Lemma counted_other t c st : c <> 93%N -> counted (t ++ [c]) st.
Proof. intros N j _. destruct (last_other t c N). auto. Qed.
Lemma counted_mode t st : (forall j, md st <> MText j) -> counted t st.
Proof. intros H j E. contradiction (H j E). Qed.
Theorem counted_step t st c : counted t st -> md (step1 st c) <> MErr -> counted (t ++ [c]) (step1 st c).
Proof.
  intros H HE. destruct (N.eq_dec c 93) as [->|N]; [|apply counted_other, N]. destruct st as [b s d m]. destruct m; cbn [step1 md] in *.
  - cbn [N.eqb Pos.eqb andb] in *. change (is_xml_char 93) with true in *. cbn [stk] in *. destruct s as [|f s]; [contradiction HE; reflexivity|].
    intros j E. cbn [md] in E. injection E as <-. destruct (H brackets eq_refl) as [H1 H2]. destruct brackets as [|[|k]]; split; try discriminate.
    + intros _ x E. change "]]" with ("]" ++ "]") in E. rewrite app_assoc in E. apply app_inj_tail in E. destruct E as [E _]. apply (H1 eq_refl x E).
    + contradiction.
    + contradiction.
  - cbn [N.eqb Pos.eqb]. change (is_name_char 93 || N.eqb 93 35) with false. apply counted_mode. discriminate.
  - contradiction HE; reflexivity.
  - contradiction HE; reflexivity.
  - contradiction HE; reflexivity.
  - contradiction HE; reflexivity.
  - contradiction HE; reflexivity.
  - contradiction HE; reflexivity.
  - contradiction HE; reflexivity.
  - apply counted_mode. intros j E. cbn [md] in HE.
    repeat match type of E with md (if ?b then _ else _) = _ => destruct b end; discriminate E.
  - cbn [N.eqb Pos.eqb]. change (is_name_char 93 || N.eqb 93 35) with false. apply counted_mode. discriminate.
  - contradiction HE; reflexivity.
  - destruct n; contradiction HE; reflexivity.
  - contradiction HE; reflexivity.
  - apply counted_mode. intros j E. cbv zeta in E. cbn [stk] in E.
    repeat match type of E with md (if ?b then _ else _) = _ => destruct b | md (match ?b with _ => _ end) = _ => destruct b end; discriminate E.
  - apply counted_mode. intros j E. cbn [negb N.eqb Pos.eqb] in E. change (is_xml_char 93) with true in E. cbn [negb] in E. destruct dashes as [|[|[|k]]]; discriminate E.
  - apply counted_mode. intros j E. change (is_xml_char 93) with true in E. cbn [negb N.eqb Pos.eqb] in E. destruct brackets as [|[|k]]; discriminate E.
  - apply counted_mode. intros j E. change (is_xml_char 93) with true in E. cbn [negb N.eqb Pos.eqb] in E. rewrite andb_false_r in E. discriminate E.
  - contradiction HE; reflexivity.
Qed.

Theorem inv_step t st c : inv t st -> counted t st -> md (step1 st c) <> MErr -> inv (t ++ [c]) (step1 st c).
Proof.
  intros (base & d0 & mt & HS & HM & ->) HCNT HE. destruct st as [b st d m]. cbn [stk done_ md] in HS, HM.
  assert (PUSH : forall x u, d = d0 -> u = mt ++ [c] -> joined base u -> content u [x] -> (st = [] -> mixed u [x]) ->
     inv ((base ++ mt) ++ [c]) (push (Conf b st d m) x)).
  { intros x u E1 E2 E3 E4 E5. apply (inv_push _ _ base d0 (mt ++ [c]) u); auto. rewrite <- app_assoc. reflexivity. }
  assert (OPEN : forall n a h, d = d0 -> head_done n a h -> mt = h -> c = 62%N -> inv ((base ++ mt) ++ [c]) (open_elem (Conf b st d m) n a)).
  { intros n a h -> H -> ->. rewrite <- app_assoc. apply (inv_open base d0); auto. }
  assert (SLASH : forall n a h, d = d0 -> head_done n a h -> mt = h -> c = 47%N -> inv ((base ++ mt) ++ [c]) (set_md (Conf b st d m) (MSlash n a))).
  { intros n a h -> H -> ->. rewrite <- app_assoc. apply (inv_slash base d0); auto. }
  assert (MODE : forall m', d = d0 -> mode_text st d d m' (mt ++ [c]) -> inv ((base ++ mt) ++ [c]) (set_md (Conf b st d m) m')).
  { intros m' E H. apply inv_mode; [cbn [stk done_]; rewrite E; exact HS|exact H]. }
  assert (STAY : forall m', m = m' -> d = d0 -> mode_text st d d m' (mt ++ [c]) -> inv ((base ++ mt) ++ [c]) (Conf b st d m)).
  { intros m' <- E H. apply (MODE m); assumption. }
  assert (CLOSE : forall n' w, d = d0 -> name n' -> Forall white w -> mt = "</" ++ n' ++ w -> c = 62%N -> md (close_elem (Conf b st d m) n') <> MErr ->
      inv ((base ++ mt) ++ [c]) (close_elem (Conf b st d m) n')).
  { intros n' w -> HN HW -> -> HE'. unfold close_elem in *. cbn [stk done_ cr] in *. destruct st as [|[[n a] sib] st]; [contradiction HE'; reflexivity|].
    destruct (str_eqb_spec n' n) as [->|]; [|contradiction HE'; reflexivity].
    inversion HS as [|? ? ? ? s0 att w0 t0 ? H1 H2 H3 H4 H5]; subst.
    set (e := "<" ++ n ++ att ++ w0 ++ ">" ++ t0 ++ "</" ++ n ++ w ++ ">").
    assert (EL : element e (XElem n a (rev d0))) by (apply element_full; assumption).
    exists (s0 ++ e), (XElem n a (rev d0) :: sib), []. cbn [stk done_ md mode_text]. split; [|split; [split; reflexivity|]].
    - apply stack_push; [exact H1|apply joined_first; discriminate|apply content_one_element, EL|]. intros _. rewrite <- (app_nil_r e). apply mixed_element; [exact EL|constructor].
    - unfold e. rewrite app_nil_r, <- !app_assoc. reflexivity. }
  destruct m; cbn [step1 md] in *.
  - (* MText *)
    destruct HM as [-> ->]. destruct (N.eqb_spec c 60) as [->|N60].
    { apply MODE; [reflexivity|]. split; reflexivity. }
    destruct (N.eqb_spec c 38) as [->|N38].
    { cbn [stk] in *. destruct st as [|f st]; [contradiction HE; reflexivity|]. apply MODE; [reflexivity|]. split; [reflexivity|]. split; [discriminate|reflexivity]. }
    destruct (is_xml_char c) eqn:EX; [|contradiction HE; reflexivity].
    assert (HC : content [c] [XChar c]) by (apply content_char; auto; [apply char_ok, EX|discriminate|constructor]).
    cbn [stk] in *. destruct st as [|f st].
    + destruct (is_ws c) eqn:EW; [|contradiction HE; reflexivity]. apply (PUSH _ [c]); auto; [apply joined_one; intros ->; discriminate EW|].
      intros _. apply mixed_white; [apply white_ok, EW|constructor].
    + destruct (N.eqb c 62 && Nat.eqb brackets 2) eqn:EE; [contradiction HE; reflexivity|]. rewrite app_nil_r in *.
      assert (HJ : joined base [c]).
      { destruct (N.eq_dec c 62) as [->|N62]; [|apply joined_one, N62]. cbn [N.eqb Pos.eqb andb] in EE. apply Nat.eqb_neq in EE.
        apply joined_pair; [|discriminate]. apply (HCNT brackets eq_refl), EE. }
      exists (base ++ [c]), (XChar c :: d0), []. cbn [cr stk done_ md mode_text]. split; [|split; [split; reflexivity|rewrite app_nil_r; reflexivity]].
      apply stack_push; auto. discriminate.
  - (* MTextRef *)
    destruct HM as (-> & HN & ->). destruct (N.eqb_spec c 59) as [->|N59].
    + destruct (decode_ref (rev buf)) as [x|] eqn:ED; [|contradiction HE; reflexivity]. apply decode_ref_ok in ED.
      apply (PUSH _ ("&" ++ rev buf ++ ";" ++ [])); [reflexivity|rewrite <- !app_assoc; reflexivity|apply joined_first; discriminate| |intros G; contradiction].
      apply content_reference; [exact ED|constructor].
    + destruct (is_name_char c || N.eqb c 35); [|contradiction HE; reflexivity]. apply MODE; [reflexivity|]. split; [reflexivity|].
      split; [exact HN|]. cbn [rev]. rewrite <- app_assoc. reflexivity.
  - (* MLt *)
    destruct HM as (-> & ->). destruct (N.eqb_spec c 47) as [->|N47].
    { apply MODE; [reflexivity|]. split; [reflexivity|]. split; [left; reflexivity|reflexivity]. }
    destruct (N.eqb_spec c 33) as [->|N33].
    { apply MODE; [reflexivity|]. split; reflexivity. }
    destruct (N.eqb_spec c 63) as [->|N63].
    { apply MODE; [reflexivity|]. split; [reflexivity|]. split; [constructor|]. split; [intros [|? ?] ? H; discriminate H|]. split; [|reflexivity].
      split; discriminate. }
    destruct (is_name_start c) eqn:EN; [|contradiction HE; reflexivity]. apply MODE; [reflexivity|]. split; [reflexivity|].
    split; [apply name_single, EN|reflexivity].
  - (* MName *)
    destruct HM as (-> & HN & ->). destruct (is_name_char c) eqn:EC.
    { apply MODE; [reflexivity|]. split; [reflexivity|]. cbn [rev]. split; [apply name_snoc; assumption|]. rewrite <- app_assoc. reflexivity. }
    destruct (is_ws c) eqn:EW.
    { apply MODE; [reflexivity|]. split; [reflexivity|]. apply spaced_of_head; [apply head_of_name, HN|exact EW]. }
    destruct (N.eqb_spec c 62) as [->|N62].
    { apply (OPEN _ _ ("<" ++ rev n)); auto. apply head_done_head, head_of_name, HN. }
    destruct (N.eqb_spec c 47) as [->|N47]; [|contradiction HE; reflexivity].
    apply (SLASH _ _ ("<" ++ rev n)); auto. apply head_done_head, head_of_name, HN.
  - (* MTag *)
    destruct HM as (-> & HN). destruct (is_ws c) eqn:EW.
    { apply MODE; [reflexivity|]. split; [reflexivity|]. apply spaced_of_head; assumption. }
    destruct (N.eqb_spec c 62) as [->|N62].
    { apply (OPEN _ _ mt); auto. apply head_done_head, HN. }
    destruct (N.eqb_spec c 47) as [->|N47]; [|contradiction HE; reflexivity].
    apply (SLASH _ _ mt); auto. apply head_done_head, HN.
  - (* MTagSp *)
    destruct HM as (-> & HN). destruct (is_ws c) eqn:EW.
    { apply (STAY (MTagSp n a)); [reflexivity|reflexivity|]. split; [reflexivity|]. apply spaced_snoc; assumption. }
    destruct (N.eqb_spec c 62) as [->|N62].
    { apply (OPEN _ _ mt); auto. apply head_done_spaced, HN. }
    destruct (N.eqb_spec c 47) as [->|N47].
    { apply (SLASH _ _ mt); auto. apply head_done_spaced, HN. }
    destruct (is_name_start c) eqn:EN; [|contradiction HE; reflexivity]. apply MODE; [reflexivity|]. split; [reflexivity|].
    exists mt. split; [exact HN|]. split; [apply name_single, EN|reflexivity].
  - (* MAttr *)
    destruct HM as (-> & h & HN & HK & ->). destruct (is_name_char c) eqn:EC.
    { apply MODE; [reflexivity|]. split; [reflexivity|]. exists h. cbn [rev]. split; [exact HN|]. split; [apply name_snoc; assumption|]. rewrite <- app_assoc. reflexivity. }
    destruct (N.eqb_spec c 61) as [->|N61].
    { apply MODE; [reflexivity|]. split; [reflexivity|]. exists h, [], []. repeat (split; [first [assumption|constructor]|]). rewrite <- app_assoc. reflexivity. }
    destruct (is_ws c) eqn:EW; [|contradiction HE; reflexivity]. apply MODE; [reflexivity|]. split; [reflexivity|].
    exists h, [c]. split; [exact HN|]. split; [exact HK|]. split; [constructor; [apply white_ok, EW|constructor]|]. rewrite <- app_assoc. reflexivity.
  - (* MAttrSp *)
    destruct HM as (-> & h & w & HN & HK & HW & ->). destruct (is_ws c) eqn:EW.
    { apply (STAY (MAttrSp n a k)); [reflexivity|reflexivity|]. split; [reflexivity|]. exists h, (w ++ [c]). split; [exact HN|]. split; [exact HK|].
      split; [apply white_snoc; assumption|]. rewrite <- !app_assoc. reflexivity. }
    destruct (N.eqb_spec c 61) as [->|N61]; [|contradiction HE; reflexivity].
    apply MODE; [reflexivity|]. split; [reflexivity|]. exists h, w, []. repeat (split; [first [assumption|constructor]|]). rewrite <- !app_assoc. reflexivity.
  - (* MEq *)
    destruct HM as (-> & h & w & w' & HN & HK & HW & HW' & ->). destruct (is_ws c) eqn:EW.
    { apply (STAY (MEq n a k)); [reflexivity|reflexivity|]. split; [reflexivity|]. exists h, w, (w' ++ [c]). split; [exact HN|]. split; [exact HK|].
      split; [exact HW|]. split; [apply white_snoc; assumption|]. rewrite <- !app_assoc. reflexivity. }
    destruct (N.eqb c 34 || N.eqb c 39) eqn:EQ; [|contradiction HE; reflexivity].
    apply MODE; [reflexivity|]. split; [reflexivity|]. exists h, w, w', []. split; [exact HN|]. split; [exact HK|]. split; [exact HW|]. split; [exact HW'|].
    split; [apply orb_prop in EQ; destruct EQ as [EQ|EQ]; apply N.eqb_eq in EQ; [left|right]; exact EQ|]. split; [constructor|]. rewrite <- !app_assoc. reflexivity.
  - (* MVal *)
    destruct HM as (-> & h & w & w' & s & HN & HK & HW & HW' & HQ & HV & ->). destruct (N.eqb_spec c q) as [->|NQ].
    { apply MODE; [reflexivity|]. split; [reflexivity|]. destruct HN as (h' & sp & -> & (att & -> & HN1 & HN2) & HSP1 & HSP2).
      exists (att ++ sp ++ k ++ w ++ "=" ++ w' ++ [q] ++ s ++ [q] ++ []). split; [rewrite <- !app_assoc; reflexivity|]. split; [exact HN1|].
      cbn [rev]. apply attributes_app; [exact HN2|]. apply attributes_cons; auto. constructor. }
    destruct (N.eqb_spec c 60) as [->|N60]; [contradiction HE; reflexivity|].
    destruct (N.eqb_spec c 38) as [->|N38].
    { apply MODE; [reflexivity|]. split; [reflexivity|]. exists h, w, w', s. repeat (split; [assumption|]). rewrite <- !app_assoc. reflexivity. }
    destruct (is_ws c) eqn:EW.
    { apply MODE; [reflexivity|]. split; [reflexivity|]. exists h, w, w', (s ++ [c]). repeat (split; [assumption|]). cbn [rev].
      split; [apply value_app; [exact HV|]; apply value_white; [apply white_ok, EW|constructor]|]. rewrite <- !app_assoc. reflexivity. }
    destruct (is_xml_char c) eqn:EX; [|contradiction HE; reflexivity].
    apply MODE; [reflexivity|]. split; [reflexivity|]. exists h, w, w', (s ++ [c]). repeat (split; [assumption|]). cbn [rev].
    split; [apply value_app; [exact HV|]; apply value_one; assumption|]. rewrite <- !app_assoc. reflexivity.
  - (* MValRef *)
    destruct HM as (-> & h & w & w' & s & HN & HK & HW & HW' & HQ & HV & ->). destruct (N.eqb_spec c 59) as [->|N59].
    + destruct (decode_ref (rev buf)) as [x|] eqn:ED; [|contradiction HE; reflexivity]. apply decode_ref_ok in ED.
      apply MODE; [reflexivity|]. split; [reflexivity|]. exists h, w, w', (s ++ "&" ++ rev buf ++ ";" ++ []). repeat (split; [assumption|]). cbn [rev].
      split; [apply value_app; [exact HV|]; apply value_reference; [exact ED|constructor]|]. rewrite <- !app_assoc. reflexivity.
    + destruct (is_name_char c || N.eqb c 35); [|contradiction HE; reflexivity]. apply MODE; [reflexivity|]. split; [reflexivity|].
      exists h, w, w', s. repeat (split; [assumption|]). cbn [rev]. rewrite <- !app_assoc. reflexivity.
  - (* MSlash *)
    destruct HM as (-> & h & w & (att & -> & HN & HA) & HW & ->). destruct (N.eqb_spec c 62) as [->|N62]; [|contradiction HE; reflexivity].
    assert (EL : element ("<" ++ n ++ att ++ w ++ "/>") (XElem n (rev a) [])) by (apply element_empty; assumption).
    apply (PUSH _ ("<" ++ n ++ att ++ w ++ "/>")); [reflexivity|rewrite <- !app_assoc; reflexivity|apply joined_first; discriminate|apply content_one_element, EL|].
    intros _. rewrite <- (app_nil_r ("<" ++ n ++ att ++ w ++ "/>")). apply mixed_element; [exact EL|constructor].
  - (* MClose *)
    destruct HM as (-> & HN & ->). destruct n as [|x n].
    + destruct (is_name_start c) eqn:EN; [|contradiction HE; reflexivity]. apply MODE; [reflexivity|]. split; [reflexivity|].
      split; [right; apply name_single, EN|reflexivity].
    + destruct HN as [HN|HN]; [discriminate|]. destruct (is_name_char c) eqn:EC.
      { apply MODE; [reflexivity|]. split; [reflexivity|]. split; [right; change (rev (c :: x :: n)) with (rev (x :: n) ++ [c]); apply name_snoc; assumption|].
        change (rev (c :: x :: n)) with (rev (x :: n) ++ [c]). rewrite <- app_assoc. reflexivity. }
      destruct (is_ws c) eqn:EW.
      { apply MODE; [reflexivity|]. split; [reflexivity|]. exists [c]. split; [exact HN|]. split; [constructor; [apply white_ok, EW|constructor]|].
        rewrite <- app_assoc. reflexivity. }
      destruct (N.eqb_spec c 62) as [->|N62]; [|contradiction HE; reflexivity].
      apply (CLOSE _ []); auto. rewrite app_nil_r. reflexivity.
  - (* MCloseSp *)
    destruct HM as (-> & w & HN & HW & ->). destruct (is_ws c) eqn:EW.
    { apply (STAY (MCloseSp n)); [reflexivity|reflexivity|]. split; [reflexivity|]. exists (w ++ [c]). split; [exact HN|].
      split; [apply white_snoc; assumption|]. rewrite <- !app_assoc. reflexivity. }
    destruct (N.eqb_spec c 62) as [->|N62]; [|contradiction HE; reflexivity]. apply (CLOSE n w); auto.
  - (* MBang *)
    destruct HM as (-> & ->). cbv zeta in *. destruct (str_eqb_spec (rev (c :: buf)) "--") as [E|_].
    { apply MODE; [reflexivity|]. split; [reflexivity|]. split; [split; [constructor|intros [|? [|? [|? ?]]] ? H; discriminate H]|]. split; [lia|].
      rewrite <- app_assoc. change (rev buf ++ [c]) with (rev (c :: buf)). rewrite E. reflexivity. }
    destruct (str_eqb_spec (rev (c :: buf)) "[CDATA[") as [E|_].
    { cbn [stk] in *. destruct st as [|f st]; [contradiction HE; reflexivity|]. apply MODE; [reflexivity|]. split; [discriminate|]. split; [lia|].
      exists []. split; [rewrite <- app_assoc; change (rev buf ++ [c]) with (rev (c :: buf)); rewrite E; reflexivity|].
      split; [split; [constructor|intros [|? ?] ? H; discriminate H]|]. split; [reflexivity|]. intros _ [|? ?] H; discriminate H. }
    destruct (_ || _); [|contradiction HE; reflexivity]. apply MODE; [reflexivity|]. split; [reflexivity|]. cbn [rev]. rewrite <- app_assoc. reflexivity.
  - (* MCom *)
    destruct HM as (-> & HC & HJ & ->). destruct (is_xml_char c) eqn:EX; [|contradiction HE; reflexivity]. cbn [negb] in *.
    destruct dashes as [|[|[|j]]]; [| | |lia].
    + destruct (N.eqb_spec c 45) as [->|N45].
      * apply MODE; [reflexivity|]. split; [reflexivity|]. split; [exact HC|]. split; [lia|]. rewrite <- !app_assoc. reflexivity.
      * apply MODE; [reflexivity|]. split; [reflexivity|]. cbn [rev]. split; [apply comment_snoc; auto; apply char_ok, EX|]. split; [lia|].
        cbn [repeat]. rewrite <- !app_assoc. reflexivity.
    + destruct (N.eqb_spec c 45) as [->|N45].
      * apply MODE; [reflexivity|]. split; [reflexivity|]. split; [exact HC|]. split; [lia|]. rewrite <- !app_assoc. reflexivity.
      * apply MODE; [reflexivity|]. split; [reflexivity|]. cbn [rev]. rewrite <- app_assoc. split; [apply comment_dash; auto; apply char_ok, EX|]. split; [lia|].
        cbn [repeat]. rewrite <- !app_assoc. reflexivity.
    + destruct (N.eqb_spec c 62) as [->|N62]; [|contradiction HE; reflexivity].
      apply (PUSH _ ("<!--" ++ rev acc ++ "-->" ++ [])); [reflexivity|rewrite <- !app_assoc; reflexivity|apply joined_first; discriminate|apply content_comment; [exact HC|constructor]|].
      intros _. apply mixed_comment; [exact HC|constructor].
  - (* MCdata *)
    destruct HM as (HN & HJ & s & -> & HC & -> & HL). destruct (is_xml_char c) eqn:EX; [|contradiction HE; reflexivity]. cbn [negb] in *.
    destruct (N.eqb_spec c 93) as [->|N93].
    + destruct brackets as [|[|[|j]]]; [| | |lia].
      * exists base, d0, ("<![CDATA[" ++ s ++ [93%N]). cbn [set_md stk done_ md mode_text]. split; [exact HS|]. split; [|rewrite <- !app_assoc; reflexivity].
        split; [exact HN|]. split; [lia|]. exists s. split; [reflexivity|]. split; [exact HC|]. split; [reflexivity|]. intros _. apply HL. lia.
      * exists base, d0, ("<![CDATA[" ++ s ++ [93%N; 93%N]). cbn [set_md stk done_ md mode_text]. split; [exact HS|]. split; [|rewrite <- !app_assoc; reflexivity].
        split; [exact HN|]. split; [lia|]. exists s. split; [reflexivity|]. split; [exact HC|]. split; [reflexivity|]. lia.
      * exists base, d0, ("<![CDATA[" ++ (s ++ [93%N]) ++ [93%N; 93%N]). cbn [stk done_ md mode_text cr]. split; [exact HS|]. split; [|rewrite <- !app_assoc; reflexivity].
        split; [exact HN|]. split; [lia|]. exists (s ++ [93%N]). split; [reflexivity|]. split; [|split; [rewrite map_app, rev_app_distr; reflexivity|lia]].
        destruct HC as (HC1 & HC2). split; [apply chars_snoc; assumption|]. apply absent_snoc; [exact HC2|].
        intros a E. change "]]>" with ([93%N; 93%N] ++ [62%N]) in E. rewrite app_assoc in E. apply app_inj_tail in E. destruct E. discriminate.
    + destruct (N.eqb c 62 && Nat.eqb brackets 2) eqn:EE.
      * apply andb_prop in EE. destruct EE as [E1 E2]. apply N.eqb_eq in E1. apply Nat.eqb_eq in E2. subst.
        exists ((base ++ "<![CDATA[" ++ s ++ repeat 93%N 2) ++ [62%N]), (rev (map XChar s) ++ d0), []. cbn [set_md stk done_ md mode_text].
        split; [|split; [split; reflexivity|rewrite app_nil_r; reflexivity]]. destruct st as [|[[n a] sib] st]; [contradiction|].
        inversion HS as [|? ? ? ? s0 att w t0 ? H1 H2 H3 H4 H5]; subst.
        replace (((s0 ++ ("<" ++ n ++ att ++ w ++ ">") ++ t0) ++ "<![CDATA[" ++ s ++ repeat 93%N 2) ++ [62%N])
          with (s0 ++ ("<" ++ n ++ att ++ w ++ ">") ++ (t0 ++ "<![CDATA[" ++ s ++ "]]>" ++ [])) by (rewrite app_nil_r, <- !app_assoc; reflexivity).
        apply stack_open; auto. rewrite rev_app_distr, rev_involutive. apply content_app; [exact H5|apply joined_first; discriminate|]. rewrite <- (app_nil_r (map XChar s)).
        apply content_cdata; [exact HC|constructor].
      * exists base, d0, ("<![CDATA[" ++ (s ++ repeat 93%N brackets ++ [c]) ++ []). cbn [set_md stk done_ md mode_text cr repeat]. split; [exact HS|].
        split; [|rewrite app_nil_r, <- !app_assoc; reflexivity]. split; [exact HN|]. split; [lia|]. exists (s ++ repeat 93%N brackets ++ [c]).
        split; [reflexivity|]. split.
        { apply cdata_snoc; auto. intros ->. cbn [N.eqb Pos.eqb andb] in EE. apply Nat.eqb_neq in EE. lia. }
        split.
        { rewrite !map_app, !rev_app_distr. cbn [map rev app]. f_equal. rewrite app_assoc. f_equal. f_equal. clear. induction brackets as [|j IH]; [reflexivity|].
          cbn [repeat map rev]. rewrite <- IH. symmetry. apply repeat_snoc. }
        intros _ s' E. rewrite app_assoc in E. apply app_inj_tail in E. destruct E. contradiction.
  - (* MPI *)
    destruct HM as (-> & H1 & H2 & H3 & ->). destruct (is_xml_char c) eqn:EX; [|contradiction HE; reflexivity]. cbn [negb] in *.
    destruct (quest && N.eqb c 62) eqn:EQ.
    + apply andb_prop in EQ. destruct EQ as [-> EQ]. apply N.eqb_eq in EQ. subst c. destruct acc as [|x acc]; [discriminate (proj1 H3 eq_refl)|].
      assert (x = 63%N) by (pose proof (proj1 H3 eq_refl) as G; cbn in G; congruence). subst x. cbn [tl] in *. cbn [rev] in *.
      assert (F1 : Forall char (rev acc)) by (apply Forall_app in H1; apply H1).
      assert (F2 : absent "?>" (rev acc)) by (apply absent_prefix in H2; exact H2).
      destruct (str_eqb_spec (pi_target (rev acc)) "xml") as [E|N].
      * cbn [stk done_] in *. destruct st as [|f st]; [|contradiction HE; reflexivity]. destruct d0; [|contradiction HE; reflexivity].
        inversion HS as [? ? HT|]; subst. cbn [rev] in HT. apply toplevel_empty in HT. subst base.
        exists ("<?" ++ rev acc ++ "?>"), [XPI (rev acc)], []. cbn [push stk done_ md mode_text cr]. split; [|split; [split; reflexivity|rewrite <- !app_assoc; reflexivity]].
        apply stack_top. exists ("<?" ++ rev acc ++ "?>"), [], [XPI (rev acc)], []. split; [rewrite app_nil_r; reflexivity|]. split; [reflexivity|]. split; [constructor|].
        right. exists (rev acc). auto.
      * destruct (is_name (pi_target (rev acc)) && negb (reserved (pi_target (rev acc)))) eqn:ET; [|contradiction HE; reflexivity].
        assert (HI : instruction (rev acc)) by (apply instruction_of; assumption).
        apply (PUSH _ ("<?" ++ rev acc ++ "?>" ++ [])); [reflexivity|rewrite <- !app_assoc; reflexivity|apply joined_first; discriminate|apply content_instruction; [exact HI|constructor]|].
        intros _. apply mixed_instruction; [exact HI|constructor].
    + apply MODE; [reflexivity|]. split; [reflexivity|]. cbn [rev]. split; [apply chars_snoc; assumption|]. split; [|split].
      * apply absent_snoc; [exact H2|]. intros a E. change "?>" with ([63%N] ++ [62%N]) in E. rewrite app_assoc in E. apply app_inj_tail in E. destruct E as [E ->].
        cbn [N.eqb Pos.eqb] in EQ. rewrite andb_true_r in EQ. subst quest.
        assert (G : hd_error acc = Some 63%N). { rewrite <- (rev_involutive acc), E, rev_app_distr. reflexivity. } apply H3 in G. discriminate.
      * cbn [hd_error]. rewrite N.eqb_eq. split; [intros ->; reflexivity|intros G; injection G; auto].
      * rewrite <- app_assoc. reflexivity.
  - contradiction HE. reflexivity.
Qed.
