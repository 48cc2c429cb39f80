(** XmlChars.v -- a text that the reader accepts consists of XML characters, so
    that it can be encoded in UTF-8 *)
From Verif Require Import Base Xml Utf8 DictProofs Utf8Proofs.

Lemma between_spec a b c : between a b c = true <-> (a <= c <= b)%N.
Proof. unfold between. rewrite andb_true_iff, !N.leb_le. reflexivity. Qed.
Lemma name_xml c : is_name_char c = true -> is_xml_char c = true.
Proof.
  unfold is_name_char, is_name_start, is_digit, is_xml_char.
  rewrite ?orb_true_iff, ?between_spec, ?andb_true_iff, ?N.leb_le, ?N.eqb_eq. intros H.
  repeat match type of H with _ \/ _ => destruct H as [H|H] end; lia.
Qed.
Lemma prefix_in p s c : starts_with p s = true -> In c p -> In c s.
Proof.
  revert s. induction p as [|x p IH]; intros s H HI; [destruct HI|]. destruct s as [|y s]; [discriminate|].
  cbn in H. apply andb_prop in H. destruct H as [H1 H2]. apply N.eqb_eq in H1. subst y.
  destruct HI as [->|HI]; [left; reflexivity|right; apply IH; assumption].
Qed.
(** attribute values are delimited by quotes *)
Definition quoted (m : mode) : Prop :=
  match m with MVal _ _ _ q _ | MValRef _ _ _ q _ _ => is_xml_char q = true | _ => True end.
Lemma quoted_step1 st c : quoted (md st) -> quoted (md (step1 st c)).
Proof.
  intros H. unfold step1. destruct (md st) eqn:M; cbn [quoted] in H.
  all: repeat match goal with
    | |- quoted (md (if ?b then _ else _)) => let E := fresh "E" in destruct b eqn:E
    | |- quoted (md (let b := _ in _)) => cbv zeta
    | |- quoted (md (match ?x with _ => _ end)) => lazymatch type of x with conf => fail | _ => destruct x end
    | |- quoted (md (close_elem _ _)) => unfold close_elem
    end; try exact I; try exact H; try (rewrite M; exact H); try (rewrite M; exact I).
  - cbn. apply orb_prop in E0. destruct E0 as [E0|E0]; apply N.eqb_eq in E0; subst c; reflexivity.
Qed.
Lemma other_err st c : quoted (md st) -> is_xml_char c = false -> md (step1 st c) = MErr.
Proof.
  intros HQ HX.
  assert (HN : is_name_char c = false) by (destruct (is_name_char c) eqn:E; [apply name_xml in E; congruence|reflexivity]).
  assert (HS : is_name_start c = false) by (destruct (is_name_start c) eqn:E; [unfold is_name_char in HN; rewrite E in HN; discriminate|reflexivity]).
  assert (HL : forall k, is_xml_char k = true -> N.eqb c k = false) by (intros k Hk; apply N.eqb_neq; intros ->; congruence).
  assert (HW : is_ws c = false) by (unfold is_ws; rewrite !HL by reflexivity; reflexivity).
  assert (HB : forall buf s, forallb is_xml_char s = true -> starts_with (rev (c :: buf)) s = false).
  { intros buf s H. destruct (starts_with (rev (c :: buf)) s) eqn:E; [|reflexivity]. exfalso.
    apply (prefix_in _ _ c) in E; [|rewrite <- in_rev; left; reflexivity]. rewrite forallb_forall in H. specialize (H _ E). congruence. }
  assert (HE : forall buf s, forallb is_xml_char s = true -> str_eqb (rev (c :: buf)) s = false).
  { intros buf s H. destruct (str_eqb (rev (c :: buf)) s) eqn:E; [|reflexivity]. exfalso. apply str_eqb_eq in E.
    assert (HI : In c s) by (rewrite <- E, <- in_rev; left; reflexivity). rewrite forallb_forall in H. specialize (H _ HI). congruence. }
  unfold step1. destruct (md st) eqn:M; rewrite ?HX, ?HN, ?HS, ?HW, ?(HL 60%N), ?(HL 38%N), ?(HL 59%N), ?(HL 47%N), ?(HL 33%N), ?(HL 63%N), ?(HL 62%N), ?(HL 61%N), ?(HL 34%N), ?(HL 39%N), ?(HL 35%N) by reflexivity; cbn [negb orb]; try reflexivity.
  - cbn [quoted] in HQ. rewrite HL by exact HQ. reflexivity.
  - destruct n; reflexivity.
  - cbv zeta. rewrite !HE, !HB by reflexivity. reflexivity.
  - exact M.
Qed.
Lemma run_err s : forall st, md st = MErr -> md (run st s) = MErr.
Proof.
  induction s as [|c s IH]; intros st H; [exact H|]. change (run st (c :: s)) with (run (step st c) s). apply IH.
  unfold step. destruct (cr st && N.eqb c 10); [exact H|]. destruct (N.eqb c 13); unfold step1; cbn [md]; rewrite H; reflexivity.
Qed.
Lemma run_xml s : forall st, quoted (md st) -> md (run st s) <> MErr -> forallb is_xml_char s = true.
Proof.
  induction s as [|c s IH]; intros st HQ H; [reflexivity|]. change (run st (c :: s)) with (run (step st c) s) in H. cbn [forallb].
  destruct (is_xml_char c) eqn:E.
  - apply (IH (step st c)); [|exact H]. unfold step. destruct (cr st && N.eqb c 10); [exact HQ|]. destruct (N.eqb c 13); apply quoted_step1; exact HQ.
  - exfalso. apply H, run_err. unfold step. destruct (N.eqb_spec c 10) as [->|_]; [discriminate|]. rewrite andb_false_r.
    destruct (N.eqb_spec c 13) as [->|_]; [discriminate|]. apply other_err; [exact HQ|exact E].
Qed.
Theorem read_text_xml s d : read_text s = Some d -> forallb is_xml_char s = true.
Proof.
  unfold read_text. intros H.
  assert (HX : forallb is_xml_char (skip_bom s) = true).
  { apply (run_xml _ init); [exact I|]. intros E. unfold finish in H. rewrite E in H. discriminate. }
  unfold skip_bom in HX. destruct s as [|c s]; [reflexivity|].
  destruct (N.eqb c 65279) eqn:E; [apply N.eqb_eq in E; subst c; exact HX|].
  repeat (match type of HX with context [match ?p with _ => _ end] => is_var p; destruct p; try exact HX end).
Qed.
Lemma xml_scalar c : is_xml_char c = true -> is_scalar c = true.
Proof.
  unfold is_xml_char. rewrite is_scalar_spec, ?orb_true_iff, ?andb_true_iff, ?N.leb_le, ?N.eqb_eq. intros H.
  repeat match type of H with _ \/ _ => destruct H as [H|H] end; lia.
Qed.
Lemma etree_parse_xml s d : etree_parse s = Some d -> exists raw, utf8_encode s = Some raw.
Proof.
  unfold etree_parse. destruct (read_text s) as [x|] eqn:E; [|discriminate]. intros _. apply read_text_xml in E.
  unfold utf8_encode. enough (forallb is_scalar s = true) as -> by eauto. rewrite forallb_forall in *. intros c Hc. apply xml_scalar, E, Hc.
Qed.
