(** GrammarProofs.v -- the reader of Xml.v follows the grammar of SpecXml.v *)
From Verif Require Import Base Xml DictProofs XmlProofs LineProofs SpecLines SpecXml.

(** ** Characters *)
Lemma in_ranges_dec l c : existsb (fun r => N.leb (fst r) c && N.leb c (snd r)) l = true <-> in_ranges l c.
Proof.
  rewrite existsb_exists. unfold in_ranges. split.
  - intros ((a & b) & H1 & H2). apply andb_prop in H2. destruct H2 as [H2 H3]. apply N.leb_le in H2, H3. exists a, b. auto.
  - intros (a & b & H1 & H2 & H3). exists (a, b). split; [exact H1|]. cbn [fst snd]. apply andb_true_intro. split; apply N.leb_le; assumption.
Qed.
Ltac ranges := rewrite <- in_ranges_dec; cbn [existsb fst snd app name_start_ranges];
  unfold is_name_char, is_name_start, is_xml_char, is_digit, between;
  rewrite ?orb_true_iff, ?andb_true_iff, ?N.leb_le, ?N.eqb_eq; cbn [app]; rewrite ?orb_true_iff, ?andb_true_iff, ?N.leb_le; lia.
Lemma char_ok c : is_xml_char c = true <-> char c.
Proof. unfold char. ranges. Qed.
Lemma name_start_ok c : is_name_start c = true <-> name_start c.
Proof. unfold name_start, name_start_ranges. ranges. Qed.
Lemma name_char_ok c : is_name_char c = true <-> name_char c.
Proof. unfold name_char, name_start_ranges. ranges. Qed.
Lemma white_ok c : is_ws c = true <-> white c.
Proof. unfold is_ws, white. cbn [In]. rewrite !orb_true_iff, !N.eqb_eq. intuition congruence. Qed.
Lemma forall_ok (f : N -> bool) (P : N -> Prop) s : (forall c, f c = true <-> P c) -> forallb f s = true <-> Forall P s.
Proof. intros H. rewrite forallb_forall, Forall_forall. split; intros G c Hc; apply H, G, Hc. Qed.
Lemma name_ok s : is_name s = true <-> name s.
Proof.
  unfold is_name, name. destruct s as [|c s].
  - split; [discriminate|]. intros (c & s' & H & _). discriminate H.
  - rewrite andb_true_iff, name_start_ok, (forall_ok _ _ _ name_char_ok). split.
    + intros [H1 H2]. exists c, s. auto.
    + intros (c' & s' & H & H1 & H2). injection H as -> ->. auto.
Qed.

(** ** References *)
Lemma dec_digit_ok c : is_digit c = true <-> exists d, decimal c d.
Proof.
  unfold is_digit, decimal. rewrite andb_true_iff, !N.leb_le. split.
  - intros H. exists (c - 48)%N. lia.
  - intros (d & H1 & H2). lia.
Qed.
Lemma dec_step n c : forall m, (if is_digit c then Some (n * 10 + (c - 48))%N else None) = Some m <-> exists d, decimal c d /\ m = (10 * n + d)%N.
Proof.
  intros m. unfold decimal. destruct (is_digit c) eqn:E.
  - apply dec_digit_ok in E. destruct E as (d & E & L). split.
    + intros H. injection H as <-. exists d. lia.
    + intros (d' & (H1 & H2) & ->). f_equal. lia.
  - split; [discriminate|]. intros (d & H & _). assert (X : is_digit c = true) by (apply dec_digit_ok; exists d; exact H). congruence.
Qed.
Lemma hex_digit_ok c d : hex_digit c = Some d <-> hexadecimal c d.
Proof.
  unfold hex_digit, hexadecimal, is_digit. destruct (N.leb_spec 48 c), (N.leb_spec c 57); cbn [andb].
  1: { split; [intros H1; injection H1 as <-; lia|intros H1; f_equal; lia]. }
  all: destruct (N.leb_spec 65 c), (N.leb_spec c 70); cbn [andb];
    try (split; [intros H3; injection H3 as <-; lia|intros H3; f_equal; lia]);
    destruct (N.leb_spec 97 c), (N.leb_spec c 102); cbn [andb];
    try (split; [intros H5; injection H5 as <-; lia|intros H5; f_equal; lia]); (split; [discriminate|lia]).
Qed.
Lemma number_snoc base digit s c m : number base digit (s ++ [c]) m <->
  (s = [] /\ digit c m \/ exists n d, number base digit s n /\ digit c d /\ m = (base * n + d)%N).
Proof.
  split.
  - remember (s ++ [c]) as w eqn:E. destruct 1 as [c' d H|s' n c' d H H'].
    + left. destruct s as [|x s]; [|destruct s; discriminate]. injection E as ->. auto.
    + right. apply app_inj_tail in E. destruct E as [-> ->]. eauto.
  - intros [(-> & H)|(n & d & H1 & H2 & ->)]; [apply number_one, H|apply number_more; assumption].
Qed.
Lemma number_nonempty base digit s n : number base digit s n -> s <> [].
Proof. destruct 1; [discriminate|]. destruct s; discriminate. Qed.
Lemma dec_val_ok s n : dec_val s = Some n <-> number 10 decimal s n.
Proof.
  set (f := fun acc c => match acc with Some n => if is_digit c then Some (n * 10 + (c - 48))%N else None | None => None end).
  assert (E : forall s, s <> [] -> dec_val s = fold_left f s (Some 0%N)) by (intros [|c s0] H; [contradiction|reflexivity]).
  revert n. induction s as [|c s IH] using rev_ind; intros n.
  { split; [discriminate|]. intros H. apply number_nonempty in H. contradiction. }
  rewrite E by (destruct s; discriminate). rewrite fold_left_app, number_snoc. cbn [fold_left].
  destruct s as [|c' s'].
  - cbn [fold_left f]. rewrite dec_step. split.
    + intros (d & H1 & H2). left. split; [reflexivity|]. replace n with d by lia. exact H1.
    + intros [(_ & H)|(m & d & H & _)]; [exists n; split; [exact H|lia]|]. apply number_nonempty in H. contradiction.
  - remember (c' :: s') as s eqn:ES. assert (NE : s <> []) by (subst s; discriminate). clear ES c' s'.
    rewrite <- E by exact NE. destruct (dec_val s) as [m|] eqn:EV; unfold f.
    + rewrite dec_step. split.
      * intros (d & H1 & H2). right. exists m, d. split; [apply IH; reflexivity|auto].
      * intros [(H & _)|(m' & d & H & H1 & H2)]; [contradiction|]. apply IH in H. injection H as <-. eauto.
    + split; [discriminate|]. intros [(H & _)|(m' & d & H & _)]; [contradiction|]. apply IH in H. discriminate.
Qed.
Lemma hex_val_ok s n : hex_val s = Some n <-> number 16 hexadecimal s n.
Proof.
  set (f := fun acc c => match acc, hex_digit c with Some n, Some d => Some (n * 16 + d)%N | _, _ => None end).
  assert (E : forall s, s <> [] -> hex_val s = fold_left f s (Some 0%N)) by (intros [|c s0] H; [contradiction|reflexivity]).
  assert (ST : forall n c m, f (Some n) c = Some m <-> exists d, hexadecimal c d /\ m = (16 * n + d)%N).
  { intros k c m. unfold f. destruct (hex_digit c) as [d|] eqn:ED.
    - apply hex_digit_ok in ED. split.
      + intros H. injection H as <-. exists d. split; [exact ED|lia].
      + intros (d' & H & ->). apply hex_digit_ok in H, ED. rewrite H in ED. injection ED as ->. f_equal. lia.
    - split; [discriminate|]. intros (d & H & _). apply hex_digit_ok in H. congruence. }
  revert n. induction s as [|c s IH] using rev_ind; intros n.
  { split; [discriminate|]. intros H. apply number_nonempty in H. contradiction. }
  rewrite E by (destruct s; discriminate). rewrite fold_left_app, number_snoc. cbn [fold_left].
  destruct s as [|c' s'].
  - cbn [fold_left]. rewrite ST. split.
    + intros (d & H1 & H2). left. split; [reflexivity|]. replace n with d by lia. exact H1.
    + intros [(_ & H)|(m & d & H & _)]; [exists n; split; [exact H|lia]|]. apply number_nonempty in H. contradiction.
  - remember (c' :: s') as s eqn:ES. assert (NE : s <> []) by (subst s; discriminate). clear ES c' s'.
    rewrite <- E by exact NE. destruct (hex_val s) as [m|] eqn:EV.
    + rewrite ST. split.
      * intros (d & H1 & H2). right. exists m, d. split; [apply IH; reflexivity|auto].
      * intros [(H & _)|(m' & d & H & H1 & H2)]; [contradiction|]. apply IH in H. injection H as <-. eauto.
    + split; [discriminate|]. intros [(H & _)|(m' & d & H & _)]; [contradiction|]. apply IH in H. discriminate.
Qed.
Definition dec_body (d : str) : option N :=
  match dec_val d with Some n => if is_xml_char n then Some n else None | None => None end.
Definition hex_body (d : str) : option N :=
  match hex_val d with Some n => if is_xml_char n then Some n else None | None => None end.
Lemma dec_body_ok d n : dec_body d = Some n <-> number 10 decimal d n /\ char n.
Proof.
  unfold dec_body. rewrite <- dec_val_ok, <- char_ok. destruct (dec_val d) as [m|].
  - destruct (is_xml_char m) eqn:E; split; try discriminate; intuition congruence.
  - intuition discriminate.
Qed.
Lemma hex_body_ok d n : hex_body d = Some n <-> number 16 hexadecimal d n /\ char n.
Proof.
  unfold hex_body. rewrite <- hex_val_ok, <- char_ok. destruct (hex_val d) as [m|].
  - destruct (is_xml_char m) eqn:E; split; try discriminate; intuition congruence.
  - intuition discriminate.
Qed.
Lemma number_digit base digit s n c : number base digit s n -> In c s -> exists d, digit c d.
Proof.
  induction 1 as [c' d H|s n c' d H IH H']; intros HI.
  - destruct HI as [<-|[]]. eauto.
  - apply in_app_iff in HI. destruct HI as [HI|[<-|[]]]; eauto.
Qed.
Lemma decode_ref_ok b c : decode_ref b = Some c <-> reference b c.
Proof.
  assert (P : decode_ref b =
    if str_eqb b "lt" then Some 60%N else if str_eqb b "gt" then Some 62%N else if str_eqb b "amp" then Some 38%N
    else if str_eqb b "quot" then Some 34%N else if str_eqb b "apos" then Some 39%N
    else match b with
         | x :: r => if N.eqb x 35 then match r with y :: h => if N.eqb y 120 then hex_body h else dec_body r | [] => dec_body r end else None
         | [] => None end).
  { unfold decode_ref. repeat match goal with |- (if ?x then _ else _) = _ => destruct x; [reflexivity|] end.
    destruct b as [|x r]; [reflexivity|]. destruct (N.eqb_spec x 35) as [->|NX].
    - destruct r as [|y h]; [reflexivity|]. destruct (N.eqb_spec y 120) as [->|NY]; [reflexivity|].
      destruct y as [|y]; [reflexivity|]. do 7 (try (destruct y as [y|y|]; try reflexivity)). contradiction NY; reflexivity.
    - destruct x as [|x]; [reflexivity|]. do 6 (try (destruct x as [x|x|]; try reflexivity)). contradiction NX; reflexivity. }
  rewrite P. clear P. split.
  - repeat match goal with |- (if str_eqb b ?x then _ else _) = _ -> _ =>
      destruct (str_eqb_spec b x) as [->|_]; [intros H; injection H as <-; constructor|] end.
    intros H. destruct b as [|x r]; [discriminate H|]. destruct (N.eqb_spec x 35) as [->|NX]; [|discriminate H].
    destruct r as [|y h]; [discriminate H|]. destruct (N.eqb_spec y 120) as [->|NY].
    + apply hex_body_ok in H. destruct H. apply (reference_hexadecimal h); assumption.
    + apply dec_body_ok in H. destruct H. apply (reference_decimal (y :: h)); assumption.
  - destruct 1 as [ | | | | |s n H1 H2|s n H1 H2]; try reflexivity.
    + change ("#" ++ s) with (35%N :: s). destruct s as [|y h]; [apply number_nonempty in H1; contradiction|].
      assert (NY : y <> 120%N).
      { destruct (number_digit _ _ _ _ y H1 (or_introl eq_refl)) as (d & E & L). lia. }
      cbn [str_eqb N.eqb Pos.eqb andb]. apply N.eqb_neq in NY. rewrite NY. apply dec_body_ok. auto.
    + change ("#x" ++ s) with (35%N :: 120%N :: s). cbn [str_eqb N.eqb Pos.eqb andb]. apply hex_body_ok. auto.
Qed.
Lemma reference_chars b c : reference b c -> forallb (fun x => is_name_char x || N.eqb x 35) b = true.
Proof.
  destruct 1 as [ | | | | |s n H1 H2|s n H1 H2]; try reflexivity.
  - cbn [app forallb]. change (is_name_char 35 || N.eqb 35 35) with true. cbn [andb].
    apply forallb_forall. intros x Hx. destruct (number_digit _ _ _ _ x H1 Hx) as (d & E & L).
    apply orb_true_intro. left. unfold is_name_char, is_digit. rewrite !orb_true_iff, andb_true_iff, !N.leb_le. lia.
  - change ("#x" ++ s) with (35%N :: 120%N :: s). cbn [forallb]. change (is_name_char 35 || N.eqb 35 35) with true.
    change (is_name_char 120 || N.eqb 120 35) with true. cbn [andb].
    apply forallb_forall. intros x Hx. destruct (number_digit _ _ _ _ x H1 Hx) as (d & E).
    apply orb_true_intro. left. unfold is_name_char, is_name_start, is_digit, between. rewrite !orb_true_iff, !andb_true_iff, !N.leb_le.
    unfold hexadecimal in E. lia.
Qed.
