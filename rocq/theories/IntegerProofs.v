(** IntegerProofs.v -- int() reads the texts of SpecInteger *)
From Verif Require Import Base SpecInteger.

(** ** Digits *)
Lemma zeros_apart : forallb (fun a => forallb (fun b => N.eqb a b || N.ltb (a + 9) b || N.ltb (b + 9) a) zeros) zeros = true.
Proof. vm_compute. reflexivity. Qed.
Lemma digit_value_spec c d : digit_value c = Some d <-> digit_of c d.
Proof.
  unfold digit_value, digit_of. change digit_zeros with zeros. pose proof zeros_apart as ZA. rewrite forallb_forall in ZA.
  assert (U : forall a b, In a zeros -> In b zeros -> (a <= c <= a + 9)%N -> (b <= c <= b + 9)%N -> a = b).
  { intros a b HA HB CA CB. specialize (ZA a HA). rewrite forallb_forall in ZA. specialize (ZA b HB).
    apply orb_true_iff in ZA. destruct ZA as [ZA|ZA]; [apply orb_true_iff in ZA; destruct ZA as [ZA|ZA]|].
    - apply N.eqb_eq, ZA.
    - apply N.ltb_lt in ZA. lia.
    - apply N.ltb_lt in ZA. lia. }
  destruct (find (fun z => N.leb z c && N.leb c (z + 9)) zeros) as [z|] eqn:E; cbn [option_map].
  - apply find_some in E. destruct E as [HI HC]. rewrite andb_true_iff, !N.leb_le in HC. split.
    + intros H. injection H as <-. exists z. split; [exact HI|]. lia.
    + intros (z' & HI' & -> & HD). rewrite (U z z' HI HI') by lia. f_equal. lia.
  - split; [discriminate|]. intros (z & HI & -> & HD). pose proof (find_none _ _ E z HI) as HN. cbn beta in HN.
    rewrite (proj2 (N.leb_le _ _)) in HN by lia. rewrite (proj2 (N.leb_le _ _)) in HN by lia. discriminate.
Qed.
Lemma is_decimal_spec c : is_decimal c = true <-> exists d, digit_of c d.
Proof.
  unfold is_decimal. destruct (digit_value c) as [d|] eqn:E.
  - split; [intros _; exists d; apply digit_value_spec, E|reflexivity].
  - split; [discriminate|]. intros (d & H). apply digit_value_spec in H. congruence.
Qed.
Lemma digit_facts c d : digit_of c d -> int_space c = false /\ c <> 45%N /\ c <> 43%N /\ c <> 95%N /\ c <> 46%N /\ c <> 10%N.
Proof.
  intros (z & HI & -> & HD).
  assert (K : forallb (fun z => forallb (fun d => negb (int_space (z + d)) && negb (existsb (N.eqb (z + d)) [45; 43; 95; 46; 10])) [0; 1; 2; 3; 4; 5; 6; 7; 8; 9])%N zeros = true) by (vm_compute; reflexivity).
  rewrite forallb_forall in K. specialize (K z HI). rewrite forallb_forall in K.
  assert (HI' : In d [0; 1; 2; 3; 4; 5; 6; 7; 8; 9]%N).
  { assert (E : d = N.of_nat (N.to_nat d)) by lia. assert (L : (N.to_nat d < 10)%nat) by lia. rewrite E.
    generalize dependent (N.to_nat d). intros k _ L. do 10 (destruct k as [|k]; [cbn; tauto|]). lia. }
  specialize (K d HI'). apply andb_prop in K. destruct K as [K1 K2]. apply negb_true_iff in K1, K2. split; [exact K1|].
  assert (Q : forall x, In x [45; 43; 95; 46; 10]%N -> (z + d)%N <> x).
  { intros x HX E. assert (existsb (N.eqb (z + d)) [45; 43; 95; 46; 10]%N = true); [|congruence]. apply existsb_exists. exists x. split; [exact HX|]. apply N.eqb_eq, E. }
  repeat split; apply Q; cbn; tauto.
Qed.

(** ** A number, from left to right *)
Inductive goes_on : bool -> str -> N -> N -> Prop :=
| goes_nil a : goes_on true [] a a
| goes_digit b c d s a n : digit_of c d -> goes_on true s (a * 10 + d) n -> goes_on b (c :: s) a n
| goes_under c d s a n : digit_of c d -> goes_on true s (a * 10 + d) n -> goes_on true (95%N :: c :: s) a n.
Lemma int_digits_spec s : forall a b n, int_digits s a b = Some n <-> goes_on b s a n.
Proof.
  induction s as [|c s IH]; intros a b n; cbn [int_digits].
  - destruct b; split; intros H; try discriminate; [injection H as <-; constructor|inversion H; reflexivity|inversion H].
  - destruct (digit_value c) as [v|] eqn:E.
    + rewrite IH. apply digit_value_spec in E. split; intros H; [econstructor; eassumption|]. inversion H as [|? ? d ? ? ? HD HG|c' d s' ? ? HD HG]; subst.
      * apply digit_value_spec in HD, E. assert (d = v) by congruence. subst. exact HG.
      * apply digit_facts in E. destruct E as (_ & _ & _ & E & _). congruence.
    + destruct (N.eqb_spec c 95) as [->|N]; cbn [andb].
      * destruct b.
        -- destruct s as [|d s].
           ++ split; [discriminate|]. intros H. inversion H as [|? ? ? ? ? ? HD HG|]; subst. apply digit_value_spec in HD. congruence.
           ++ destruct (is_decimal d) eqn:ED.
              ** rewrite IH. split; intros H.
                 --- inversion H as [|? ? v ? ? ? HD HG|]; subst. econstructor; eassumption.
                 --- inversion H as [|? ? v ? ? ? HD HG|c' v s' ? ? HD HG]; subst; [apply digit_value_spec in HD; congruence|]. econstructor; eassumption.
              ** split; [discriminate|]. intros H. inversion H as [|? ? v ? ? ? HD HG|c' v s' ? ? HD HG]; subst; [apply digit_value_spec in HD; congruence|].
                 assert (is_decimal d = true) by (apply is_decimal_spec; eauto). congruence.
        -- split; [discriminate|]. intros H. inversion H as [|? ? v ? ? ? HD HG|]; subst. apply digit_value_spec in HD. congruence.
      * split; [discriminate|]. intros H. inversion H as [|? ? v ? ? ? HD HG|]; subst; [apply digit_value_spec in HD; congruence|congruence].
Qed.
Lemma goes_snoc b s a n : goes_on b s a n -> forall c d, digit_of c d -> s <> [] \/ b = true -> goes_on b (s ++ [c]) a (n * 10 + d) /\ goes_on b (s ++ [95%N; c]) a (n * 10 + d).
Proof.
  induction 1 as [a|b c0 d0 s a n HD HG IH|c0 d0 s a n HD HG IH]; intros c d HC _; cbn [app].
  - split; [eapply goes_digit; [exact HC|constructor]|eapply goes_under; [exact HC|constructor]].
  - destruct (IH c d HC (or_intror eq_refl)) as [I1 I2]. split; eapply goes_digit; eassumption.
  - destruct (IH c d HC (or_intror eq_refl)) as [I1 I2]. split; eapply goes_under; eassumption.
Qed.
Lemma digits_nonempty s n : digits_of s n -> s <> [].
Proof. destruct 1; [discriminate|destruct s; discriminate..]. Qed.
Lemma digits_goes s n : digits_of s n <-> goes_on false s 0 n.
Proof.
  split.
  - induction 1 as [c d H|s n c d HS IH H|s n c d HS IH H].
    + replace d with (0 * 10 + d)%N at 2 by lia. econstructor; [exact H|]. constructor.
    + replace (10 * n + d)%N with (n * 10 + d)%N by lia. apply (goes_snoc _ _ _ _ IH c d H). left. apply (digits_nonempty _ _ HS).
    + replace (10 * n + d)%N with (n * 10 + d)%N by lia. apply (goes_snoc _ _ _ _ IH c d H). left. apply (digits_nonempty _ _ HS).
  - assert (G : forall b s a n, goes_on b s a n -> b = true -> forall p, digits_of p a -> digits_of (p ++ s) n).
    { induction 1 as [a|b c0 d0 s0 a m HD HG IH|c0 d0 s0 a m HD HG IH]; intros HB p HP.
      - rewrite app_nil_r. exact HP.
      - change (p ++ c0 :: s0) with (p ++ [c0] ++ s0). rewrite app_assoc. apply IH; [reflexivity|]. replace (a * 10 + d0)%N with (10 * a + d0)%N by lia. constructor; assumption.
      - change (p ++ 95%N :: c0 :: s0) with (p ++ ("_" ++ [c0]) ++ s0). rewrite app_assoc. apply IH; [reflexivity|]. replace (a * 10 + d0)%N with (10 * a + d0)%N by lia. constructor; assumption. }
    intros H. inversion H as [|? c d s' ? ? HD HG|]; subst. apply (G _ _ _ _ HG eq_refl [c]). replace (0 * 10 + d)%N with d by lia. constructor. exact HD.
Qed.

(** ** Blanks *)
Lemma int_space_spec c : int_space c = true <-> int_blank c.
Proof.
  unfold int_blank. split.
  - unfold int_space, py_space. rewrite andb_true_iff, !orb_true_iff, !andb_true_iff, negb_true_iff, !N.leb_le, !N.eqb_eq. intros [H HN].
    assert (K : (c = 28 \/ c = 29 \/ c = 30 \/ c = 31 -> False)%N).
    { intros K. assert (N.leb 28 c && N.leb c 31 = true); [|congruence]. rewrite andb_true_iff, !N.leb_le. lia. }
    assert (L : (c = 9 \/ c = 10 \/ c = 11 \/ c = 12 \/ c = 13 \/ c = 32 \/ c = 133 \/ c = 160 \/ c = 5760 \/ c = 8192 \/ c = 8193 \/ c = 8194 \/ c = 8195 \/ c = 8196
      \/ c = 8197 \/ c = 8198 \/ c = 8199 \/ c = 8200 \/ c = 8201 \/ c = 8202 \/ c = 8232 \/ c = 8233 \/ c = 8239 \/ c = 8287 \/ c = 12288)%N) by lia.
    clear -L. cbn [In]. repeat (destruct L as [->|L]; [repeat (first [left; reflexivity|right])|]). rewrite L. repeat (first [left; reflexivity|right]).
  - intros H. cbn [In] in H. repeat (destruct H as [<-|H]; [vm_compute; reflexivity|]). destruct H.
Qed.
Lemma drop_split s : exists a, s = a ++ drop_blanks s /\ Forall int_blank a.
Proof.
  induction s as [|c s (a & E & H)]; cbn [drop_blanks]; [exists []; split; [reflexivity|constructor]|].
  destruct (int_space c) eqn:ES; [|exists []; split; [reflexivity|constructor]]. exists (c :: a). split; [cbn [app]; congruence|]. constructor; [apply int_space_spec, ES|exact H].
Qed.
Lemma drop_over a s : Forall int_blank a -> match s with c :: _ => int_space c = false | [] => True end -> drop_blanks (a ++ s) = s.
Proof.
  intros H HS. induction H as [|c a HC _ IH]; cbn [app drop_blanks].
  - destruct s as [|c s]; [reflexivity|]. cbn [drop_blanks]. rewrite HS. reflexivity.
  - rewrite (proj2 (int_space_spec c) HC). exact IH.
Qed.
Lemma digits_last s n : digits_of s n -> exists r c d, s = r ++ [c] /\ digit_of c d.
Proof.
  destruct 1 as [c d H|s n c d HS H|s n c d HS H].
  - exists [], c, d. auto.
  - exists s, c, d. auto.
  - exists (s ++ "_"), c, d. rewrite <- app_assoc. auto.
Qed.
Lemma digits_head s n : digits_of s n -> exists c d r, s = c :: r /\ digit_of c d.
Proof.
  induction 1 as [c d H|s n c d HS (c' & d' & r & -> & IH) H|s n c d HS (c' & d' & r & -> & IH) H]; [exists c, d, []; auto|exists c', d'; eexists; split; [reflexivity|exact IH]..].
Qed.

Theorem int_spec s z : py_int s = Some z <-> integer_text s z.
Proof.
  unfold py_int, integer_text. split.
  - destruct (drop_split s) as (a & EA & HA). destruct (drop_split (rev (drop_blanks s))) as (b & EB & HB).
    remember (rev (drop_blanks (rev (drop_blanks s)))) as core eqn:EC.
    assert (ES : s = a ++ core ++ rev b).
    { rewrite EA at 1. f_equal. rewrite EC, <- rev_app_distr, <- EB, rev_involutive. reflexivity. }
    apply Forall_rev in HB. clear EA EB EC. destruct core as [|c core]; [discriminate|].
    assert (G : forall sg w, c :: core = sg ++ w -> forall n, int_digits w 0 false = Some n -> signed sg n z ->
      exists before sign digits after n, s = before ++ sign ++ digits ++ after /\ Forall int_blank before /\ Forall int_blank after /\ digits_of digits n /\ signed sign n z).
    { intros sg w E n HN HS. exists a, sg, w, (rev b), n. split; [rewrite ES, E, <- app_assoc; reflexivity|]. split; [exact HA|]. split; [exact HB|]. split; [apply digits_goes, int_digits_spec, HN|exact HS]. }
    destruct (N.eqb_spec c 45) as [->|N1]; [|destruct (N.eqb_spec c 43) as [->|N2]].
    + destruct (int_digits core 0 false) as [n|] eqn:E; [|discriminate]. cbn [option_map]. intros H. injection H as <-. apply (G "-" core eq_refl n E). constructor.
    + destruct (int_digits core 0 false) as [n|] eqn:E; [|discriminate]. cbn [option_map]. intros H. injection H as <-. apply (G "+" core eq_refl n E). constructor.
    + destruct (int_digits (c :: core) 0 false) as [n|] eqn:E; [|discriminate]. cbn [option_map]. intros H. injection H as <-. apply (G [] (c :: core) eq_refl n E). constructor.
  - intros (a & sg & w & b & n & -> & HA & HB & HD & HS).
    destruct (digits_last _ _ HD) as (r & l & dl & EL & HL). destruct (digits_head _ _ HD) as (h & dh & t & EH & HH).
    assert (NH : match sg ++ w with c :: _ => int_space c = false | [] => True end).
    { destruct HS; cbn [app]; [|reflexivity..]. rewrite EH. apply (digit_facts _ _ HH). }
    assert (E1 : drop_blanks (a ++ sg ++ w ++ b) = sg ++ w ++ b).
    { apply drop_over; [exact HA|]. destruct (sg ++ w) as [|c x] eqn:E; [apply (f_equal (@length N)) in E; rewrite app_length, EH in E; cbn in E; lia|].
      rewrite app_assoc, E. exact NH. }
    assert (E2 : rev (drop_blanks (rev (sg ++ w ++ b))) = sg ++ w).
    { rewrite app_assoc, rev_app_distr. rewrite drop_over; [apply rev_involutive|apply Forall_rev, HB|]. rewrite rev_app_distr, EL, rev_app_distr. cbn [rev app]. apply (digit_facts _ _ HL). }
    rewrite E1, E2. apply digits_goes, int_digits_spec in HD. destruct HS; cbn [app].
    + rewrite EH in *. destruct (digit_facts _ _ HH) as (_ & N1 & N2 & _). apply N.eqb_neq in N1, N2. rewrite N1, N2, HD. reflexivity.
    + change (N.eqb 43 45) with false. change (N.eqb 43 43) with true. cbv iota. rewrite HD. reflexivity.
    + change (N.eqb 45 45) with true. cbv iota. rewrite HD. reflexivity.
Qed.
Lemma ascii_digit c : is_digit c = true -> digit_of c (c - 48).
Proof. unfold is_digit. rewrite andb_true_iff, !N.leb_le. intros H. exists 48%N. split; [left; reflexivity|]. lia. Qed.
Lemma ascii_decimal c : is_digit c = true -> digit_value c = Some (c - 48)%N.
Proof. intros H. apply digit_value_spec, ascii_digit, H. Qed.
(** str() writes the numeral *)
Lemma dec_numeral fuel : forall n acc m, (N.size n < N.of_nat fuel)%N ->
  (forall s, numeral s n -> numeral (s ++ acc) m) -> numeral (dec_digits fuel n acc) m.
Proof.
  induction fuel as [|f IH]; intros n acc m HF H; [lia|]. cbn [dec_digits].
  assert (L : (n mod 10 < 10)%N) by (apply N.mod_lt; discriminate).
  destruct (N.eqb_spec (n / 10) 0) as [E|E].
  - apply (H [_]). assert (EN : n = (n mod 10)%N) by (rewrite N.mod_small; [reflexivity|]; apply N.div_small_iff in E; [exact E|discriminate]).
    rewrite EN at 2. constructor. exact L.
  - apply IH.
    + assert (L2 : (n / 10 <= n / 2)%N) by (apply N.div_le_compat_l; lia).
      assert (S2 : (N.size (n / 10) <= N.size (n / 2))%N).
      { destruct (n / 10)%N as [|p] eqn:Q; [apply N.le_0_l|]. rewrite !N.size_log2 by (destruct (n / 2)%N; [lia|discriminate] || discriminate).
        apply -> N.succ_le_mono. apply N.log2_le_mono. exact L2. }
      assert (S3 : (N.succ (N.size (n / 2)) <= N.size n)%N).
      { destruct n as [|p]; [destruct E; reflexivity|]. rewrite <- N.div2_div. destruct p as [q|q|]; cbn -[N.add]; lia. }
      lia.
    + intros s HS. specialize (H (s ++ [48 + n mod 10]%N)). rewrite <- app_assoc in H. apply H.
      rewrite (N.div_mod n 10) at 2 by discriminate. apply numeral_more; assumption.
Qed.
Lemma str_of_N_numeral n : numeral (str_of_N n) n.
Proof. unfold str_of_N. apply dec_numeral; [lia|]. intros s H. rewrite app_nil_r. exact H. Qed.
Lemma numeral_written s n : numeral s n -> forall t m, numeral t m -> m = n -> t = s.
Proof.
  induction 1 as [d H|s n d H IH HN HD]; intros t m K; destruct K as [e He|t k e Ht Hk He]; intros EQ.
  - subst e. reflexivity.
  - lia.
  - lia.
  - assert (k = n) by lia. assert (e = d) by lia. subst k e. rewrite (IH t n Ht eq_refl). reflexivity.
Qed.
