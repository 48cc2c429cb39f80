(** Utf8Proofs.v -- decoding inverts encoding and conversely *)
From Verif Require Import Base Xml Utf8.
From Coq Require Import Lia.
Local Ltac Zify.zify_post_hook ::= Z.to_euclidean_division_equations.

Local Ltac bl := repeat match goal with |- context [N.leb ?a ?b] => destruct (N.leb_spec a b) end; cbn; try reflexivity; lia.
Lemma is_scalar_spec c : is_scalar c = true <-> (c < 55296 \/ 57344 <= c <= 1114111)%N.
Proof. unfold is_scalar. rewrite orb_true_iff, andb_true_iff, N.ltb_lt, !N.leb_le. reflexivity. Qed.
Lemma decode_char c r : is_scalar c = true -> utf8_decode (enc_char c ++ r) = option_map (cons c) (utf8_decode r).
Proof.
  intros H. apply is_scalar_spec in H.
  unfold enc_char.
  destruct (N.ltb_spec c 128) as [H1|H1]; [|destruct (N.ltb_spec c 2048) as [H2|H2]; [|destruct (N.ltb_spec c 65536) as [H3|H3]]].
  - cbn [app utf8_decode]. destruct (N.ltb_spec c 128); [reflexivity|lia].
  - cbn [app]. remember (192 + c / 64)%N as b0 eqn:E_b0. remember (128 + c mod 64)%N as b1 eqn:E_b1. 
    assert (B0 : (194 <= b0 <= 223)%N) by (split; lia). assert (B1 : (128 <= b1 <= 191)%N) by (split; lia).
    assert (E : ((b0 - 192) * 64 + (b1 - 128) = c)%N) by lia.
    cbn [utf8_decode]. destruct (N.ltb_spec b0 128); [lia|].
    replace (N.leb 194 b0 && N.leb b0 223) with true by bl.
    replace (is_cont b1) with true by (unfold is_cont; bl). rewrite E. reflexivity.
  - cbn [app]. remember (224 + c / 4096)%N as b0 eqn:E_b0. remember (128 + (c / 64) mod 64)%N as b1 eqn:E_b1. remember (128 + c mod 64)%N as b2 eqn:E_b2. 
    assert (B0 : (224 <= b0 <= 239)%N) by (split; lia). assert (B1 : (128 <= b1 <= 191)%N) by (split; lia).
    assert (B2 : (128 <= b2 <= 191)%N) by (split; lia).
    assert (E : ((b0 - 224) * 4096 + (b1 - 128) * 64 + (b2 - 128) = c)%N) by lia.
    cbn [utf8_decode]. destruct (N.ltb_spec b0 128); [lia|].
    replace (N.leb 194 b0 && N.leb b0 223) with false by bl.
    replace (N.leb 224 b0 && N.leb b0 239) with true by bl.
    cbv zeta. rewrite E. replace (is_cont b1) with true by (unfold is_cont; bl).
    replace (is_cont b2) with true by (unfold is_cont; bl). replace (N.leb 2048 c) with true by bl.
    rewrite (proj2 (is_scalar_spec c) H). reflexivity.
  - cbn [app]. remember (240 + c / 262144)%N as b0 eqn:E_b0. remember (128 + (c / 4096) mod 64)%N as b1 eqn:E_b1. 
    remember (128 + (c / 64) mod 64)%N as b2 eqn:E_b2. remember (128 + c mod 64)%N as b3 eqn:E_b3. 
    assert (HC : (c <= 1114111)%N) by lia.
    assert (B0 : (240 <= b0 <= 244)%N) by (split; lia). assert (B1 : (128 <= b1 <= 191)%N) by (split; lia).
    assert (B2 : (128 <= b2 <= 191)%N) by (split; lia). assert (B3 : (128 <= b3 <= 191)%N) by (split; lia).
    assert (E : ((b0 - 240) * 262144 + (b1 - 128) * 4096 + (b2 - 128) * 64 + (b3 - 128) = c)%N) by lia.
    cbn [utf8_decode]. destruct (N.ltb_spec b0 128); [lia|].
    replace (N.leb 194 b0 && N.leb b0 223) with false by bl.
    replace (N.leb 224 b0 && N.leb b0 239) with false by bl.
    replace (N.leb 240 b0 && N.leb b0 244) with true by bl.
    cbv zeta. rewrite E. replace (is_cont b1) with true by (unfold is_cont; bl).
    replace (is_cont b2) with true by (unfold is_cont; bl). replace (is_cont b3) with true by (unfold is_cont; bl).
    replace (N.leb 65536 c) with true by bl. rewrite (proj2 (is_scalar_spec c) H). reflexivity.
Qed.
Lemma decode_encode s raw : utf8_encode s = Some raw -> utf8_decode raw = Some s.
Proof.
  unfold utf8_encode. destruct (forallb is_scalar s) eqn:F; [|discriminate]. intros H. injection H as <-.
  induction s as [|c s IH]; [reflexivity|]. cbn [forallb flat_map] in *. apply andb_true_iff in F. destruct F as [F1 F2].
  rewrite decode_char by exact F1. rewrite IH by exact F2. reflexivity.
Qed.
Lemma cont_spec b : is_cont b = true <-> (128 <= b <= 191)%N.
Proof. unfold is_cont. rewrite andb_true_iff, !N.leb_le. reflexivity. Qed.
Lemma range_spec a b c : N.leb a b && N.leb b c = true <-> (a <= b <= c)%N.
Proof. rewrite andb_true_iff, !N.leb_le. reflexivity. Qed.
Lemma encode_decode raw : forall s, utf8_decode raw = Some s -> utf8_encode s = Some raw.
Proof.
  assert (CONS : forall c x s r, is_scalar c = true -> enc_char c = x -> utf8_encode s = Some r -> utf8_encode (c :: s) = Some (x ++ r)).
  { intros c x s r H1 H2. unfold utf8_encode. cbn [forallb flat_map]. rewrite H1. cbn [andb].
    destruct (forallb is_scalar s); [|discriminate]. intros H. injection H as <-. rewrite H2. reflexivity. }
  remember (length raw) as k eqn:EK. assert (HK : (length raw <= k)%nat) by lia. clear EK. revert raw HK.
  induction k as [|k IH]; intros [|b0 r0] HK s H; cbn [length] in HK; try lia.
  { injection H as <-. reflexivity. } { injection H as <-. reflexivity. }
  cbn [utf8_decode] in H. destruct (N.ltb_spec b0 128) as [H0|H0].
  { destruct (utf8_decode r0) as [s'|] eqn:E; [|discriminate]. injection H as <-.
    apply (CONS b0 [b0]); [apply is_scalar_spec; lia| |apply IH; [lia|exact E]].
    unfold enc_char. destruct (N.ltb_spec b0 128); [reflexivity|lia]. }
  destruct (N.leb 194 b0 && N.leb b0 223) eqn:R2.
  { destruct r0 as [|b1 r1]; [discriminate|]. destruct (is_cont b1) eqn:C1; [|discriminate]. clear H0; apply cont_spec in C1; apply range_spec in R2.
    destruct (utf8_decode r1) as [s'|] eqn:E; [|discriminate]. injection H as <-. cbn [length] in HK.
    apply (CONS _ [b0; b1]); [apply is_scalar_spec; lia| |apply IH; [lia|exact E]].
    unfold enc_char. remember ((b0 - 192) * 64 + (b1 - 128))%N as c eqn:E_c. 
    destruct (N.ltb_spec c 128); [lia|]. destruct (N.ltb_spec c 2048); [|lia].
    f_equal; [lia|]. f_equal. lia. }
  destruct (N.leb 224 b0 && N.leb b0 239) eqn:R3.
  { destruct r0 as [|b1 [|b2 r2]]; try discriminate. cbv zeta in H.
    destruct (is_cont b1) eqn:C1; [|discriminate]. destruct (is_cont b2) eqn:C2; [|discriminate].
    remember ((b0 - 224) * 4096 + (b1 - 128) * 64 + (b2 - 128))%N as c eqn:E_c. cbn [andb] in H.
    destruct (N.leb_spec 2048 c) as [L|L]; [|discriminate]. cbn [andb] in H.
    destruct (is_scalar c) eqn:SC; [|discriminate]. apply is_scalar_spec in SC. clear R2 H0; apply cont_spec in C1; apply cont_spec in C2; apply range_spec in R3.
    destruct (utf8_decode r2) as [s'|] eqn:E; [|discriminate]. injection H as <-. cbn [length] in HK.
    apply (CONS _ [b0; b1; b2]); [apply is_scalar_spec; exact SC| |apply IH; [lia|exact E]].
    unfold enc_char. destruct (N.ltb_spec c 128); [lia|]. destruct (N.ltb_spec c 2048); [lia|].
    destruct (N.ltb_spec c 65536); [|lia].
    f_equal; [lia|]. f_equal; [lia|]. f_equal. lia. }
  destruct (N.leb 240 b0 && N.leb b0 244) eqn:R4; [|discriminate].
  destruct r0 as [|b1 [|b2 [|b3 r3]]]; try discriminate. cbv zeta in H.
  destruct (is_cont b1) eqn:C1; [|discriminate]. destruct (is_cont b2) eqn:C2; [|discriminate]. destruct (is_cont b3) eqn:C3; [|discriminate].
  remember ((b0 - 240) * 262144 + (b1 - 128) * 4096 + (b2 - 128) * 64 + (b3 - 128))%N as c eqn:E_c. cbn [andb] in H.
  destruct (N.leb_spec 65536 c) as [L|L]; [|discriminate]. cbn [andb] in H.
  destruct (is_scalar c) eqn:SC; [|discriminate]. apply is_scalar_spec in SC. clear R2 R3 H0; apply cont_spec in C1; apply cont_spec in C2; apply cont_spec in C3; apply range_spec in R4.
  destruct (utf8_decode r3) as [s'|] eqn:E; [|discriminate]. injection H as <-. cbn [length] in HK.
  apply (CONS _ [b0; b1; b2; b3]); [apply is_scalar_spec; exact SC| |apply IH; [lia|exact E]].
  unfold enc_char. destruct (N.ltb_spec c 128); [lia|]. destruct (N.ltb_spec c 2048); [lia|].
  destruct (N.ltb_spec c 65536); [lia|].
  f_equal; [lia|]. f_equal; [lia|]. f_equal; [lia|]. f_equal. lia.
Qed.
