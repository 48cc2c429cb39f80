(** Utf8SpecProofs.v -- the codec computes the relation of SpecUtf8 *)
From Verif Require Import Base Xml Utf8 SpecUtf8 Utf8Proofs.
From Coq Require Import Lia.
Local Ltac Zify.zify_post_hook ::= Z.to_euclidean_division_equations.

Lemma enc_char_spec c b : utf8_char c b <-> is_scalar c = true /\ b = enc_char c.
Proof.
  rewrite is_scalar_spec. unfold enc_char. split.
  - intros H. destruct H.
    + split; [lia|]. destruct (N.ltb_spec c 128); [reflexivity|lia].
    + remember (x * 64 + y)%N as c eqn:E. split; [lia|].
      destruct (N.ltb_spec c 128); [lia|]. destruct (N.ltb_spec c 2048); [|lia].
      repeat f_equal; lia.
    + remember (x * 4096 + y * 64 + z)%N as c eqn:E. split; [lia|].
      destruct (N.ltb_spec c 128); [lia|]. destruct (N.ltb_spec c 2048); [lia|]. destruct (N.ltb_spec c 65536); [|lia].
      repeat f_equal; lia.
    + remember (w * 262144 + x * 4096 + y * 64 + z)%N as c eqn:E. split; [lia|].
      destruct (N.ltb_spec c 128); [lia|]. destruct (N.ltb_spec c 2048); [lia|]. destruct (N.ltb_spec c 65536); [lia|].
      repeat f_equal; lia.
  - intros [H ->].
    destruct (N.ltb_spec c 128) as [H1|H1]; [constructor; lia|].
    destruct (N.ltb_spec c 2048) as [H2|H2].
    { pose proof (utf8_2 (c / 64) (c mod 64)) as K.
      replace (c / 64 * 64 + c mod 64)%N with c in K by lia. apply K; lia. }
    destruct (N.ltb_spec c 65536) as [H3|H3].
    { pose proof (utf8_3 (c / 4096) ((c / 64) mod 64) (c mod 64)) as K.
      replace (c / 4096 * 4096 + (c / 64) mod 64 * 64 + c mod 64)%N with c in K by lia. apply K; lia. }
    pose proof (utf8_4 (c / 262144) ((c / 4096) mod 64) ((c / 64) mod 64) (c mod 64)) as K.
    replace (c / 262144 * 262144 + (c / 4096) mod 64 * 4096 + (c / 64) mod 64 * 64 + c mod 64)%N with c in K by lia.
    apply K; lia.
Qed.
Lemma encode_spec s b : utf8_encode s = Some b <-> utf8 s b.
Proof.
  unfold utf8_encode. revert b. induction s as [|c s IH]; intros b; cbn [forallb flat_map].
  - split; [intros H; injection H as <-; constructor|]. inversion 1. reflexivity.
  - split.
    + destruct (is_scalar c) eqn:S; [|discriminate]. cbn [andb]. destruct (forallb is_scalar s) eqn:F; [|discriminate].
      intros H. injection H as <-. constructor; [apply enc_char_spec; auto|]. apply IH. reflexivity.
    + inversion 1; subst. apply enc_char_spec in H2. destruct H2 as [S ->]. apply IH in H4.
      rewrite S. cbn [andb]. destruct (forallb is_scalar s); [|discriminate]. injection H4 as <-. reflexivity.
Qed.
Lemma decode_spec s b : utf8_decode b = Some s <-> utf8 s b.
Proof.
  rewrite <- encode_spec. split; [apply encode_decode|apply decode_encode].
Qed.
Lemma decode_none b : utf8_decode b = None <-> ~ exists s, utf8 s b.
Proof.
  split.
  - intros H [s E]. apply decode_spec in E. congruence.
  - intros H. destruct (utf8_decode b) as [s|] eqn:E; [|reflexivity]. apply decode_spec in E. destruct H. eauto.
Qed.
Lemma scalar_spec c : is_scalar c = true <-> scalar c.
Proof. rewrite is_scalar_spec. unfold scalar. lia. Qed.
Lemma encode_some s : Forall scalar s <-> exists b, utf8 s b.
Proof.
  split.
  - intros H. exists (flat_map enc_char s). apply encode_spec. unfold utf8_encode.
    replace (forallb is_scalar s) with true; [reflexivity|]. symmetry. apply forallb_forall. intros c Hc.
    rewrite Forall_forall in H. apply scalar_spec, H, Hc.
  - intros [b H]. induction H; constructor; [|assumption]. apply enc_char_spec in H. apply scalar_spec, H.
Qed.
