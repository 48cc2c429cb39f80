(** IntProofs.v -- int(str(z)) = z *)
From Verif Require Import Base Xml XmlProofs SpecInteger IntegerProofs.
Local Ltac Zify.zify_post_hook ::= Z.to_euclidean_division_equations.

Fixpoint value (s : str) (acc : N) : N :=
  match s with [] => acc | c :: s' => value s' (acc * 10 + (c - 48))%N end.
Lemma value_app a b acc : value (a ++ b) acc = value b (value a acc).
Proof. revert acc. induction a as [|c a IH]; intros acc; [reflexivity|]. cbn. apply IH. Qed.
Lemma digit_of n : is_digit (48 + n mod 10)%N = true.
Proof. unfold is_digit. destruct (N.leb_spec 48 (48 + n mod 10)); [|lia]. destruct (N.leb_spec (48 + n mod 10) 57); [reflexivity|lia]. Qed.
Lemma dec_digits_value fuel : forall n acc, (N.size n < N.of_nat fuel)%N ->
  exists w, dec_digits fuel n acc = w ++ acc /\ w <> [] /\ forallb is_digit w = true /\ value w 0 = n.
Proof.
  induction fuel as [|fuel IH]; intros n acc H; [lia|]. cbn [dec_digits].
  destruct (N.eqb_spec (n / 10) 0) as [E|E].
  - exists [(48 + n mod 10)%N]. split; [reflexivity|]. split; [discriminate|]. cbn [forallb]. rewrite digit_of. split; [reflexivity|].
    cbn [value]. lia.
  - destruct (IH (n / 10)%N ((48 + n mod 10)%N :: acc)) as (w & E1 & E2 & E3 & E4).
    { assert (N.size (n / 10) < N.size n)%N; [|lia].
      assert (Hn : (n <> 0)%N) by (intros ->; apply E; reflexivity).
      rewrite (N.size_log2 n Hn), (N.size_log2 (n / 10) E). apply -> N.succ_lt_mono.
      apply N.log2_lt_pow2; [lia|]. assert (n < 2 ^ N.succ (N.log2 n))%N by (apply N.log2_spec; lia).
      rewrite N.pow_succ_r' in H0. lia. }
    exists (w ++ [(48 + n mod 10)%N]). rewrite E1, <- app_assoc. split; [reflexivity|]. split; [destruct w; discriminate|].
    rewrite forallb_app, E3. cbn [forallb]. rewrite digit_of. split; [reflexivity|].
    rewrite value_app, E4. cbn [value]. lia.
Qed.
Lemma str_of_N_digits n : exists w, str_of_N n = w /\ w <> [] /\ forallb is_digit w = true /\ value w 0 = n.
Proof.
  unfold str_of_N. destruct (dec_digits_value (S (N.to_nat (N.size n))) n []) as (w & E & R); [lia|].
  exists w. rewrite E, app_nil_r. auto.
Qed.
Lemma int_digits_value s acc prev : forallb is_digit s = true -> s <> [] \/ prev = true ->
  int_digits s acc prev = Some (value s acc).
Proof.
  revert acc prev. induction s as [|c s IH]; intros acc prev H N.
  - cbn. destruct N as [N| ->]; [congruence|reflexivity].
  - cbn in H. apply andb_prop in H. destruct H as [H1 H2]. cbn [int_digits value]. rewrite (ascii_decimal _ H1). apply IH; auto.
Qed.
Lemma py_int_of_Z z : py_int (str_of_Z z) = Some z.
Proof.
  assert (POS : forall n sign x, signed sign n x -> py_int (sign ++ str_of_N n) = Some x).
  { intros n sign x HS. destruct (str_of_N_digits n) as (w & -> & HN & HD & HV). apply int_spec. exists [], sign, w, [], n. rewrite app_nil_r.
    split; [reflexivity|]. split; [constructor|]. split; [constructor|]. split; [|exact HS]. apply digits_goes, int_digits_spec.
    rewrite int_digits_value by auto. rewrite HV. reflexivity. }
  destruct z as [|q|q]; cbn [str_of_Z].
  - apply (POS 0%N [] 0%Z). apply (signed_none 0).
  - apply (POS (Npos q) [] (Zpos q)). apply (signed_none (Npos q)).
  - apply (POS (Npos q) "-" (Zneg q)). apply (signed_minus (Npos q)).
Qed.
Lemma digit_plain w : forallb is_digit w = true -> forallb attr_plain w = true.
Proof.
  intros H. rewrite forallb_forall in *. intros c Hc. apply H in Hc. unfold is_digit in Hc. apply andb_prop in Hc. destruct Hc as [H1 H2].
  apply N.leb_le in H1. apply N.leb_le in H2.
  assert (K : In c (map N.of_nat (seq 48 10))).
  { apply in_map_iff. exists (N.to_nat c). split; [lia|]. apply in_seq. lia. }
  cbn in K. repeat (destruct K as [<-|K]; [reflexivity|]). destruct K.
Qed.
Lemma aval_int z : aval (str_of_Z z) (str_of_Z z).
Proof.
  apply aval_raw. destruct z as [|q|q]; [reflexivity| |]; cbn [str_of_Z].
  - destruct (str_of_N_digits (Npos q)) as (w & E & _ & HD & _). rewrite E. apply digit_plain, HD.
  - destruct (str_of_N_digits (Npos q)) as (w & E & _ & HD & _). rewrite E. cbn. apply digit_plain, HD.
Qed.
