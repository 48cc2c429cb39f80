(** Prop_DateTime.v -- C06: timestamps *)
From Verif Require Import Base Xml DateTime SpecDateTime.

Local Ltac Zify.zify_post_hook ::= Z.div_mod_to_equations.

(** ** Decimal printing *)
Lemma digits_0 k : digits k 0 = repeat 48%N k.
Proof.
  induction k as [|k IH]; [reflexivity|]. cbn [digits]. change (0 / 10)%N with 0%N. rewrite IH.
  change (48 + 0 mod 10)%N with 48%N. clear. induction k as [|k IH]; [reflexivity|].
  cbn [repeat app]. rewrite IH. reflexivity.
Qed.
Lemma digits_length k n : length (digits k n) = k.
Proof. revert n. induction k as [|k IH]; intros n; [reflexivity|]. cbn. rewrite app_length, IH. cbn. lia. Qed.
Lemma dec_digits_spec fuel : forall n acc k,
  (n < 10 ^ N.of_nat fuel)%N -> (n < 10 ^ N.of_nat k)%N -> 0 < fuel -> 0 < k ->
  exists w, dec_digits fuel n acc = w ++ acc /\ length w <= k /\ repeat 48%N (k - length w) ++ w = digits k n.
Proof.
  induction fuel as [|f IH]; intros n acc k Hf Hk F K; [lia|].
  cbn [dec_digits]. destruct k as [|k]; [lia|]. cbn [digits].
  rewrite Nat2N.inj_succ, N.pow_succ_r' in Hf, Hk.
  destruct (N.eqb_spec (n / 10) 0) as [E|E].
  - exists [(48 + n mod 10)%N]. split; [reflexivity|]. split; [cbn; lia|].
    rewrite E, digits_0. cbn [length]. rewrite Nat.sub_succ, Nat.sub_0_r. reflexivity.
  - assert (Q : (0 < n / 10)%N) by (apply N.neq_0_lt_0; exact E).
    assert (Qf : (n / 10 < 10 ^ N.of_nat f)%N) by (apply N.div_lt_upper_bound; lia).
    assert (Qk : (n / 10 < 10 ^ N.of_nat k)%N) by (apply N.div_lt_upper_bound; lia).
    destruct (IH (n / 10)%N ((48 + n mod 10)%N :: acc) k Qf Qk) as (w & E1 & L & E2).
    + destruct f; [cbn in Qf; lia|lia].
    + destruct k; [cbn in Qk; lia|lia].
    + exists (w ++ [(48 + n mod 10)%N]). rewrite E1, <- app_assoc. split; [reflexivity|].
      rewrite app_length. cbn [length]. split; [lia|].
      replace (S k - (length w + 1)) with (k - length w) by lia. rewrite app_assoc, E2. reflexivity.
Qed.
Lemma size_bound n : (n < 10 ^ N.of_nat (S (N.to_nat (N.size n))))%N.
Proof.
  rewrite Nat2N.inj_succ, N2Nat.id, N.pow_succ_r'. pose proof (N.size_gt n) as H.
  assert (H2 : (2 ^ N.size n <= 10 ^ N.size n)%N) by (apply N.pow_le_mono_l; lia). lia.
Qed.
Lemma pad_digits k n : (n < 10 ^ N.of_nat k)%N -> 0 < k -> pad k n = digits k n.
Proof.
  intros H K. unfold pad, str_of_N.
  destruct (dec_digits_spec (S (N.to_nat (N.size n))) n [] k (size_bound n) H ltac:(lia) K) as (w & E & L & E2).
  rewrite E, app_nil_r. exact E2.
Qed.
Lemma year_digits n : (1000 <= n < 10000)%N -> str_of_N n = digits 4 n.
Proof.
  intros H. unfold str_of_N.
  destruct (dec_digits_spec (S (N.to_nat (N.size n))) n [] 4 (size_bound n) ltac:(cbn; lia) ltac:(lia) ltac:(lia)) as (w & E & L & E2).
  rewrite E, app_nil_r. destruct (Nat.eq_dec (length w) 4) as [EL|NL].
  - rewrite EL in E2. exact E2.
  - exfalso. replace (4 - length w) with (S (3 - length w)) in E2 by lia.
    assert (D : (n / 1000 mod 10)%N = (n / 1000)%N).
    { apply N.mod_small. apply N.div_lt_upper_bound; lia. }
    assert (D1 : (1 <= n / 1000)%N) by (apply N.div_le_lower_bound; lia).
    cbn [digits app repeat] in E2. rewrite !N.div_div in E2 by lia.
    change (10 * (10 * 10))%N with 1000%N in E2. change (10 * 10 * 10)%N with 1000%N in E2.
    apply (f_equal (hd 0%N)) in E2. cbn [hd app] in E2. rewrite D in E2. clear - E2 D1.
    generalize dependent (n / 1000)%N. intros q. lia.
Qed.
Lemma dec_val_app s a c : dec_val (s ++ [c]) = match (match s with [] => Some 0%N | _ => dec_val s end) with
  | Some n => if is_digit c then Some (n * 10 + (c - 48))%N else None | None => None end \/ a = 0.
Proof. left. unfold dec_val. destruct s as [|x s]; [reflexivity|]. cbn [app]. rewrite app_comm_cons, fold_left_app. reflexivity. Qed.
Lemma dec_val_digits k n : (n < 10 ^ N.of_nat k)%N -> 0 < k -> dec_val (digits k n) = Some n.
Proof.
  revert n. induction k as [|k IH]; intros n H K; [lia|]. cbn [digits].
  destruct (dec_val_app (digits k (n / 10)) 1 (48 + n mod 10)%N) as [E|]; [|discriminate]. rewrite E.
  assert (M : (n mod 10 < 10)%N) by (apply N.mod_lt; lia).
  assert (D : is_digit (48 + n mod 10) = true) by (clear - M; generalize dependent (n mod 10)%N; intros q Q; unfold is_digit; rewrite andb_true_iff, !N.leb_le; lia).
  rewrite D. rewrite Nat2N.inj_succ, N.pow_succ_r' in H.
  pose proof (N.div_mod n 10 ltac:(lia)) as DM.
  destruct k as [|k].
  - cbn [digits]. cbn in H. assert (n / 10 = 0)%N by (apply N.div_small; lia). f_equal. lia.
  - rewrite (IH (n / 10)%N); [|apply N.div_lt_upper_bound; lia|lia].
    destruct (digits (S k) (n / 10)) eqn:X; [apply (f_equal (@length N)) in X; rewrite digits_length in X; discriminate|].
    f_equal. lia.
Qed.
Lemma offset_z m : (Z.abs m < 1440)%Z ->
  strftime_z (Some (minutes m))
  = (if Z.ltb m 0 then "-" else "+") ++ digits 2 (Z.abs_N m / 60) ++ digits 2 (Z.abs_N m mod 60).
Proof.
  intros H. unfold strftime_z, minutes.
  assert (A : Z.abs_N (m * 60000000) = (Z.abs_N m * 60000000)%N) by (rewrite Zabs2N.inj_mul; reflexivity).
  assert (B : (Z.abs_N m < 1440)%N) by lia.
  rewrite A. clear A. set (a := Z.abs_N m) in *.
  assert (M0 : ((a * 60000000) mod 1000000 = 0)%N).
  { replace (a * 60000000)%N with (a * 60 * 1000000)%N by lia. apply N.mod_mul. lia. }
  assert (D0 : (a * 60000000 / 1000000 = a * 60)%N).
  { replace (a * 60000000)%N with (a * 60 * 1000000)%N by lia. apply N.div_mul. lia. }
  rewrite M0, D0. rewrite N.mod_mul by lia. cbn [N.eqb]. rewrite N.div_mul by lia.
  replace (a * 60 / 3600)%N with (a / 60)%N by (rewrite <- (N.div_mul_cancel_r a 60 60) by lia; reflexivity).
  rewrite app_nil_r.
  assert (S0 : Z.ltb (m * 60000000) 0 = Z.ltb m 0).
  { destruct (Z.ltb_spec m 0); [apply Z.ltb_lt|apply Z.ltb_ge]; lia. }
  rewrite S0. rewrite !pad_digits; [reflexivity|..]; try lia.
  - change (N.of_nat 2) with 2%N. change (10 ^ 2)%N with 100%N. assert ((a mod 60 < 60)%N) by (apply N.mod_lt; lia). lia.
Qed.

(** ** C06 *)
(** For every valid aware datetime with a year of four digits and an offset of
    whole minutes the text is the documented one. *)
Theorem C06_documented_shape :
  forall d m, valid d -> (1000 <= year d <= 9999)%N -> utcoffset d = Some (minutes m) ->
    reqif_datetime_format d = timestamp d m.
Proof.
  intros d m V Y O. destruct V as [V1 V2 V3 V4 V5 V6 V7].
  unfold reqif_datetime_format, strftime. rewrite O.
  rewrite O in V7. rewrite offset_z by (unfold minutes in V7; lia).
  rewrite (year_digits (year d)) by lia.
  rewrite (pad_digits 6 (microsecond d)) by (cbn; lia).
  rewrite !(pad_digits 2) by (cbn; lia).
  unfold timestamp. assert (E3 : forall n, (digits 3 (n / 1000))%N = digits 3 (n / 10 / 10 / 10)%N).
  { intros n. rewrite !N.div_div by lia. reflexivity. }
  rewrite E3. cbn [digits app]. destruct (Z.ltb m 0); reflexivity.
Qed.
(** The text read back by position: every field, milliseconds truncated. *)
Theorem C06_fields_can_be_read_back :
  forall d m, valid d -> (1000 <= year d <= 9999)%N -> utcoffset d = Some (minutes m) ->
    let r := reqif_datetime_format d in
    let field i k := dec_val (firstn k (skipn i r)) in
    length r = 29
    /\ field 0 4 = Some (year d) /\ field 5 2 = Some (month d) /\ field 8 2 = Some (day d)
    /\ field 11 2 = Some (hour d) /\ field 14 2 = Some (minute d) /\ field 17 2 = Some (second d)
    /\ field 20 3 = Some (microsecond d / 1000)%N
    /\ (exists oh om, field 24 2 = Some oh /\ field 27 2 = Some om
         /\ ((nth 23 r 0%N = 43%N /\ m = Z.of_N (oh * 60 + om)) \/ (nth 23 r 0%N = 45%N /\ m = (- Z.of_N (oh * 60 + om))%Z))).
Proof.
  intros d m V Y O. cbv zeta. rewrite (C06_documented_shape d m V Y O). destruct V as [V1 V2 V3 V4 V5 V6 V7].
  rewrite O in V7. unfold minutes in V7. unfold timestamp.
  split; [destruct (Z.ltb m 0); reflexivity|].
  assert (T3 : forall n, (n < 1000000)%N -> dec_val (digits 3 (n / 1000)) = Some (n / 1000)%N).
  { intros n Hn. apply dec_val_digits; [|lia]. cbn. apply N.div_lt_upper_bound; lia. }
  split; [etransitivity; [|apply (dec_val_digits 4); [cbn; lia|lia]]; destruct (Z.ltb m 0); reflexivity|].
  do 5 (split; [etransitivity; [|apply (dec_val_digits 2); [cbn; lia|lia]]; destruct (Z.ltb m 0); reflexivity|]).
  split; [etransitivity; [|apply T3; exact V6]; destruct (Z.ltb m 0); reflexivity|].
  exists (Z.abs_N m / 60)%N, (Z.abs_N m mod 60)%N.
  assert (M : (Z.abs_N m mod 60 < 60)%N) by (apply N.mod_lt; lia).
  assert (D : (Z.abs_N m / 60 < 24)%N) by (apply N.div_lt_upper_bound; lia).
  split; [etransitivity; [|apply (dec_val_digits 2); [cbn; lia|lia]]; destruct (Z.ltb m 0); reflexivity|].
  split; [etransitivity; [|apply (dec_val_digits 2); [cbn; lia|lia]]; destruct (Z.ltb m 0); reflexivity|].
  pose proof (N.div_mod (Z.abs_N m) 60 ltac:(lia)) as DM.
  destruct (Z.ltb_spec m 0); [right|left]; (split; [reflexivity|]); lia.
Qed.
(** create_reqif_datetime_now has that shape when the platform's zone offset is
    in whole minutes. *)
Theorem C06_now :
  forall isdst tz alt now m,
    (if Z.eqb isdst 0 then - tz else - alt)%Z = (60 * m)%Z ->
    (forall o, utcoffset (now o) = Some o /\ valid (now o) /\ (1000 <= year (now o) <= 9999)%N) ->
    create_reqif_datetime_now isdst tz alt now = timestamp (now (minutes m)) m.
Proof.
  intros isdst tz alt now m E H. unfold create_reqif_datetime_now. rewrite E.
  replace (60 * m * 1000000)%Z with (minutes m) by (unfold minutes; lia).
  destruct (H (minutes m)) as (H1 & H2 & H3). apply C06_documented_shape; assumption.
Qed.
(** Outside these conditions the text is wrong. *)
Definition sample (y : N) (o : option Z) : datetime := DateTime y 6 16 22 39 18 543210 o.
Theorem C06_naive_refuted :
  exists d, valid d /\ utcoffset d = None /\ reqif_datetime_format d = "2024-06-16T22:39:18.543432:10".
Proof. exists (sample 2024 None). split; [constructor; cbn; lia || auto|]. split; vm_compute; reflexivity. Qed.
Theorem C06_offset_with_seconds_refuted :
  exists d, valid d /\ utcoffset d = Some 3630000000%Z /\ reqif_datetime_format d = "2024-06-16T22:39:18.543100:30".
Proof. exists (sample 2024 (Some 3630000000%Z)). split; [constructor; cbn; lia || auto|]. split; vm_compute; reflexivity. Qed.
Theorem C06_year_below_1000_refuted :
  exists d, valid d /\ year d = 999%N /\ reqif_datetime_format d = "999-06-16T22:39:18.5432+02:00".
Proof. exists (sample 999 (Some (minutes 120))). split; [constructor; cbn; lia || auto|]. split; vm_compute; reflexivity. Qed.
Example C06_example :
  valid (sample 2024 (Some (minutes (-150)))) /\
  reqif_datetime_format (sample 2024 (Some (minutes (-150)))) = "2024-06-16T22:39:18.543-02:30".
Proof. split; [constructor; cbn; lia|vm_compute; reflexivity]. Qed.

Print Assumptions C06_documented_shape.
Print Assumptions C06_fields_can_be_read_back.
Print Assumptions C06_now.
Print Assumptions C06_naive_refuted.
Print Assumptions C06_offset_with_seconds_refuted.
Print Assumptions C06_year_below_1000_refuted.
