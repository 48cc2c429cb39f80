(** Prop_Indent.v -- C05: indenting and unindenting XHTML text *)
From Verif Require Import Base Lxml Py LxmlStr SpecIndent Frag.

(** ** str.strip *)
Lemma lstrip_app_ws s w :
  forallb py_space w = true -> lstrip (s ++ w) = match lstrip s with [] => [] | x => x ++ w end.
Proof.
  intros H. induction s as [|c s IH].
  - cbn. clear -H. induction w as [|c w IH]; [reflexivity|]. cbn in *. apply andb_prop in H. destruct H as [-> H]. auto.
  - cbn. destruct (py_space c); [exact IH|reflexivity].
Qed.
Lemma lstrip_ws_app w s : forallb py_space w = true -> lstrip (w ++ s) = lstrip s.
Proof.
  intros H. induction w as [|c w IH]; [reflexivity|]. cbn in *. apply andb_prop in H. destruct H as [-> H]. auto.
Qed.
Lemma forallb_rev {A} (f : A -> bool) l : forallb f (rev l) = forallb f l.
Proof.
  induction l as [|x l IH]; [reflexivity|]. cbn. rewrite forallb_app, IH. cbn. rewrite andb_true_r. apply andb_comm.
Qed.
Lemma rstrip_app_ws s w : forallb py_space w = true -> rstrip (s ++ w) = rstrip s.
Proof.
  intros H. unfold rstrip. rewrite rev_app_distr, lstrip_ws_app; [reflexivity|]. rewrite forallb_rev. exact H.
Qed.
Lemma strip_app_ws s w : forallb py_space w = true -> strip (s ++ w) = strip s.
Proof.
  intros H. unfold strip. rewrite lstrip_app_ws by exact H. destruct (lstrip s) as [|c r]; [reflexivity|].
  apply (rstrip_app_ws (c :: r)), H.
Qed.
Lemma strip_ws_app w s : forallb py_space w = true -> strip (w ++ s) = strip s.
Proof. intros H. unfold strip. rewrite lstrip_ws_app by exact H. reflexivity. Qed.
Lemma lstrip_idem s : lstrip (lstrip s) = lstrip s.
Proof. induction s as [|c s IH]; [reflexivity|]. cbn. destruct (py_space c) eqn:E; [exact IH|]. cbn. rewrite E. reflexivity. Qed.
Lemma lstrip_suffix s : exists w, s = w ++ lstrip s /\ forallb py_space w = true.
Proof.
  induction s as [|c s (w & IH & H)]; [exists []; auto|]. cbn. destruct (py_space c) eqn:E.
  - exists (c :: w). cbn. rewrite E, H, <- IH. auto.
  - exists []. auto.
Qed.
Lemma rstrip_prefix s : exists w, s = rstrip s ++ w /\ forallb py_space w = true.
Proof.
  destruct (lstrip_suffix (rev s)) as (w & E & H). exists (rev w). unfold rstrip.
  split; [|rewrite forallb_rev; exact H]. apply (f_equal (@rev N)) in E. rewrite rev_involutive, rev_app_distr in E. exact E.
Qed.
Lemma strip_idem s : strip (strip s) = strip s.
Proof.
  unfold strip at 2. destruct (rstrip_prefix (lstrip s)) as (w & E & H).
  transitivity (strip (rstrip (lstrip s) ++ w)); [symmetry; apply strip_app_ws, H|].
  rewrite <- E. unfold strip. rewrite lstrip_idem. reflexivity.
Qed.
Lemma lstrip_length s : length (lstrip s) <= length s.
Proof. induction s as [|c s IH]; [apply le_n|]. cbn. destruct (py_space c); cbn; lia. Qed.
Lemma strip_length s : length (strip s) <= length s.
Proof.
  unfold strip, rstrip. rewrite rev_length. pose proof (lstrip_length (rev (lstrip s))) as H.
  rewrite rev_length in H. pose proof (lstrip_length s). lia.
Qed.

(** ** Removal of runs of 16 spaces *)
Lemma sub_replace t : forall k, sub_sp16 k (replace_char 10 (nl ++ spaces 16) t) = sub_sp16 k t.
Proof.
  induction t as [|c t IH]; intros k; [reflexivity|].
  change (replace_char 10 (nl ++ spaces 16) (c :: t))
    with ((if N.eqb c 10 then nl ++ spaces 16 else [c]) ++ replace_char 10 (nl ++ spaces 16) t).
  destruct (N.eqb_spec c 10) as [->|N].
  - rewrite <- app_assoc. change (nl ++ spaces 16 ++ replace_char 10 (nl ++ spaces 16) t)
      with (10%N :: spaces 16 ++ replace_char 10 (nl ++ spaces 16) t).
    cbn [sub_sp16]. change (N.eqb 10 32) with false. cbv iota. f_equal. f_equal.
    change (sub_sp16 0 (spaces 16 ++ replace_char 10 (nl ++ spaces 16) t))
      with (sub_sp16 0 (replace_char 10 (nl ++ spaces 16) t)). apply IH.
  - cbn [app]. cbn [sub_sp16]. rewrite !IH. reflexivity.
Qed.
Lemma sub_break a : forall k b, sub_sp16 k (a ++ 10%N :: b) = sub_sp16 k a ++ 10%N :: sub_sp16 0 b.
Proof.
  induction a as [|c a IH]; intros k b.
  - cbn. reflexivity.
  - cbn [app]. cbn [sub_sp16]. destruct (N.eqb c 32).
    + destruct (Nat.eqb k 15); apply IH.
    + rewrite IH, <- app_assoc. reflexivity.
Qed.
Lemma spaces_S k r : spaces k ++ 32%N :: r = spaces (S k) ++ r.
Proof. unfold spaces. induction k; [reflexivity|]. cbn in *. rewrite IHk. reflexivity. Qed.
Lemma starts_app p s r : length p <= length s -> starts_with p (s ++ r) = starts_with p s.
Proof.
  revert s. induction p as [|x p IH]; intros s H; [reflexivity|]. destruct s as [|y s]; [cbn in H; lia|].
  cbn in *. rewrite IH by lia. reflexivity.
Qed.
Lemma starts_self p r : starts_with p (p ++ r) = true.
Proof. induction p as [|x p IH]; [reflexivity|]. cbn. rewrite N.eqb_refl. exact IH. Qed.
Lemma contains_tail p c s : contains p (c :: s) = false -> contains p s = false.
Proof. cbn. intros H. apply orb_false_elim in H. apply H. Qed.
Lemma starts_run_false k c s : k <= 15 -> c <> 32%N -> starts_with (spaces 16) (spaces k ++ c :: s) = false.
Proof.
  intros H N. unfold spaces. apply N.eqb_neq in N. rewrite N.eqb_sym in N.
  assert (G : forall k m, k < m -> starts_with (repeat 32%N m) (repeat 32%N k ++ c :: s) = false).
  { clear -N. induction k as [|k IH]; intros [|m] L; try lia; cbn [repeat app starts_with]; [rewrite N; reflexivity|].
    rewrite N.eqb_refl, IH by lia. reflexivity. }
  apply G. lia.
Qed.
Lemma sub_shorter s : forall k, k <= 15 ->
  (length (sub_sp16 k s) <= k + length s)
  /\ (contains (spaces 16) (spaces k ++ s) = true -> length (sub_sp16 k s) < k + length s)
  /\ (contains (spaces 16) (spaces k ++ s) = false -> sub_sp16 k s = spaces k ++ s).
Proof.
  induction s as [|c s IH]; intros k Hk.
  - cbn [sub_sp16 length]. rewrite app_nil_r. unfold spaces at 1. rewrite repeat_length.
    split; [lia|]. split; [|reflexivity]. intros H. exfalso.
    assert (G : forall m, m <= 15 -> contains (spaces 16) (spaces m) = false).
    { clear. intros m H. do 16 (destruct m as [|m]; [reflexivity|]). lia. }
    rewrite G in H by exact Hk. discriminate.
  - cbn [sub_sp16 length]. destruct (N.eqb_spec c 32) as [->|N].
    + destruct (Nat.eqb_spec k 15) as [->|N].
      * destruct (IH 0 ltac:(lia)) as (L & _ & _). split; [lia|]. split; [intros _; lia|].
        intros H. exfalso. rewrite spaces_S in H.
        change (spaces 16 ++ s) with (32%N :: spaces 15 ++ s) in H. cbn [contains] in H.
        change (32%N :: spaces 15 ++ s) with (spaces 16 ++ s) in H. rewrite starts_self in H. discriminate.
      * destruct (IH (S k) ltac:(lia)) as (L & C & E). rewrite spaces_S. split; [lia|]. split; [|exact E].
        intros H. specialize (C H). lia.
    + destruct (IH 0 ltac:(lia)) as (L & C & E).
      assert (R : contains (spaces 16) (spaces k ++ c :: s) = contains (spaces 16) s).
      { clear -N Hk. revert Hk. induction k as [|k IH]; intros Hk.
        - change (spaces 0 ++ c :: s) with (c :: s). cbn [contains].
          rewrite (starts_run_false 0 c s ltac:(lia) N : starts_with (spaces 16) (c :: s) = false). reflexivity.
        - change (spaces (S k) ++ c :: s) with (32%N :: spaces k ++ c :: s).
          cbn [contains]. rewrite (starts_run_false (S k) c s Hk N : starts_with (spaces 16) (32%N :: spaces k ++ c :: s) = false).
          cbn [orb]. apply IH. lia. }
      assert (LS : length (spaces k) = k) by apply repeat_length.
      rewrite R. rewrite app_length. cbn [length]. rewrite LS. cbn [Nat.add].
      split; [lia|]. change (spaces 0 ++ s) with s in C, E. split.
      * intros H. specialize (C H). lia.
      * intros H. rewrite (E H). reflexivity.
Qed.
Lemma unindent_indent s :
  reqif_unindent_xhtml_string (reqif_indent_xhtml_string s) = strip (sub_sp16 0 (strip s)).
Proof.
  unfold reqif_unindent_xhtml_string, reqif_indent_xhtml_string.
  replace (nl ++ spaces 14) with (10%N :: spaces 14) by reflexivity.
  rewrite sub_break, sub_replace. change (nl ++ strip s) with ([] ++ 10%N :: strip s). rewrite sub_break.
  change (sub_sp16 0 [] ++ 10%N :: sub_sp16 0 (strip s)) with ([10%N] ++ sub_sp16 0 (strip s)).
  change (10%N :: sub_sp16 0 (spaces 14)) with (10%N :: spaces 14).
  rewrite strip_app_ws by reflexivity. apply strip_ws_app. reflexivity.
Qed.

(** ** strip, independently *)
Lemma py_space_blank c : py_space c = true <-> python_blank c.
Proof.
  unfold py_space, python_blank, python_blanks. rewrite !orb_true_iff, !andb_true_iff, !N.leb_le, !N.eqb_eq. split.
  - intros H.
    assert (G : forall lo n x, (lo <= x < lo + N.of_nat n)%N -> In x (map (fun k => lo + N.of_nat k)%N (seq 0 n))).
    { intros lo n x Hx. apply in_map_iff. exists (N.to_nat (x - lo)). split; [lia|]. apply in_seq. lia. }
    assert (I : forall l, incl l python_blanks -> In c l -> In c python_blanks) by (intros l Hl; apply Hl).
    repeat match type of H with _ \/ _ => destruct H as [H|H] end.
    all: try (subst c; cbn; tauto).
    + apply (I (map (fun k => 9 + N.of_nat k)%N (seq 0 5))); [|apply G; lia]. intros x Hx. cbn in Hx |- *. tauto.
    + apply (I (map (fun k => 28 + N.of_nat k)%N (seq 0 5))); [|apply G; lia]. intros x Hx. cbn in Hx |- *. tauto.
    + apply (I (map (fun k => 8192 + N.of_nat k)%N (seq 0 11))); [|apply G; lia]. intros x Hx. cbn in Hx |- *. tauto.
  - intros H. repeat (destruct H as [<-|H]; [lia|]). destruct H.
Qed.
Lemma blanks w : forallb py_space w = true <-> Forall python_blank w.
Proof.
  rewrite forallb_forall, Forall_forall. split; intros H x I; apply py_space_blank, H, I.
Qed.
Lemma lstrip_head s c r : lstrip s = c :: r -> py_space c = false.
Proof.
  induction s as [|x s IH]; [discriminate|]. cbn [lstrip]. destruct (py_space x) eqn:E; [exact IH|]. congruence.
Qed.
Lemma strip_trimmed s : trimmed s (strip s).
Proof.
  destruct (lstrip_suffix s) as (a & E1 & Ha). destruct (rstrip_prefix (lstrip s)) as (b & E2 & Hb). exists a, b.
  unfold strip. split; [rewrite <- E2; exact E1|]. split; [apply blanks, Ha|]. split; [apply blanks, Hb|]. split.
  - intros c r E H. apply py_space_blank in H. rewrite E in E2. apply lstrip_head in E2. congruence.
  - intros c r E H. apply py_space_blank in H. unfold rstrip in E. apply (f_equal (@rev N)) in E.
    rewrite rev_involutive, rev_app_distr in E. apply lstrip_head in E. congruence.
Qed.
Lemma trimmed_strip s t : trimmed s t -> strip s = t.
Proof.
  intros (a & b & -> & Ha & Hb & H1 & H2). apply blanks in Ha, Hb. rewrite strip_ws_app by exact Ha. rewrite strip_app_ws by exact Hb.
  unfold strip. destruct t as [|c r]; [reflexivity|].
  assert (E : lstrip (c :: r) = c :: r).
  { cbn [lstrip]. destruct (py_space c) eqn:E; [|reflexivity]. exfalso. apply (H1 c r eq_refl), py_space_blank, E. }
  rewrite E. destruct (@exists_last _ (c :: r) ltac:(discriminate)) as (i & z & EZ). rewrite EZ. unfold rstrip.
  rewrite rev_app_distr. cbn [rev app lstrip]. destruct (py_space z) eqn:E3.
  - exfalso. apply (H2 z i EZ), py_space_blank, E3.
  - cbn [rev]. rewrite rev_involutive. reflexivity.
Qed.
Lemma run_contains t : run_of_16_spaces t <-> contains (spaces 16) t = true.
Proof. symmetry. apply contains_iff. Qed.

(** ** C05 *)
(** Unindenting an indented text gives the stripped text back, exactly when the
    stripped text contains no run of 16 spaces. *)
Lemma unindent_inverts_indent :
  forall s, reqif_unindent_xhtml_string (reqif_indent_xhtml_string s) = strip s
            <-> contains (spaces 16) (strip s) = false.
Proof.
  intros s. rewrite unindent_indent. destruct (sub_shorter (strip s) 0 ltac:(lia)) as (_ & C & E).
  change (spaces 0 ++ strip s) with (strip s) in C, E. split.
  - intros H. destruct (contains (spaces 16) (strip s)); [|reflexivity]. exfalso.
    specialize (C eq_refl). pose proof (strip_length (sub_sp16 0 (strip s))) as L.
    rewrite H in L. cbn in C. lia.
  - intros H. rewrite (E H). apply strip_idem.
Qed.
Theorem C05_unindent_inverts_indent :
  forall s, exists t, trimmed s t
    /\ (reqif_unindent_xhtml_string (reqif_indent_xhtml_string s) = t <-> ~ run_of_16_spaces t).
Proof.
  intros s. exists (strip s). split; [apply strip_trimmed|]. rewrite unindent_inverts_indent, run_contains.
  destruct (contains (spaces 16) (strip s)); split; congruence.
Qed.
Theorem C05_trimmed_text_is_unique : forall s t t', trimmed s t -> trimmed s t' -> t = t'.
Proof. intros s t t' H H'. apply trimmed_strip in H, H'. congruence. Qed.
(** In particular texts that are already stripped and have no such run survive
    a write/read cycle, and indenting is injective on them. *)
Theorem C05_indent_injective :
  forall s t, trimmed s s -> trimmed t t -> ~ run_of_16_spaces s -> ~ run_of_16_spaces t ->
    reqif_indent_xhtml_string s = reqif_indent_xhtml_string t -> s = t.
Proof.
  intros s t Hs Ht Cs Ct H. apply trimmed_strip in Hs, Ht. rewrite run_contains, Bool.not_true_iff_false in Cs, Ct. rewrite <- Hs, <- Ht.
  rewrite <- (proj2 (unindent_inverts_indent s)) by (rewrite Hs; exact Cs).
  rewrite <- (proj2 (unindent_inverts_indent t)) by (rewrite Ht; exact Ct).
  rewrite H. reflexivity.
Qed.
(** Every line of the trimmed text starts on its own line, after 16 spaces, and 14
    spaces follow on the last line. *)
Theorem C05_indented_text :
  forall s lines, lines <> [] -> Forall is_line lines -> trimmed s (joined lines) ->
    reqif_indent_xhtml_string s
    = flat_map (fun l => nl ++ repeat 32%N 16 ++ l) lines ++ nl ++ repeat 32%N 14.
Proof.
  intros s lines HN HL HT. apply trimmed_strip in HT. unfold reqif_indent_xhtml_string. rewrite HT. clear s HT.
  change (repeat 32%N 14) with (spaces 14). change (repeat 32%N 16) with (spaces 16). rewrite !app_assoc. do 2 f_equal.
  assert (L : forall l, is_line l -> replace_char 10 (nl ++ spaces 16) l = l).
  { intros l. unfold is_line. induction l as [|c l IH]; intros H; [reflexivity|]. unfold replace_char in *. cbn [flat_map].
    destruct (N.eqb_spec c 10) as [->|NE]; [exfalso; apply H; left; reflexivity|]. rewrite IH; [reflexivity|].
    intros I. apply H. right. exact I. }
  assert (A : forall a b, replace_char 10 (nl ++ spaces 16) (a ++ b) = replace_char 10 (nl ++ spaces 16) a ++ replace_char 10 (nl ++ spaces 16) b)
    by (intros a b; apply flat_map_app).
  rewrite A. change (replace_char 10 (nl ++ spaces 16) nl) with (nl ++ spaces 16).
  induction lines as [|l ls IH]; [contradiction HN; reflexivity|]. inversion HL as [|? ? H1 H2]; subst.
  destruct ls as [|l2 ls].
  - cbn [joined flat_map]. rewrite (L l H1), app_nil_r, app_assoc. reflexivity.
  - change (joined (l :: l2 :: ls)) with (l ++ nl ++ joined (l2 :: ls)). rewrite !A, (L l H1). change (replace_char 10 (nl ++ spaces 16) nl) with (nl ++ spaces 16).
    rewrite (IH ltac:(discriminate) H2). cbn [flat_map]. rewrite <- !app_assoc. reflexivity.
Qed.
Theorem C05_run_of_spaces_refuted :
  exists s, trimmed s s /\ reqif_unindent_xhtml_string (reqif_indent_xhtml_string s) = "ab" /\ s <> "ab".
Proof.
  exists ("a" ++ spaces 16 ++ "b"). split; [|split; [vm_compute; reflexivity|discriminate]].
  replace ("a" ++ spaces 16 ++ "b") with (strip ("a" ++ spaces 16 ++ "b")) at 2 by (vm_compute; reflexivity). apply strip_trimmed.
Qed.
Example C05_example :
  let s := "  <p>" ++ nl ++ "   text" ++ nl ++ nl ++ "</p> " in
  trimmed s (joined ["<p>"; "   text"; ""; "</p>"]) /\ ~ run_of_16_spaces (joined ["<p>"; "   text"; ""; "</p>"])
  /\ reqif_indent_xhtml_string s = nl ++ spaces 16 ++ "<p>" ++ nl ++ spaces 19 ++ "text" ++ nl ++ spaces 16 ++ nl
                                   ++ spaces 16 ++ "</p>" ++ nl ++ spaces 14.
Proof.
  cbn zeta. split; [|split; [rewrite run_contains; vm_compute; discriminate|vm_compute; reflexivity]].
  replace (joined ["<p>"; "   text"; ""; "</p>"]) with (strip ("  <p>" ++ nl ++ "   text" ++ nl ++ nl ++ "</p> ")) by (vm_compute; reflexivity).
  apply strip_trimmed.
Qed.

Print Assumptions C05_unindent_inverts_indent.
Print Assumptions C05_trimmed_text_is_unique.
Print Assumptions C05_indent_injective.
Print Assumptions C05_indented_text.
Print Assumptions C05_run_of_spaces_refuted.
