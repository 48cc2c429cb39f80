(** ArgProofs.v -- Argparse.v against SpecCommands.v *)
From Verif Require Import Base Argparse Commands SpecCommands SpecInteger IntegerProofs DictProofs Frag.

(** ** The parts of an argument *)
Lemma partition_spec c s :
  let (a, b) := partition c s in
  ~ In c a /\ s = a ++ match b with Some b => c :: b | None => [] end.
Proof.
  induction s as [|x s IH]; cbn [partition]; [split; [intros []|reflexivity]|].
  destruct (N.eqb_spec x c) as [->|NE]; [split; [intros []|reflexivity]|].
  destruct (partition c s) as [a b]. destruct IH as [H1 H2]. split; [|cbn; congruence].
  intros [E|E]; [congruence|exact (H1 E)].
Qed.
Lemma partition_unique (c : N) (a : str) (b : option str) (a' : str) (b' : option str) :
  ~ In c a -> ~ In c a' ->
  a ++ match b with Some b => c :: b | None => [] end = a' ++ match b' with Some b => c :: b | None => [] end ->
  a = a' /\ b = b'.
Proof.
  revert a'. induction a as [|x a IH]; intros [|y a'] H H' E; cbn [app] in E.
  - split; [reflexivity|]. destruct b, b'; congruence.
  - exfalso. destruct b as [b|]; [|discriminate]. injection E as -> _. apply H'. left. reflexivity.
  - exfalso. destruct b' as [b'|]; [|discriminate]. injection E as -> _. apply H. left. reflexivity.
  - injection E as -> E. destruct (IH a') as [-> ->]; auto.
    + intros I. apply H. right. exact I.
    + intros I. apply H'. right. exact I.
Qed.

Lemma digits_spec s : digits s = true <-> all_digits s.
Proof.
  unfold digits, all_digits. rewrite forallb_forall, Forall_forall. split; intros H x I; specialize (H x I).
  - apply is_decimal_spec, H.
  - apply is_decimal_spec, H.
Qed.
Lemma chop_spec d : exists z, (z = [] \/ z = nl) /\ d = chop d ++ z.
Proof.
  unfold chop. destruct (rev d) as [|c r] eqn:E.
  - exists []. split; [auto|]. symmetry. apply app_nil_r.
  - destruct (N.eqb_spec c 10) as [->|NE].
    + exists nl. split; [auto|]. apply (f_equal (@rev N)) in E. rewrite rev_involutive in E. exact E.
    + exists []. split; [auto|]. symmetry. apply app_nil_r.
Qed.
Lemma chop_digits u d z : (z = [] \/ z = nl) -> all_digits d -> d <> [] -> chop (u ++ d ++ z) = u ++ d.
Proof.
  intros Hz Hd Hn. destruct (@exists_last _ d Hn) as (d' & c & ->). unfold all_digits in Hd.
  apply Forall_app in Hd as [_ Hd]. inversion Hd as [|? ? Hc _]; subst. unfold chop.
  destruct Hz as [->| ->].
  - rewrite app_nil_r, !rev_app_distr. cbn [rev app]. destruct Hc as (v & Hc). apply digit_facts in Hc. destruct Hc as (_ & _ & _ & _ & _ & Hc). destruct (N.eqb_spec c 10) as [->|_]; [congruence|reflexivity].
  - rewrite !rev_app_distr. cbn [rev app nl]. rewrite N.eqb_refl, rev_app_distr, rev_involutive. cbn [rev app].
    rewrite rev_involutive, <- app_assoc. reflexivity.
Qed.
Lemma digits_no_dot d : all_digits d -> ~ In 46%N d.
Proof. unfold all_digits. rewrite Forall_forall. intros H I. destruct (H _ I) as (v & Hc). apply digit_facts in Hc. destruct Hc as (_ & _ & _ & _ & Hc & _). congruence. Qed.
Lemma negative_spec x : negative_number x = true <-> negative x.
Proof.
  unfold negative_number, negative. destruct x as [|c d].
  { split; [discriminate|]. intros (d1 & d2 & z & _ & _ & _ & _ & [E|E]); discriminate. }
  rewrite andb_true_iff, N.eqb_eq. pose proof (partition_spec 46 (chop d)) as P. split.
  - intros [-> H]. destruct (partition 46 (chop d)) as [a b]. destruct P as [P1 P2]. destruct (chop_spec d) as (z & Hz & ED).
    apply andb_true_iff in H as [H1 H2]. apply digits_spec in H1. destruct b as [b|].
    + apply andb_true_iff in H2 as [H2 H3]. apply digits_spec in H3. exists a, b, z. repeat split; auto.
      * intros ->. discriminate.
      * right. cbn [app]. f_equal. rewrite ED, P2, <- app_assoc. reflexivity.
    + rewrite app_nil_r in P2. exists [], a, z. repeat split; auto; [constructor| |].
      * intros ->. discriminate.
      * left. cbn [app]. f_equal. rewrite ED, P2. reflexivity.
  - intros (d1 & d2 & z & Hz & H1 & H2 & HN & E).
    assert (NE : str_eqb d2 [] = false) by (destruct (str_eqb_spec d2 []); [contradiction|reflexivity]).
    destruct E as [E|E]; cbn [app] in E; injection E as -> ->; (split; [reflexivity|]).
    + assert (EC : chop (d2 ++ z) = d2) by exact (chop_digits [] d2 z Hz H2 HN). rewrite EC in *.
      destruct (partition 46 d2) as [a b]. destruct P as [P1 P2].
      destruct (partition_unique 46 a b d2 None P1 (digits_no_dot _ H2)) as [-> ->]; [rewrite app_nil_r; congruence|].
      rewrite NE. apply digits_spec in H2. rewrite H2. reflexivity.
    + assert (EC : chop (d1 ++ 46%N :: d2 ++ z) = d1 ++ 46%N :: d2).
      { pose proof (chop_digits (d1 ++ [46%N]) d2 z Hz H2 HN) as G. rewrite <- !app_assoc in G. exact G. }
      rewrite EC in *. destruct (partition 46 (d1 ++ 46%N :: d2)) as [a b]. destruct P as [P1 P2].
      destruct (partition_unique 46 a b d1 (Some d2) P1 (digits_no_dot _ H1)) as [-> ->]; [congruence|].
      rewrite NE. apply digits_spec in H1, H2. rewrite H1, H2. reflexivity.
Qed.

(** ** One argument *)
Inductive kind := KWord | KUnknown | KHelp | KFlag | KWrong | KUnclear.
Definition kind_of (opts : list str) (x : str) : kind :=
  match parse_optional opts x with
  | OWord => KWord | OAmbiguous => KUnclear | OUnknown => KUnknown
  | OOption o sep e => match consume opts o sep e with
                       | None => KWrong | Some AHelp => KHelp | Some AFlag => KFlag end
  end.
Definition short (w : bool) : list str := if w then help_options ++ [schema_flag] else help_options.
Definition long (w : bool) : list str := if w then [help; flag] else [help].

(** the single dash *)
Lemma short_two w c : str_mem [45%N; c] (short w) = N.eqb c 104 \/ c = 45%N.
Proof.
  unfold str_mem, short, help_options. destruct (N.eqb_spec c 104) as [->|N1]; [left; destruct w; reflexivity|].
  left. destruct w; cbn [app existsb]; repeat match goal with |- context [str_eqb ?x ?y] =>
    destruct (str_eqb_spec x y) as [E|_]; [exfalso; try discriminate E; congruence|] end; reflexivity.
Qed.
Definition tail_ok (r : str) : Prop := match r with c :: _ => ~ In c [104; 61; 45]%N | [] => True end.
Lemma chain_spec w e : hd_error e <> Some 61%N ->
  (chain (short w) false e = true <-> e <> [] /\ exists k r, e = repeat 104%N k ++ r /\ tail_ok r).
Proof.
  induction e as [|c e IH]; intros H; [split; [discriminate|intros [E _]; contradiction]|].
  cbn [chain orb]. destruct (N.eqb_spec c 45) as [->|N45].
  { split; [discriminate|]. intros (_ & [|k] & r & E & T); cbn [repeat app] in E; [|discriminate].
    subst r. exfalso. apply T. cbn. tauto. }
  destruct (short_two w c) as [-> | ->]; [|contradiction]. destruct (N.eqb_spec c 104) as [->|N104].
  - destruct e as [|d e2].
    { split; [|reflexivity]. intros _. split; [discriminate|]. exists 1, []. split; [reflexivity|exact I]. }
    destruct (N.eqb_spec d 61) as [->|N61].
    + assert (F : chain (short w) true e2 = false) by (destruct e2; reflexivity). rewrite F. split; [discriminate|].
      intros (_ & k & r & E & T). exfalso. destruct k as [|[|k]]; cbn [repeat app] in E; [|injection E as <-|discriminate].
      * subst r. apply T. cbn. tauto.
      * apply T. cbn. tauto.
    + rewrite IH by (cbn; congruence). split; intros (_ & k & r & E & T); (split; [discriminate|]).
      * exists (S k), r. split; [cbn; congruence|exact T].
      * destruct k as [|k]; cbn [repeat app] in E; [subst r; exfalso; apply T; cbn; tauto|]. injection E as E. eauto.
  - split; [|reflexivity]. intros _. split; [discriminate|]. exists 0, (c :: e). split; [reflexivity|].
    cbn. cbn in H. intros [E|[E|[E|[]]]]; congruence.
Qed.

Definition rest_kind (x : str) : kind :=
  if negative_number x then KWord else if existsb (N.eqb 32) x then KWord else KUnknown.
Lemma rest_word x : rest_kind x = KWord <-> negative x \/ In 32%N x.
Proof.
  unfold rest_kind. rewrite <- negative_spec. destruct (negative_number x); [tauto|].
  assert (E : existsb (N.eqb 32) x = true <-> In 32%N x).
  { rewrite existsb_exists. split; [intros (y & I & H); apply N.eqb_eq in H; congruence|]. intros H. exists 32%N. auto. }
  rewrite <- E. destruct (existsb (N.eqb 32) x); split; try tauto; try discriminate. intros [H|H]; discriminate.
Qed.
Lemma rest_cases x : rest_kind x = KWord \/ rest_kind x = KUnknown.
Proof. unfold rest_kind. destruct (negative_number x); [auto|]. destruct (existsb (N.eqb 32) x); auto. Qed.

(** *** a single dash *)
Lemma kind_single w c r : c <> 45%N ->
  kind_of (short w) (45%N :: c :: r)
  = if N.eqb c 104
    then match r with
         | [] => KHelp
         | d :: _ => if N.eqb d 61 then KWrong else if chain (short w) false r then KHelp else KWrong
         end
    else rest_kind (45%N :: c :: r).
Proof.
  intros NC. set (x := 45%N :: c :: r). unfold kind_of, parse_optional. unfold x at 1. cbv iota. rewrite N.eqb_refl. cbn [negb].
  fold x.
  assert (SH : forall y, starts_with "--" y = true -> str_eqb x y = false /\ starts_with x y = false).
  { intros y H. apply starts_with_iff in H as (z & ->). split.
    - destruct (str_eqb_spec x ("--" ++ z)) as [E|_]; [injection E as E _; contradiction|reflexivity].
    - apply Bool.not_true_iff_false. intros H. apply starts_with_iff in H as (q & E). unfold x in E. injection E as E _. congruence. }
  assert (ST : starts_with "--" x = false).
  { apply Bool.not_true_iff_false. intros H. apply starts_with_iff in H as (q & E). unfold x in E. injection E as E _. contradiction. }
  assert (M : str_mem x (short w) = N.eqb c 104 && match r with [] => true | _ => false end).
  { unfold str_mem, short, help_options. assert (MH : str_eqb x "-h" = N.eqb c 104 && match r with [] => true | _ => false end).
    { destruct (str_eqb_spec x "-h") as [E|NE]; [unfold x in E; injection E as -> ->; reflexivity|].
      destruct (N.eqb_spec c 104) as [->|_]; [|reflexivity]. destruct r; [contradiction NE; reflexivity|reflexivity]. }
    destruct w; cbn [app existsb]; rewrite MH, ?(proj1 (SH "--help" eq_refl)), ?(proj1 (SH schema_flag eq_refl)), ?orb_false_r; reflexivity. }
  rewrite M. destruct (N.eqb_spec c 104) as [->|N104].
  - destruct r as [|d r].
    { cbn [andb]. reflexivity. }
    cbn [andb]. cbv iota.
    assert (T : option_tuples (short w) x = [("-h", false, Some (d :: r))]).
    { unfold option_tuples. rewrite ST. unfold x. cbn [firstn skipn].
      assert (F : forall y, starts_with "--" y = true -> str_eqb y [45; 104]%N = false).
      { intros y H. destruct (str_eqb_spec y [45; 104]%N) as [->|_]; [discriminate H|reflexivity]. }
      unfold short, help_options. destruct w; cbn [app flat_map]; fold x;
        rewrite ?(F "--help" eq_refl), ?(F schema_flag eq_refl), ?(proj2 (SH "--help" eq_refl)), ?(proj2 (SH schema_flag eq_refl)); reflexivity. }
    pose proof (partition_spec 61 x) as P. destruct (partition 61 x) as [p e]. destruct P as [P1 P2].
    assert (PM : given e = true -> str_mem p (short w) = true -> d = 61%N /\ p = "-h" /\ e = Some r).
    { intros G H. destruct e as [e|]; [|discriminate]. apply str_mem_In in H.
      assert (p = "-h") as ->.
      { unfold short, help_options in H. assert (O : p = "-h" \/ starts_with "--" p = true).
        { destruct w; cbn [app In] in H; destruct H as [<-|[<-|H]]; auto; destruct H as [<-|[]]; auto. }
        destruct O as [O|O]; [exact O|]. apply starts_with_iff in O as (z & ->). unfold x in P2. discriminate P2. }
      unfold x in P2. injection P2 as -> ->. auto. }
    destruct (N.eqb_spec d 61) as [->|N61].
    + destruct (partition_unique 61 p e "-h" (Some r) P1) as [-> ->].
      { intros [H|[H|[]]]; discriminate. } { rewrite <- P2. reflexivity. }
      assert (str_mem "-h" (short w) = true) as -> by (destruct w; reflexivity). cbn [given andb consume].
      change (starts_with "--" "-h") with false. cbv iota. destruct r; reflexivity.
    + assert (given e && str_mem p (short w) = false) as ->.
      { apply Bool.not_true_iff_false. rewrite andb_true_iff. intros [H1 H2]. destruct (PM H1 H2). contradiction. }
      rewrite T. cbn [consume]. change (starts_with "--" "-h") with false. cbv iota.
      destruct (chain (short w) false (d :: r)); reflexivity.
  - cbn [andb]. cbv iota. pose proof (partition_spec 61 x) as P. destruct (partition 61 x) as [p e]. destruct P as [P1 P2].
    assert (given e && str_mem p (short w) = false) as ->.
    { apply Bool.not_true_iff_false. rewrite andb_true_iff. intros [H1 H2]. destruct e as [e|]; [|discriminate]. apply str_mem_In in H2.
      assert (O : p = "-h" \/ starts_with "--" p = true).
      { unfold short, help_options in H2. destruct w; cbn [app In] in H2; destruct H2 as [<-|[<-|H2]]; auto; destruct H2 as [<-|[]]; auto. }
      destruct O as [->|O]; [unfold x in P2; injection P2 as E _; contradiction|].
      apply starts_with_iff in O as (z & ->). unfold x in P2. injection P2 as E _. contradiction. }
    assert (T : option_tuples (short w) x = []).
    { unfold option_tuples. rewrite ST. unfold x. cbn [firstn skipn].
      assert (F : forall y, starts_with "--" y = true \/ y = "-h" -> str_eqb y [45%N; c] = false).
      { intros y H. destruct (str_eqb_spec y [45%N; c]) as [->|_]; [|reflexivity]. exfalso. destruct H as [H|H].
        - apply starts_with_iff in H as (q & E). injection E as E _. contradiction.
        - injection H as H. contradiction. }
      assert (S1 : starts_with x "-h" = false).
      { apply Bool.not_true_iff_false. intros H. apply starts_with_iff in H as (q & E). unfold x in E. injection E as E _. congruence. }
      unfold short, help_options. destruct w; cbn [app flat_map]; fold x;
        rewrite ?(F "-h" (or_intror eq_refl)), ?(F "--help" (or_introl eq_refl)), ?(F schema_flag (or_introl eq_refl)), ?S1,
          ?(proj2 (SH "--help" eq_refl)), ?(proj2 (SH schema_flag eq_refl)); reflexivity. }
    rewrite T. unfold rest_kind. destruct (negative_number x); [reflexivity|]. destruct (existsb (N.eqb 32) x); reflexivity.
Qed.

(** *** two dashes *)
Lemma kind_double w r : r <> [] ->
  let x := 45%N :: 45%N :: r in
  let (p, e) := partition 61 x in
  kind_of (short w) x
  = let a := starts_with p "--help" in
    let b := w && starts_with p schema_flag in
    if a && b then KUnclear
    else if a || b then match e with Some _ => KWrong | None => if a then KHelp else KFlag end
    else rest_kind x.
Proof.
  intros NR x. pose proof (partition_spec 61 x) as P. destruct (partition 61 x) as [p e] eqn:EP. destruct P as [P1 P2].
  assert (exists p', p = 45%N :: 45%N :: p') as (p' & Ep).
  { unfold x in P2. destruct p as [|c [|d p']].
    - destruct e; discriminate P2.
    - destruct e; injection P2; intros; discriminate.
    - injection P2 as <- <- _. eauto. }
  assert (SP : starts_with p "-h" = false).
  { apply Bool.not_true_iff_false. intros H. apply starts_with_iff in H as (q & E). rewrite Ep in E. discriminate E. }
  assert (T : option_tuples (short w) x
              = (if starts_with p "--help" then [("--help" : str, given e, e)] else [])
                ++ (if w && starts_with p schema_flag then [(schema_flag, given e, e)] else [])).
  { unfold option_tuples. assert (starts_with "--" x = true) as -> by (apply starts_with_iff; exists r; reflexivity).
    rewrite EP. unfold short, help_options. destruct w; cbn [app filter andb]; rewrite SP;
      destruct (starts_with p "--help"); cbn [app map]; try reflexivity; destruct (starts_with p schema_flag); reflexivity. }
  assert (X2 : starts_with p "--help" && starts_with p schema_flag = true -> p' = []).
  { intros H. apply andb_true_iff in H as [H1 H2]. apply starts_with_iff in H1 as (q1 & E1). apply starts_with_iff in H2 as (q2 & E2).
    rewrite Ep in E1, E2. destruct p' as [|c p']; [reflexivity|]. exfalso. unfold schema_flag in E2. cbn in E1, E2.
    injection E1 as E1 _. injection E2 as E2 _. congruence. }
  set (A := starts_with p "--help") in *. set (B := starts_with p schema_flag) in *.
  assert (MX : forall o, In o (short w) -> str_eqb o p = true -> o = p /\ (o = "--help" /\ A = true \/ o = schema_flag /\ w && B = true)).
  { intros o I H. destruct (str_eqb_spec o p) as [->|]; [|discriminate]. split; [reflexivity|].
    assert (O : p = "-h" \/ p = "--help" \/ w = true /\ p = schema_flag).
    { unfold short, help_options in I. destruct w; cbn [app In] in I; intuition. }
    destruct O as [O|[O|[Ow O]]].
    - rewrite Ep in O. discriminate O.
    - left. split; [exact O|]. unfold A. rewrite O. reflexivity.
    - right. split; [exact O|]. unfold B. rewrite O, Ow. reflexivity. }
  assert (MP : str_mem p (short w) = true ->
                (p = "--help" /\ A = true /\ w && B = false) \/ (p = schema_flag /\ w && B = true /\ A = false)).
  { intros H. apply str_mem_In in H. destruct (MX p H) as [_ [[E HA]|[E HB]]].
    - destruct (str_eqb_spec p p); congruence.
    - left. repeat split; auto. apply Bool.not_true_iff_false. intros HB. apply andb_true_iff in HB as [_ HB].
      rewrite (X2 ltac:(rewrite HA, HB; reflexivity)) in Ep. rewrite Ep in E. discriminate E.
    - right. repeat split; auto. apply Bool.not_true_iff_false. intros HA. apply andb_true_iff in HB as [_ HB].
      rewrite (X2 ltac:(rewrite HA, HB; reflexivity)) in Ep. rewrite Ep in E. discriminate E. }
  unfold kind_of, parse_optional. unfold x at 1. cbv iota. rewrite N.eqb_refl. cbn [negb]. fold x. rewrite EP.
  destruct (str_mem x (short w)) eqn:MM.
  - assert (e = None) as ->.
    { destruct e as [e|]; [|reflexivity]. exfalso. apply str_mem_In in MM.
      assert (In 61%N x) as I by (rewrite P2; apply in_or_app; right; left; reflexivity).
      unfold short, help_options in MM. destruct w; cbn [app In] in MM; repeat destruct MM as [MM|MM]; try contradiction;
        rewrite <- MM in I; revert I; vm_compute; intuition discriminate. }
    rewrite app_nil_r in P2. rewrite <- P2 in MP. destruct (MP MM) as [(E & -> & ->)|(E & -> & ->)]; cbn [consume andb orb]; rewrite E; reflexivity.
  - clear MM. destruct (given e && str_mem p (short w)) eqn:GM.
    + apply andb_true_iff in GM as [G M]. destruct e as [e|]; [|discriminate].
      destruct (MP M) as [(E & -> & ->)|(E & -> & ->)]; cbn [consume andb orb]; rewrite E; reflexivity.
    + rewrite T. destruct A; destruct (w && B); cbn [app andb orb]; try reflexivity.
      * destruct e; reflexivity.
      * destruct e; reflexivity.
      * unfold rest_kind. destruct (negative_number x); [reflexivity|]. destruct (existsb (N.eqb 32) x); reflexivity.
Qed.

(** *** all arguments *)
Lemma flag_schema : flag = schema_flag.
Proof. reflexivity. Qed.
Lemma calls_dashes w x : calls (long w) x -> exists r, x = 45%N :: 45%N :: r.
Proof. intros (p & v & q & H & _). apply starts_with_iff in H as (z & ->). exists z. reflexivity. Qed.
Lemma In_long w o : In o (long w) <-> o = help \/ w = true /\ o = flag.
Proof. unfold long. destruct w; cbn [In]; intuition congruence. Qed.
Lemma no_eq_help q1 q2 : help = q1 ++ q2 -> ~ In 61%N q1.
Proof.
  intros E I. assert (J : In 61%N help) by (rewrite E; apply in_or_app; auto). revert J. vm_compute. intuition discriminate.
Qed.
Lemma no_eq_flag q1 q2 : flag = q1 ++ q2 -> ~ In 61%N q1.
Proof.
  intros E I. assert (J : In 61%N flag) by (rewrite E; apply in_or_app; auto). revert J. vm_compute. intuition discriminate.
Qed.
Lemma calls_spec w r :
  let x := 45%N :: 45%N :: r in
  let (p, _) := partition 61 x in
  calls (long w) x <-> starts_with p help || w && starts_with p flag = true.
Proof.
  intros x. pose proof (partition_spec 61 x) as P. destruct (partition 61 x) as [p e]. destruct P as [P1 P2].
  rewrite orb_true_iff, andb_true_iff, !starts_with_iff. split.
  - intros (p' & v & q & _ & N1 & I & E). destruct (partition_unique 61 p e p' v P1 N1) as [-> ->]; [rewrite <- P2; exact E|].
    apply In_long in I as [I|[-> I]]; eauto.
  - assert (G : forall q, In (p ++ q) (long w) -> calls (long w) x).
    { intros q I. exists p, e, q. repeat split; auto. }
    intros [(q & E)|[-> (q & E)]]; apply (G q); rewrite <- E, In_long; auto.
Qed.

Definition means (w : bool) (x : str) (k : kind) : Prop :=
  (k = KWord <-> word (long w) x) /\ (k = KUnknown <-> unknown (long w) x)
  /\ (k = KHelp <-> wants_help x) /\ (k = KFlag <-> wants_flag (long w) x) /\ (k = KUnclear <-> unclear (long w) x).
Lemma help_dashes x : wants_help x -> (exists r, x = "-h" ++ r) \/ exists r, r <> [] /\ x = 45%N :: 45%N :: r.
Proof.
  intros [(q & E & L)|(k & r & E & _)]; [|left; eauto]. right.
  destruct x as [|c [|d [|f x]]]; cbn in L; try lia. injection E as <- <- E. exists (f :: x). split; [discriminate|reflexivity].
Qed.
Lemma flag_dashes w x : wants_flag (long w) x -> exists r, r <> [] /\ x = 45%N :: 45%N :: r.
Proof.
  intros (q & _ & E & L). destruct x as [|c [|d [|f x]]]; cbn in L; try lia. injection E as <- <- E. exists (f :: x).
  split; [discriminate|reflexivity].
Qed.
Lemma unclear_dashes w x : unclear (long w) x -> exists r, r <> [] /\ x = 45%N :: 45%N :: r.
Proof. intros (_ & v & ->). exists (61%N :: v). split; [discriminate|reflexivity]. Qed.
Ltac five := split; [split|split; [split|split; [split|split; split]]].

Lemma kind_spec w x : x <> "--" -> means w x (kind_of (short w) x).
Proof.
  intros ND. unfold means.
  destruct x as [|c x].
  { change (kind_of (short w) []) with KWord. five; intros H; try discriminate H; try reflexivity.
    - left. intros r. discriminate.
    - destruct H as [(? & ? & E) _]. discriminate E.
    - apply help_dashes in H as [(? & E)|(? & _ & E)]; discriminate E.
    - apply flag_dashes in H as (? & _ & E). discriminate E.
    - apply unclear_dashes in H as (? & _ & E). discriminate E. }
  destruct (N.eqb_spec c 45) as [->|NC].
  2:{ assert (E : kind_of (short w) (c :: x) = KWord).
      { unfold kind_of, parse_optional. destruct (N.eqb_spec c 45); [contradiction|reflexivity]. }
      rewrite E. five; intros H; try discriminate H; try reflexivity.
      - left. intros r F. injection F as F _. contradiction.
      - destruct H as [(? & ? & F) _]. injection F as F _. contradiction.
      - apply help_dashes in H as [(? & F)|(? & _ & F)]; injection F as F _; contradiction.
      - apply flag_dashes in H as (? & _ & F). injection F as F _; contradiction.
      - apply unclear_dashes in H as (? & _ & F). injection F as F _; contradiction. }
  destruct x as [|c x].
  { assert (E : kind_of (short w) [45%N] = KWord) by (destruct w; reflexivity).
    rewrite E. five; intros H; try discriminate H; try reflexivity.
    - right. left. reflexivity.
    - destruct H as [(? & ? & F) _]. discriminate F.
    - apply help_dashes in H as [(? & F)|(? & _ & F)]; discriminate F.
    - apply flag_dashes in H as (? & _ & F). discriminate F.
    - apply unclear_dashes in H as (? & _ & F). discriminate F. }
  destruct (N.eqb_spec c 45) as [->|NC].
  - (* two dashes *)
    assert (NR : x <> []) by (intros ->; apply ND; reflexivity).
    pose proof (kind_double w x NR) as K. pose proof (calls_spec w x) as CS. cbv zeta in K, CS.
    set (y := 45%N :: 45%N :: x) in *. pose proof (partition_spec 61 y) as P. destruct (partition 61 y) as [p e]. destruct P as [P1 P2].
    rewrite K. clear K. change "--help" with help. rewrite <- flag_schema.
    assert (SH : ~ short_help y) by (intros (r & E); discriminate E).
    assert (HH : wants_help y <-> e = None /\ starts_with p help = true).
    { rewrite starts_with_iff. split.
      - intros [(q & E & L)|(k & r & E & _)]; [|discriminate E].
        destruct (partition_unique 61 p e y None P1) as [-> ->]; [apply (no_eq_help _ _ E)|rewrite app_nil_r; congruence|eauto].
      - intros (-> & q & E). rewrite app_nil_r in P2. subst p. left. exists q. split; [exact E|]. unfold y. destruct x; [contradiction|cbn; lia]. }
    assert (FF : wants_flag (long w) y <-> w = true /\ e = None /\ starts_with p flag = true).
    { rewrite starts_with_iff. split.
      - intros (q & I & E & L). apply In_long in I as [I|[W _]]; [discriminate I|].
        destruct (partition_unique 61 p e y None P1) as [-> ->]; [apply (no_eq_flag _ _ E)|rewrite app_nil_r; congruence|eauto].
      - intros (-> & -> & q & E). rewrite app_nil_r in P2. subst p. exists q. split; [apply In_long; auto|]. split; [exact E|].
        unfold y. destruct x; [contradiction|cbn; lia]. }
    assert (UU : unclear (long w) y <-> starts_with p help && (w && starts_with p flag) = true).
    { rewrite !andb_true_iff, !starts_with_iff. split.
      - intros (I & v & E). apply In_long in I as [I|[W _]]; [discriminate I|].
        destruct (partition_unique 61 p e "--" (Some v) P1) as [-> ->]; [vm_compute; intuition discriminate|rewrite <- P2, E; reflexivity|].
        split; [exists "help"; reflexivity|]. split; [exact W|exists "use-reqif-schema"; reflexivity].
      - intros ((q1 & E1) & -> & (q2 & E2)). split; [apply In_long; auto|].
        unfold y in P2. destruct p as [|c1 [|c2 [|c3 p]]].
        + destruct e; discriminate P2.
        + destruct e; injection P2; intros; discriminate.
        + injection P2 as <- <- P2. destruct e as [e|]; [|subst x; contradiction]. exists e. unfold y. rewrite P2. reflexivity.
        + exfalso. injection E1 as _ _ E1 _. injection E2 as _ _ E2 _. congruence. }
    assert (WW : word (long w) y <-> ~ calls (long w) y /\ (negative y \/ In 32%N y)).
    { unfold word. split.
      - intros [H|[H|H]]; [contradiction (H _ eq_refl)|discriminate H|tauto].
      - intros H. right. right. tauto. }
    assert (NN : unknown (long w) y <-> ~ calls (long w) y /\ ~ (negative y \/ In 32%N y)).
    { unfold unknown. split; [tauto|]. intros H. split; [exists 45%N, x; reflexivity|]. tauto. }
    assert (UX : starts_with p help && (w && starts_with p flag) = true -> e <> None).
    { intros H. apply UU in H. destruct H as (_ & v & E).
      destruct (partition_unique 61 p e "--" (Some v) P1) as [_ ->]; [vm_compute; intuition discriminate|rewrite <- P2, E; reflexivity|discriminate]. }
    rewrite HH, FF, UU, WW, NN, CS, <- rest_word. clear HH FF UU WW NN CS.
    destruct (starts_with p help), w, (starts_with p flag), e, (rest_cases y) as [-> | ->]; cbn [andb orb];
      intuition congruence.
  - (* one dash *)
    set (y := 45%N :: c :: x) in *. assert (K : kind_of (short w) y = _) by exact (kind_single w c x NC).
    rewrite K. clear K.
    assert (CC : ~ calls (long w) y) by (intros H; apply calls_dashes in H as (r & E); injection E as E _; contradiction).
    assert (FF : ~ wants_flag (long w) y) by (intros H; apply flag_dashes in H as (r & _ & E); injection E as E _; contradiction).
    assert (UU : ~ unclear (long w) y) by (intros H; apply unclear_dashes in H as (r & _ & E); injection E as E _; contradiction).
    assert (SS : short_help y <-> c = 104%N).
    { split; [intros (r & E); injection E as E _; exact E|]. intros ->. exists x. reflexivity. }
    assert (HH : wants_help y <-> c = 104%N /\ exists k r, x = repeat 104%N k ++ r /\ tail_ok r).
    { split.
      - intros [(q & E & _)|(k & r & E & T)]; [injection E as E _; congruence|]. injection E as E1 E2. eauto.
      - intros (-> & k & r & -> & T). right. exists k, r. split; [reflexivity|exact T]. }
    assert (WW : word (long w) y <-> c <> 104%N /\ (negative y \/ In 32%N y)).
    { unfold word. split.
      - intros [H|[H|H]]; [contradiction (H _ eq_refl)|discriminate H|tauto].
      - intros H. right. right. tauto. }
    assert (NN : unknown (long w) y <-> c <> 104%N /\ ~ (negative y \/ In 32%N y)).
    { unfold unknown. split; [tauto|]. intros H. split; [exists c, x; reflexivity|]. tauto. }
    rewrite HH, WW, NN, <- rest_word. clear CC SS HH WW NN. destruct (N.eqb_spec c 104) as [->|N104].
    + destruct x as [|d x].
      { five; intros H; try discriminate H; try tauto. split; [reflexivity|]. exists 0, []. split; [reflexivity|exact I]. }
      destruct (N.eqb_spec d 61) as [->|N61].
      { five; intros H; try discriminate H; try tauto. exfalso. destruct H as (_ & [|k] & r & E & T); cbn [repeat app] in E; [|discriminate].
        subst r. apply T. cbn. tauto. }
      pose proof (chain_spec w (d :: x)) as CH. cbn [hd_error] in CH. specialize (CH ltac:(congruence)).
      destruct (chain (short w) false (d :: x)).
      * destruct (proj1 CH eq_refl) as [_ G]. five; intros H; try discriminate H; try tauto; auto.
      * five; intros H; try discriminate H; try tauto. exfalso. destruct H as [_ H].
        assert (NE : d :: x <> []) by discriminate. assert (F : false = true) by (apply CH; split; assumption). discriminate F.
    + fold y. destruct (rest_cases y) as [-> | ->]; five; intros H; try discriminate H; try contradiction; try tauto.
      split; [exact N104|discriminate].
Qed.

(** ** The arguments of a command *)
Definition options (w : bool) : list str := short w.
Lemma options_short c : options_of c = short (str_eqb c "validate").
Proof. reflexivity. Qed.
Lemma options_long c : long_options (Some c) = long (str_eqb c "validate").
Proof. reflexivity. Qed.

Lemma dashes_special w : ~ word (long w) "--" /\ ~ unknown (long w) "--" /\ ~ wants_help "--" /\ ~ wants_flag (long w) "--" /\ ~ unclear (long w) "--".
Proof.
  assert (C : calls (long w) "--").
  { exists "--", None, "help". repeat split; [vm_compute; intuition discriminate|]. destruct w; left; reflexivity. }
  repeat split.
  - intros [H|[H|H]]; [contradiction (H "-" eq_refl)|discriminate H|tauto].
  - intros (_ & H & _). contradiction.
  - intros H. apply help_dashes in H as [(r & E)|(r & N & E)]; [discriminate E|injection E as <-; contradiction].
  - intros H. apply flag_dashes in H as (r & N & E). injection E as <-; contradiction.
  - intros (_ & v & E). discriminate E.
Qed.

(** [sub_loop], by the kind of the first argument *)
Lemma sub_loop_cons w n prev x r : x <> "--" ->
  sub_loop (short w) n prev (x :: r)
  = match kind_of (short w) x with
    | KWord => match n with S n' => add_word x (sub_loop (short w) n' true r) | O => extra (sub_loop (short w) 0 false r) end
    | KUnknown => extra (sub_loop (short w) n false r)
    | KHelp => SubHelp
    | KFlag => set_flag (sub_loop (short w) n false r)
    | KWrong | KUnclear => SubError
    end.
Proof.
  intros ND. cbn [sub_loop]. destruct (str_eqb_spec x "--"); [contradiction|]. unfold kind_of.
  destruct (parse_optional (short w) x) as [| | |o sep e]; try reflexivity. destruct (consume (short w) o sep e) as [[|]|]; reflexivity.
Qed.

Lemma loop_takes w args : forall n prev ws f,
  sub_loop (short w) n prev args = SubDone ws f false /\ length ws = n <-> takes (long w) prev args ws f /\ length ws = n.
Proof.
  induction args as [|x r IH]; intros n prev ws f.
  - cbn [sub_loop]. split.
    + intros [H L]. injection H as <- <-. split; [constructor|exact L].
    + intros [H L]. inversion H; subst. auto.
  - destruct (str_eqb_spec x "--") as [->|ND].
    + assert (E : sub_loop (short w) n prev ("--" :: r)
        = SubDone (firstn n r) false (negb (prev || ((0 <? n) && (0 <? length r))) || (n <? length r))) by reflexivity.
      rewrite E. clear E. destruct (dashes_special w) as (D1 & D2 & D3 & D4 & D5). split.
      * intros [H L]. injection H as <- <- H. apply orb_false_iff in H as [H1 H2]. apply negb_false_iff in H1.
        apply Nat.ltb_ge in H2. split; [|exact L]. rewrite (firstn_all2 r H2). constructor.
        apply orb_true_iff in H1 as [->|H1]; [auto|]. left. apply andb_true_iff in H1 as [_ H1]. apply Nat.ltb_lt in H1. destruct r; [cbn in H1; lia|discriminate].
      * intros [H L]. inversion H as [|? ? ? ? ? W T|? ? ? ? ? W T|? ? N]; subst; try contradiction.
        split; [|reflexivity]. rewrite firstn_all. f_equal.
        rewrite Nat.ltb_irrefl, orb_false_r. apply negb_false_iff, orb_true_iff. destruct N as [N| ->]; [right|auto].
        destruct ws; [contradiction|reflexivity].
    + rewrite (sub_loop_cons w n prev x r ND). destruct (kind_spec w x ND) as (K1 & K2 & K3 & K4 & K5).
      destruct (kind_of (short w) x) eqn:KO.
      * assert (W : word (long w) x) by (apply K1; reflexivity). destruct n as [|n].
        -- split.
           ++ intros [H _]. destruct (sub_loop (short w) 0 false r); discriminate H.
           ++ intros [H L]. inversion H as [|? ? ? ? ? _ T|? ? ? ? ? F T|]; subst; [discriminate L| |contradiction].
              apply K4 in F. discriminate F.
        -- split.
           ++ intros [H L]. destruct (sub_loop (short w) n true r) as [| |ws' f' ex'] eqn:S; try discriminate H. injection H as <- -> ->.
              injection L as L. destruct (proj1 (IH n true ws' f) (conj S L)) as [T _]. split; [constructor; assumption|cbn; congruence].
           ++ intros [H L]. inversion H as [|? ? ? ws' ? _ T|? ? ? ? ? F T|]; subst; [| |contradiction].
              ** injection L as L. destruct (proj2 (IH n true ws' f) (conj T L)) as [S _]. rewrite S. split; [reflexivity|cbn; congruence].
              ** apply K4 in F. discriminate F.
      * split.
        -- intros [H _]. destruct (sub_loop (short w) n false r); discriminate H.
        -- intros [H _]. inversion H as [|? ? ? ? ? W T|? ? ? ? ? F T|]; subst; [apply K1 in W; discriminate W|apply K4 in F; discriminate F|contradiction].
      * split; [intros [H _]; discriminate H|].
        intros [H _]. inversion H as [|? ? ? ? ? W T|? ? ? ? ? F T|]; subst; [apply K1 in W; discriminate W|apply K4 in F; discriminate F|contradiction].
      * assert (W : wants_flag (long w) x) by (apply K4; reflexivity). split.
        -- intros [H L]. destruct (sub_loop (short w) n false r) as [| |ws' f' ex'] eqn:S; try discriminate H. injection H as -> <- ->.
           destruct (proj1 (IH n false ws f') (conj S L)) as [T _]. split; [econstructor; eassumption|exact L].
        -- intros [H L]. inversion H as [|? ? ? ? ? F T|? ? ? ? f' _ T|]; subst; [apply K1 in F; discriminate F| |contradiction].
           destruct (proj2 (IH (length ws) false ws f') (conj T eq_refl)) as [S _]. rewrite S. split; reflexivity.
      * split; [intros [H _]; discriminate H|].
        intros [H _]. inversion H as [|? ? ? ? ? W T|? ? ? ? ? F T|]; subst; [apply K1 in W; discriminate W|apply K4 in F; discriminate F|contradiction].
      * split; [intros [H _]; discriminate H|].
        intros [H _]. inversion H as [|? ? ? ? ? W T|? ? ? ? ? F T|]; subst; [apply K1 in W; discriminate W|apply K4 in F; discriminate F|contradiction].
Qed.
Lemma loop_done_le w args : forall n prev ws f ex, sub_loop (short w) n prev args = SubDone ws f ex -> length ws <= n.
Proof.
  induction args as [|x r IH]; intros n prev ws f ex.
  - cbn [sub_loop]. intros H. injection H as <- <- <-. cbn. lia.
  - destruct (str_eqb_spec x "--") as [->|ND].
    + assert (E : sub_loop (short w) n prev ("--" :: r)
        = SubDone (firstn n r) false (negb (prev || ((0 <? n) && (0 <? length r))) || (n <? length r))) by reflexivity.
      rewrite E. intros H. injection H as <- _ _. rewrite firstn_length. lia.
    + rewrite (sub_loop_cons w n prev x r ND). destruct (kind_of (short w) x); try discriminate.
      * destruct n as [|n].
        -- destruct (sub_loop (short w) 0 false r) as [| |ws' f' ex'] eqn:S; try discriminate. intros H. injection H as <- _ _. exact (IH _ _ _ _ _ S).
        -- destruct (sub_loop (short w) n true r) as [| |ws' f' ex'] eqn:S; try discriminate. intros H. injection H as <- _ _. cbn. specialize (IH _ _ _ _ _ S). lia.
      * destruct (sub_loop (short w) n false r) as [| |ws' f' ex'] eqn:S; try discriminate. intros H. injection H as <- _ _. exact (IH _ _ _ _ _ S).
      * destruct (sub_loop (short w) n false r) as [| |ws' f' ex'] eqn:S; try discriminate. intros H. injection H as <- _ _. exact (IH _ _ _ _ _ S).
Qed.
Lemma loop_help w args : forall n prev,
  sub_loop (short w) n prev args = SubHelp
  <-> exists before h after, args = before ++ h :: after /\ Forall (passed_over (long w)) before /\ wants_help h.
Proof.
  induction args as [|x r IH]; intros n prev.
  - split; [discriminate|]. intros ([|? ?] & h & after & E & _); discriminate E.
  - destruct (str_eqb_spec x "--") as [->|ND].
    + split; [discriminate|]. destruct (dashes_special w) as (D1 & D2 & D3 & D4 & D5).
      intros ([|y b] & h & after & E & F & H); injection E as <- E; [contradiction|].
      inversion F as [|? ? [P|[P|P]]]; contradiction.
    + rewrite (sub_loop_cons w n prev x r ND). destruct (kind_spec w x ND) as (K1 & K2 & K3 & K4 & K5).
      assert (STEP : passed_over (long w) x -> ~ wants_help x ->
                     ((exists before h after, x :: r = before ++ h :: after /\ Forall (passed_over (long w)) before /\ wants_help h)
                      <-> exists before h after, r = before ++ h :: after /\ Forall (passed_over (long w)) before /\ wants_help h)).
      { intros PO NH. split.
        - intros ([|y b] & h & after & E & F & H); injection E as <- E; [contradiction|]. inversion F; subst. eauto 8.
        - intros (b & h & after & -> & F & H). exists (x :: b), h, after. repeat split; auto. }
      destruct (kind_of (short w) x) eqn:KO.
      * rewrite STEP; [|left; apply K1; reflexivity|intros H; apply K3 in H; discriminate H].
        destruct n as [|n].
        -- rewrite <- (IH 0 false). destruct (sub_loop (short w) 0 false r); split; (discriminate || reflexivity).
        -- rewrite <- (IH n true). destruct (sub_loop (short w) n true r); split; (discriminate || reflexivity).
      * rewrite STEP; [|right; left; apply K2; reflexivity|intros H; apply K3 in H; discriminate H].
        rewrite <- (IH n false). destruct (sub_loop (short w) n false r); split; (discriminate || reflexivity).
      * split; [|reflexivity]. intros _. exists [], x, r. repeat split; [constructor|]. apply K3. reflexivity.
      * rewrite STEP; [|right; right; apply K4; reflexivity|intros H; apply K3 in H; discriminate H].
        rewrite <- (IH n false). destruct (sub_loop (short w) n false r); split; (discriminate || reflexivity).
      * split; [discriminate|]. intros ([|y b] & h & after & E & F & H); injection E as <- E; [apply K3 in H; discriminate H|].
        inversion F as [|? ? [P|[P|P]]]; subst; [apply K1 in P|apply K2 in P|apply K4 in P]; discriminate P.
      * split; [discriminate|]. intros ([|y b] & h & after & E & F & H); injection E as <- E; [apply K3 in H; discriminate H|].
        inversion F as [|? ? [P|[P|P]]]; subst; [apply K1 in P|apply K2 in P|apply K4 in P]; discriminate P.
Qed.
Lemma ambiguous_cons w x r : x <> "--" ->
  ambiguous (short w) (x :: r) = match kind_of (short w) x with KUnclear => true | _ => ambiguous (short w) r end.
Proof.
  intros ND. cbn [ambiguous]. destruct (str_eqb_spec x "--"); [contradiction|]. unfold kind_of.
  destruct (parse_optional (short w) x) as [| | |o sep e]; try reflexivity. destruct (consume (short w) o sep e) as [[|]|]; reflexivity.
Qed.
Lemma ambiguous_spec w args :
  ambiguous (short w) args = false <-> Forall (fun x => ~ unclear (long w) x) (before_dashes args).
Proof.
  induction args as [|x r IH]; [split; [constructor|reflexivity]|]. cbn [before_dashes].
  destruct (str_eqb_spec x "--") as [->|ND]; [split; [constructor|reflexivity]|].
  rewrite (ambiguous_cons w x r ND). destruct (kind_spec w x ND) as (_ & _ & _ & _ & K5).
  destruct (kind_of (short w) x) eqn:KO;
    try (rewrite IH; split; [intros H; constructor; [|exact H]; intros U; apply K5 in U; discriminate U|intros H; inversion H; assumption]).
  split; [discriminate|]. intros H. inversion H as [|? ? U]. exfalso. apply U, K5. reflexivity.
Qed.
Lemma takes_clear w b args ws f : takes (long w) b args ws f -> Forall (fun x => ~ unclear (long w) x) (before_dashes args).
Proof.
  destruct (dashes_special w) as (D1 & D2 & D3 & D4 & D5).
  induction 1 as [b|b x r ws f W T IH|b x r ws f W T IH|b ws N]; cbn [before_dashes]; try constructor.
  - destruct (str_eqb_spec x "--") as [->|ND]; [constructor|]. constructor; [|exact IH]. intros U.
    destruct (kind_spec w x ND) as (K1 & _ & _ & _ & K5). apply K1 in W. apply K5 in U. congruence.
  - destruct (str_eqb_spec x "--") as [->|ND]; [constructor|]. constructor; [|exact IH]. intros U.
    destruct (kind_spec w x ND) as (_ & _ & _ & K4 & K5). apply K4 in W. apply K5 in U. congruence.
Qed.
Lemma nth_two (ws : list str) : length ws = 2 -> exists i o, ws = [i; o].
Proof. destruct ws as [|i [|o [|? ?]]]; cbn; intros H; try discriminate H. eauto. Qed.
Lemma takes_function w args : forall b ws f ws' f',
  takes (long w) b args ws f -> takes (long w) b args ws' f' -> ws = ws' /\ f = f'.
Proof.
  destruct (dashes_special w) as (D1 & D2 & D3 & D4 & D5).
  assert (EX : forall x, word (long w) x -> wants_flag (long w) x -> False).
  { intros x H1 H2. destruct (str_eqb_spec x "--") as [->|ND]; [contradiction|]. destruct (kind_spec w x ND) as (K1 & _ & _ & K4 & _).
    apply K1 in H1. apply K4 in H2. congruence. }
  induction args as [|x r IH]; intros b ws f ws' f' T1 T2.
  - inversion T1; inversion T2; subst; auto.
  - inversion T1 as [|? ? ? ? ? W1 U1|? ? ? ? ? W1 U1|? ? N1]; subst;
    inversion T2 as [|? ? ? ? ? W2 U2|? ? ? ? ? W2 U2|? ? N2]; subst; try contradiction; try (exfalso; eapply EX; eassumption).
    + destruct (IH _ _ _ _ _ U1 U2) as [-> ->]. auto.
    + destruct (IH _ _ _ _ _ U1 U2) as [-> _]. auto.
    + auto.
Qed.

Lemma sub_done c args ws f :
  In c commands ->
  parse_sub c args = PArgs (Arguments c (nth_error ws 0) (nth_error ws 1) (if str_eqb c "validate" then Some f else None))
  /\ length ws = positionals_of c
  \/ ~ (takes (long_options (Some c)) false args ws f /\ length ws = positionals_of c).
Proof.
  intros I. unfold parse_sub. rewrite options_short, options_long. set (w := str_eqb c "validate").
  destruct (ambiguous (short w) args) eqn:A.
  { right. intros [T _]. apply takes_clear in T. apply ambiguous_spec in T. congruence. }
  destruct (sub_loop (short w) (positionals_of c) false args) as [| |ws' f' ex'] eqn:S;
    try (right; intros H; apply loop_takes in H as [H _]; congruence).
  destruct (Nat.eq_dec (length ws) (positionals_of c)) as [L|L]; [|right; intros [_ H]; contradiction].
  destruct (list_eq_dec (list_eq_dec N.eq_dec) ws' ws) as [->|N]; [|right; intros H; apply loop_takes in H as [H _]; congruence].
  destruct (bool_dec f' f) as [->|N]; [|right; intros H; apply loop_takes in H as [H _]; congruence].
  destruct ex'; [right; intros H; apply loop_takes in H as [H _]; congruence|].
  left. rewrite L, Nat.ltb_irrefl. split; [reflexivity|reflexivity].
Qed.
Lemma sub_args c args a : parse_sub c args = PArgs a ->
  exists ws f, takes (long_options (Some c)) false args ws f /\ length ws = positionals_of c.
Proof.
  unfold parse_sub. rewrite options_short, options_long. set (w := str_eqb c "validate").
  destruct (ambiguous (short w) args) eqn:A; [discriminate|].
  destruct (sub_loop (short w) (positionals_of c) false args) as [| |ws f ex] eqn:S; try discriminate.
  destruct ex; [discriminate|]. cbn [orb]. destruct (Nat.ltb_spec (length ws) (positionals_of c)) as [L|L]; [discriminate|].
  intros _. exists ws, f. apply loop_takes. pose proof (loop_done_le _ _ _ _ _ _ _ S). split; [exact S|lia].
Qed.
Lemma sub_help c args q : parse_sub c args = PHelp q <->
  q = Some c
  /\ (exists before h after, args = before ++ h :: after /\ Forall (passed_over (long_options (Some c))) before /\ wants_help h)
  /\ Forall (fun x => ~ unclear (long_options (Some c)) x) (before_dashes args).
Proof.
  unfold parse_sub. rewrite options_short, options_long. set (w := str_eqb c "validate").
  rewrite <- ambiguous_spec, <- (loop_help w args (positionals_of c) false).
  destruct (ambiguous (short w) args); [split; [discriminate|intros (_ & _ & H); discriminate H]|].
  destruct (sub_loop (short w) (positionals_of c) false args) as [| |ws f ex].
  - split; [intros H; injection H as <-; auto|]. intros (-> & _). reflexivity.
  - split; [discriminate|intros (_ & H & _); discriminate H].
  - split; [|intros (_ & H & _); discriminate H]. destruct (ex || (length ws <? positionals_of c)); discriminate.
Qed.

(** ** The program *)
Lemma main_loop_cons ex x r : x <> "--" ->
  main_loop ex (x :: r)
  = match kind_of (short false) x with
    | KWord => if str_mem x commands
               then match parse_sub x r with PArgs a => if ex then PUsage else PArgs a | p => p end else PUsage
    | KUnknown => main_loop true r
    | KHelp | KFlag => PHelp None
    | KWrong | KUnclear => PUsage
    end.
Proof.
  intros ND. cbn [main_loop]. destruct (str_eqb_spec x "--"); [contradiction|]. unfold kind_of. change (short false) with help_options.
  destruct (parse_optional help_options x) as [| | |o sep e]; try reflexivity. destruct (consume help_options o sep e) as [[|]|]; reflexivity.
Qed.
Lemma command_word c : In c commands -> c <> "--" /\ kind_of (short false) c = KWord.
Proof. cbn. intros H. repeat destruct H as [<-|H]; try contradiction; (split; [discriminate|reflexivity]). Qed.
Lemma main_loop_args ex argv a :
  main_loop ex argv = PArgs a <-> ex = false /\ exists c args, argv = c :: args /\ In c commands /\ parse_sub c args = PArgs a.
Proof.
  split.
  - revert ex. induction argv as [|x r IH]; intros ex; [discriminate|].
    destruct (str_eqb_spec x "--") as [->|ND]; [discriminate|]. rewrite (main_loop_cons ex x r ND).
    destruct (kind_of (short false) x); try discriminate.
    + destruct (str_mem x commands) eqn:M; [|discriminate]. apply str_mem_In in M.
      destruct (parse_sub x r) as [a'| |] eqn:S; try discriminate. destruct ex; [discriminate|]. intros H. injection H as ->. eauto 8.
    + intros H. destruct (IH _ H) as [H' _]. discriminate H'.
  - intros (-> & c & args & -> & I & S). destruct (command_word c I) as [ND K]. rewrite (main_loop_cons _ _ _ ND), K.
    apply str_mem_In in I. rewrite I, S. reflexivity.
Qed.
Lemma main_loop_help ex argv q :
  main_loop ex argv = PHelp q
  <-> exists us x rest, argv = us ++ x :: rest /\ Forall (unknown (long_options None)) us
        /\ (wants_help x /\ q = None \/ In x commands /\ parse_sub x rest = PHelp q).
Proof.
  change (long_options None) with (long false). revert ex. induction argv as [|x r IH]; intros ex.
  - split; [discriminate|]. intros ([|? ?] & x & rest & E & _); discriminate E.
  - destruct (dashes_special false) as (D1 & D2 & D3 & D4 & D5). destruct (str_eqb_spec x "--") as [->|ND].
    + split; [discriminate|]. intros ([|u us] & x & rest & E & F & H); injection E as E1 E2.
      * rewrite <- E1 in H. exfalso. destruct H as [[H _]|[H _]]; [contradiction|]. cbn in H. intuition discriminate.
      * inversion F; subst. contradiction.
    + rewrite (main_loop_cons ex x r ND). destruct (kind_spec false x ND) as (K1 & K2 & K3 & K4 & K5).
      assert (NU : kind_of (short false) x <> KUnknown -> forall us y rest, x :: r = us ++ y :: rest -> Forall (unknown (long false)) us ->
                   us = [] /\ y = x /\ rest = r).
      { intros NK [|u us] y rest E F; injection E as E1 E2; [auto|]. inversion F as [|? ? U]; subst. apply K2 in U. contradiction. }
      destruct (kind_of (short false) x) eqn:KO.
      * assert (ALT : (exists us y rest, x :: r = us ++ y :: rest /\ Forall (unknown (long false)) us
                        /\ (wants_help y /\ q = None \/ In y commands /\ parse_sub y rest = PHelp q))
                      <-> In x commands /\ parse_sub x r = PHelp q).
        { split.
          - intros (us & y & rest & E & F & H). destruct (NU ltac:(discriminate) us y rest E F) as (-> & -> & ->).
            destruct H as [[H _]|H]; [apply K3 in H; discriminate H|exact H].
          - intros H. exists [], x, r. auto. }
        rewrite ALT, <- str_mem_In. destruct (str_mem x commands); [|split; [discriminate|intros [H _]; discriminate H]].
        destruct (parse_sub x r) as [a|p|]; split; try discriminate; try (intros [_ H]; discriminate H).
        -- destruct ex; discriminate.
        -- auto.
        -- intros [_ H]. exact H.
      * rewrite IH. assert (U : unknown (long false) x) by (apply K2; reflexivity). split.
        -- intros (us & y & rest & -> & F & H). exists (x :: us), y, rest. repeat split; auto.
        -- intros ([|u us] & y & rest & E & F & H); injection E as <- E.
           ++ exfalso. destruct H as [[H _]|[H _]]; [apply K3 in H; discriminate H|]. apply command_word in H as [_ H]. congruence.
           ++ inversion F; subst. eauto 8.
      * split.
        -- intros H. injection H as <-. exists [], x, r. repeat split; [constructor|]. left. split; [apply K3; reflexivity|reflexivity].
        -- intros (us & y & rest & E & F & H). destruct (NU ltac:(discriminate) us y rest E F) as (-> & -> & ->).
           destruct H as [[_ ->]|[H _]]; [reflexivity|]. apply command_word in H as [_ H]. congruence.
      * exfalso. destruct (proj1 K4 eq_refl) as (z & I & _). apply In_long in I as [I|[I _]]; discriminate I.
      * split; [discriminate|]. intros (us & y & rest & E & F & H). destruct (NU ltac:(discriminate) us y rest E F) as (-> & -> & ->).
        destruct H as [[H _]|[H _]]; [apply K3 in H; discriminate H|]. apply command_word in H as [_ H]. congruence.
      * exfalso. destruct (proj1 K5 eq_refl) as (I & _). apply In_long in I as [I|[I _]]; discriminate I.
Qed.
Lemma program_clear argv : ambiguous help_options argv = false.
Proof.
  change help_options with (short false). apply ambiguous_spec, Forall_forall. intros x _ (I & _). apply In_long in I as [I|[I _]]; discriminate I.
Qed.

(** ** What is asked for *)
Lemma parse_help argv q : parse_args argv = PHelp q <-> asks_help argv q.
Proof.
  unfold parse_args. rewrite program_clear, main_loop_help. split.
  - intros (us & x & rest & -> & F & [[H ->]|[I H]]); [constructor; assumption|].
    apply sub_help in H as (-> & (before & h & after & -> & P & W) & U). constructor; assumption.
  - intros H. destruct H as [us h rest F W|us c before h after F I P W U].
    + exists us, h, rest. auto.
    + exists us, c, (before ++ h :: after). repeat split; auto. right. split; [exact I|]. apply sub_help. repeat split; auto. eauto 8.
Qed.
Lemma parse_asked argv r : asks argv r -> exists a, parse_args argv = PArgs a
  /\ forall t s cwd, main t s cwd a = perform t s cwd r.
Proof.
  intros H. unfold parse_args. rewrite program_clear.
  assert (G : forall c args ws f, In c commands -> takes (long_options (Some c)) false args ws f -> length ws = positionals_of c ->
    main_loop false (c :: args) = PArgs (Arguments c (nth_error ws 0) (nth_error ws 1) (if str_eqb c "validate" then Some f else None))).
  { intros c args ws f I T L. apply main_loop_args. split; [reflexivity|]. exists c, args. repeat split; auto.
    destruct (sub_done c args ws f I) as [[S _]|N]; [exact S|]. contradiction N. auto. }
  destruct H as [args i o f T|args i o f T|args i o f T|args i o f T|args i f T|args f T];
    (eexists; split; [eapply G; [cbn; tauto|exact T|reflexivity]|]; intros; reflexivity).
Qed.
Lemma parse_asks argv a : parse_args argv = PArgs a -> exists r, asks argv r.
Proof.
  unfold parse_args. rewrite program_clear, main_loop_args. intros (_ & c & args & -> & I & S).
  destruct (sub_args c args a S) as (ws & f & T & L). cbn in I.
  repeat destruct I as [<-|I]; try contradiction;
    try (destruct (nth_two ws L) as (i & o & ->); eexists; econstructor; exact T).
  - destruct ws as [|i [|? ?]]; try discriminate L. eexists. econstructor. exact T.
  - destruct ws; try discriminate L. eexists. econstructor. exact T.
Qed.
