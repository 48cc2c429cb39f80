(** Prop_Parallel.v -- C83: several runs at the same time, and runs that die and are started again *)
From Coq Require Import Permutation.
From Verif Require Import Base Xml Utf8 Lxml Py DictProofs Models Progress Parser Serialise Unparser Log Validate Zip Anonymize Dump Argparse Commands SpecCommands Prop_Commands SpecParallel.

(** ** What a request looks at *)
Definition alike (s s' : fs) : Prop := fs_isdir s = fs_isdir s' /\ fs_can_write s = fs_can_write s'.
Lemma apply_alike s c : alike s (apply s c).
Proof. destruct c; split; reflexivity. Qed.
Lemma alike_trans a b c : alike a b -> alike b c -> alike a c.
Proof. unfold alike. intros [A B] [C D]. split; congruence. Qed.
Lemma perform_alike t s s' cwd r : alike s s' -> (forall p, reads r p -> fs_file s' p = fs_file s p) ->
  match r with RValidate _ _ => True | _ => perform t s' cwd r = perform t s cwd r end.
Proof.
  intros [A1 A2] H. assert (D : forall o, output_dir_missing s' o = output_dir_missing s o) by (intros o; unfold output_dir_missing; rewrite A1; reflexivity).
  assert (WB : forall o d, write_bytes s' o d = write_bytes s o d) by (intros; unfold write_bytes; rewrite A2; reflexivity).
  assert (WT : forall o d, write_text s' o d = write_text s o d) by (intros; unfold write_text; rewrite A2; reflexivity).
  destruct r as [i o|i o|i o|i o|i x|]; cbn [perform]; try exact I; try reflexivity; specialize (H i eq_refl).
  - unfold passthrough. rewrite H. destruct (fs_file s i); [|reflexivity]. rewrite D. destruct (output_dir_missing s o); [reflexivity|]. f_equal. destruct (if ends_with _ _ then _ else _); [apply WB|reflexivity].
  - unfold anonymize. rewrite H. destruct (fs_file s i); [|reflexivity]. destruct (anonymize_output t b); [|reflexivity]. rewrite D. destruct (output_dir_missing s o); [reflexivity|]. apply WT.
  - unfold dump. rewrite H. destruct (bind _ _); [apply WT|reflexivity].
  - unfold format. rewrite H. destruct (fs_file s i); [|reflexivity]. destruct (format_bytes b); [apply WB|reflexivity].
Qed.
Lemma changes_alike t s s' cwd r : alike s s' -> (forall p, reads r p -> fs_file s' p = fs_file s p) ->
  changes (perform t s' cwd r) = changes (perform t s cwd r).
Proof.
  intros A H. pose proof (perform_alike t s s' cwd r A H) as P. destruct r as [i o|i o|i o|i o|i x|]; try (rewrite P; reflexivity).
  rewrite (perform_touches t s' cwd (RValidate i x)), (perform_touches t s cwd (RValidate i x)). reflexivity.
Qed.
(** all changes of a request are of a file that it writes, and the first truncates it *)
Definition on (r : request) (c : change) : Prop := exists o, writes r o /\ touches o c.
Lemma perform_on t s cwd r : Forall (on r) (changes (perform t s cwd r)).
Proof.
  pose proof (perform_touches t s cwd r) as T. destruct r as [i o|i o|i o|i o|i x|]; try (rewrite T; constructor);
    (eapply Forall_impl; [|exact T]); intros c Hc; exists o; split; [reflexivity|exact Hc|reflexivity|exact Hc|reflexivity|exact Hc|reflexivity|exact Hc].
Qed.
Definition fresh_start (l : list change) : Prop := match l with [] => True | Truncate _ :: _ => True | Append _ _ :: _ => False end.
Lemma write_bytes_fresh s o d : fresh_start (changes (write_bytes s o d)).
Proof. unfold write_bytes. destruct (fs_can_write s o); exact I. Qed.
Lemma write_text_fresh s o d : fresh_start (changes (write_text s o d)).
Proof. unfold write_text. destruct (fs_can_write s o); [|exact I]. destruct (utf8_encode d); exact I. Qed.
Lemma perform_fresh t s cwd r : fresh_start (changes (perform t s cwd r)).
Proof.
  destruct r as [i o|i o|i o|i o|i x|]; cbn [perform].
  - unfold passthrough. destruct (fs_file s i); [|exact I]. destruct (output_dir_missing s o); [exact I|]. destruct (if ends_with _ i then _ else _); [apply write_bytes_fresh|exact I].
  - unfold anonymize. destruct (fs_file s i); [|exact I]. destruct (anonymize_output t _); [|exact I]. destruct (output_dir_missing s o); [exact I|apply write_text_fresh].
  - unfold dump. destruct (bind _ _); [apply write_text_fresh|exact I].
  - unfold format. destruct (fs_file s i); [|exact I]. destruct (format_bytes _); [apply write_bytes_fresh|exact I].
  - unfold validate_run. destruct (validate _ _ _) as [d [ls e]]. exact I.
  - exact I.
Qed.
Lemma writes_one r o o' : writes r o -> writes r o' -> o = o'.
Proof. destruct r; cbn; try contradiction; congruence. Qed.
Lemma apply_other s c o p : touches o c -> p <> o -> fs_file (apply s c) p = fs_file s p.
Proof. intros T N. exact (apply_all_other s [c] o p N (Forall_cons _ T (Forall_nil _))). Qed.
Lemma apply_same s s' c o : touches o c -> fs_file s o = fs_file s' o -> fs_file (apply s c) o = fs_file (apply s' c) o.
Proof. intros T E. destruct c as [p|p b]; cbn in T; subst p; cbn; rewrite str_eqb_refl; [reflexivity|rewrite E; reflexivity]. Qed.

Section History.
Variables (t : tools) (cwd : str) (jobs : list request) (s : fs).
Hypothesis IND : independent jobs.
Definition planned (r : request) : list change := changes (perform t s cwd r).
(** a file a job writes, and how far the job is *)
Definition shows_part (w : world) (r : request) (o : str) (k : nat) : Prop :=
  fs_file (w_fs w) o = fs_file (crashed s (perform t s cwd r) k) o.
Record fine (w : world) : Prop := {
  f_alike : alike s (w_fs w);
  f_other : forall p, (forall r, In r jobs -> ~ writes r p) -> fs_file (w_fs w) p = fs_file s p;
  f_part : forall r o, In r jobs -> writes r o -> exists k, shows_part w r o k;
  f_job : forall j l, w_jobs w j = Some l -> exists r k, nth_error jobs j = Some r /\ k <= length (planned r)
            /\ l = skipn k (planned r) /\ (0 < k -> forall o, writes r o -> shows_part w r o k) }.
Lemma reads_unchanged w r p : fine w -> In r jobs -> reads r p -> fs_file (w_fs w) p = fs_file s p.
Proof. intros F I R. apply (f_other w F). intros r' I' W. exact (proj2 IND r' r p I' I W R). Qed.
Lemma crashed_next r k c l : skipn k (planned r) = c :: l -> crashed s (perform t s cwd r) (S k) = apply (crashed s (perform t s cwd r) k) c
  /\ skipn (S k) (planned r) = l /\ S k <= length (planned r).
Proof.
  unfold crashed. fold (planned r). generalize (planned r). intros q. revert k s. induction q as [|x q IH]; intros [|k] z E; try discriminate.
  - cbn in E. assert (x = c /\ q = l) as [-> ->] by (split; congruence). cbn. repeat split. lia.
  - cbn [skipn] in E. destruct (IH k (apply z x) E) as (A & B & C). split; [exact A|]. split; [exact B|cbn; lia].
Qed.
Lemma history_fine w : history t cwd jobs s w -> fine w.
Proof.
  induction 1 as [|w w' _ F E].
  - constructor; cbn; [split; reflexivity|reflexivity| |discriminate]. intros r o _ _. exists 0. reflexivity.
  - destruct E as [j r Hj Hn|j c l Hl|j l Hl].
    + assert (I : In r jobs) by (eapply nth_error_In; exact Hj).
      constructor; cbn [w_fs w_jobs]; [apply F|apply F|apply F|]. intros j' l' H. unfold put_job in H.
      destruct (Nat.eqb_spec j' j) as [->|N]; [|exact (f_job w F j' l' H)]. exists r, 0. split; [exact Hj|]. split; [lia|]. split; [|lia].
      assert (X : changes (perform t (w_fs w) cwd r) = planned r).
      { apply changes_alike; [apply F|]. intros p R. exact (reads_unchanged w r p F I R). }
      cbn [skipn]. congruence.
    + destruct (f_job w F j _ Hl) as (r & k & Hj & Hk & El & HP). assert (I : In r jobs) by (eapply nth_error_In; exact Hj).
      destruct (crashed_next r k c l (eq_sym El)) as (CN & SK & Hk').
      assert (T : on r c). { pose proof (perform_on t s cwd r) as Q. fold (planned r) in Q. rewrite <- (firstn_skipn k (planned r)), <- El in Q. apply Forall_app in Q. destruct Q as [_ Q]. inversion Q; assumption. }
      destruct T as (o & W & T).
      assert (NOW : fs_file (apply (w_fs w) c) o = fs_file (crashed s (perform t s cwd r) (S k)) o).
      { rewrite CN. destruct k as [|k].
        - pose proof (perform_fresh t s cwd r) as FR. fold (planned r) in FR. cbn [skipn] in El. rewrite <- El in FR. destruct c as [q|q b]; [|contradiction].
          cbn in T. subst q. cbn. rewrite str_eqb_refl. reflexivity.
        - apply apply_same; [exact T|]. apply HP; [lia|exact W]. }
      constructor; cbn [w_fs w_jobs].
      * eapply alike_trans; [apply F|apply apply_alike].
      * intros p N. rewrite (apply_other _ _ o p T); [exact (f_other w F p N)|]. intros ->. exact (N r I W).
      * intros r' o' I' W'. destruct (list_eq_dec N.eq_dec o' o) as [->|N].
        -- destruct (In_nth_error _ _ I') as [j' Hj']. assert (j = j') by (eapply (proj1 IND); eauto). subst j'. assert (r' = r) by congruence. subst r'. exists (S k). exact NOW.
        -- destruct (f_part w F r' o' I' W') as [k' P']. exists k'. unfold shows_part in *. cbn [w_fs]. rewrite (apply_other _ _ o o' T N). exact P'.
      * intros j' l' H. unfold put_job in H. destruct (Nat.eqb_spec j' j) as [->|N].
        -- assert (l' = l) by congruence. subst l'. exists r, (S k). split; [exact Hj|]. split; [exact Hk'|]. split; [symmetry; exact SK|]. intros _ o' W'. rewrite (writes_one r o' o W' W). exact NOW.
        -- destruct (f_job w F j' l' H) as (r' & k' & Hj' & Hl' & E' & P'). exists r', k'. split; [exact Hj'|]. split; [exact Hl'|]. split; [exact E'|]. intros K o' W'.
           unfold shows_part. cbn [w_fs]. rewrite (apply_other _ _ o o' T); [exact (P' K o' W')|]. intros ->. apply N. eapply (proj1 IND); eauto.
    + constructor; cbn [w_fs w_jobs]; [apply F|apply F|apply F|]. intros j' l' H. unfold put_job in H. destruct (Nat.eqb_spec j' j) as [->|N]; [discriminate|exact (f_job w F j' l' H)].
Qed.
End History.

(** Independent jobs, started, dying and started again in any order and at the same
    time: at every moment
    - the files that none of them writes are as they were;
    - the file a job writes is as it was or as some moment of a single, undisturbed
      run would leave it;
    - if a job has run to its end, its file is what a single, undisturbed run leaves;
    - a job that is started now does what it would have done at the beginning. *)
Theorem C83_independent_jobs_do_not_disturb_each_other :
  forall t cwd jobs s w, independent jobs -> history t cwd jobs s w ->
    (forall p, (forall r, In r jobs -> ~ writes r p) -> fs_file (w_fs w) p = fs_file s p)
    /\ (forall r o, In r jobs -> writes r o -> exists k, fs_file (w_fs w) o = fs_file (crashed s (perform t s cwd r) k) o)
    /\ (forall j r o, nth_error jobs j = Some r -> writes r o -> w_jobs w j = Some [] ->
          fs_file (w_fs w) o = fs_file (final s (perform t s cwd r)) o)
    /\ (forall r o, In r jobs -> writes r o -> perform t (w_fs w) cwd r = perform t s cwd r).
Proof.
  intros t cwd jobs s w IND H. pose proof (history_fine t cwd jobs s IND w H) as F. split; [exact (f_other _ _ _ _ w F)|]. split; [exact (f_part _ _ _ _ w F)|]. split.
  - intros j r o Hj W Hd. destruct (changes (perform t s cwd r)) as [|c0 l0] eqn:NE.
    { destruct (f_part _ _ _ _ w F r o (nth_error_In _ _ Hj) W) as [k P]. unfold shows_part, crashed in P. unfold final. rewrite NE in *. rewrite firstn_nil in P. exact P. }
    destruct (f_job _ _ _ _ w F j [] Hd) as (r' & k & Hj' & Hk & E & P). assert (r' = r) by congruence. subst r'.
    assert (L : k = length (planned t cwd s r)). { apply (f_equal (@length _)) in E. rewrite skipn_length in E. cbn in E. lia. }
    assert (K : 0 < k). { rewrite L. unfold planned. rewrite NE. cbn. lia. }
    specialize (P K o W). unfold shows_part, crashed in P. rewrite L in P. unfold planned in P. rewrite firstn_all in P. exact P.
  - intros r o I W. pose proof (perform_alike t s (w_fs w) cwd r (f_alike _ _ _ _ w F)) as P. destruct r; try contradiction; apply P; intros p R; exact (reads_unchanged t cwd jobs s IND w _ p F I R).
Qed.
Print Assumptions C83_independent_jobs_do_not_disturb_each_other.
(** In particular a job that has run to its end has done its work, however often it
    died before. *)
Theorem C83_started_again :
  forall t cwd jobs s w j r o, independent jobs -> history t cwd jobs s w ->
    nth_error jobs j = Some r -> writes r o -> ended (perform t s cwd r) = Exit 0 -> w_jobs w j = Some [] ->
    exists d, new_content t s r = Some d /\ fs_file (w_fs w) o = Some d.
Proof.
  intros t cwd jobs s w j r o IND H Hj W E D. destruct (C41_output_file t s cwd r o W E) as (d & N & EF & _). exists d. split; [exact N|].
  destruct (C83_independent_jobs_do_not_disturb_each_other t cwd jobs s w IND H) as (_ & _ & P & _). rewrite (P j r o Hj W D). exact EF.
Qed.
Print Assumptions C83_started_again.
(** And whatever has happened, every job can still be run to its end. *)
Theorem C83_can_be_finished :
  forall t cwd jobs s w j r, history t cwd jobs s w -> nth_error jobs j = Some r ->
    exists w', history t cwd jobs s w' /\ w_jobs w' j = Some [] /\ (forall k, k <> j -> w_jobs w' k = w_jobs w k).
Proof.
  intros t cwd jobs s w j r H Hj.
  assert (GO : forall l w, history t cwd jobs s w -> w_jobs w j = Some l ->
    exists w', history t cwd jobs s w' /\ w_jobs w' j = Some [] /\ (forall k, k <> j -> w_jobs w' k = w_jobs w k)).
  { assert (P : forall f x, put_job f j x j = x) by (intros; unfold put_job; rewrite Nat.eqb_refl; reflexivity).
    induction l as [|c l IH]; intros v Hv E; [exists v; auto|].
    destruct (IH (World (apply (w_fs v) c) (put_job (w_jobs v) j (Some l)))) as (w' & A & B & C).
    - eapply continues; [exact Hv|]. eapply goes_on. exact E.
    - apply P.
    - exists w'. split; [exact A|]. split; [exact B|]. intros k N. rewrite (C k N). cbn [w_jobs]. unfold put_job. destruct (Nat.eqb_spec k j); congruence. }
  destruct (w_jobs w j) as [l|] eqn:E; [exact (GO l w H E)|].
  destruct (GO (changes (perform t (w_fs w) cwd r)) (World (w_fs w) (put_job (w_jobs w) j (Some (changes (perform t (w_fs w) cwd r)))))) as (w' & A & B & C).
  - eapply continues; [exact H|]. eapply starts; eassumption.
  - cbn [w_jobs]. unfold put_job. rewrite Nat.eqb_refl. reflexivity.
  - exists w'. split; [exact A|]. split; [exact B|]. intros k N. rewrite (C k N). cbn [w_jobs]. unfold put_job. destruct (Nat.eqb_spec k j); congruence.
Qed.
Print Assumptions C83_can_be_finished.
(** ** One after the other *)
Lemma apply_all_alike l : forall s, alike s (apply_all s l).
Proof. induction l as [|c l IH]; intros s; [split; reflexivity|]. exact (alike_trans _ _ _ (apply_alike s c) (IH (apply s c))). Qed.
Lemma apply_all_same o l : forall s s', Forall (touches o) l -> fs_file s o = fs_file s' o -> fs_file (apply_all s l) o = fs_file (apply_all s' l) o.
Proof.
  induction l as [|c l IH]; intros s s' T E; [exact E|]. inversion T as [|x y T1 T2]; subst. apply (IH (apply s c) (apply s' c) T2). exact (apply_same s s' c o T1 E).
Qed.
Lemma on_touches r o l : writes r o -> Forall (on r) l -> Forall (touches o) l.
Proof. intros W. apply Forall_impl. intros c (o' & W' & T). rewrite (writes_one r o o' W W'). exact T. Qed.
Lemma apply_all_not_written r p : forall l s, ~ writes r p -> Forall (on r) l -> fs_file (apply_all s l) p = fs_file s p.
Proof.
  induction l as [|c l IH]; intros s N T; [reflexivity|]. inversion T as [|x y (o & W & T1) T2]; subst. change (fs_file (apply_all (apply s c) l) p = fs_file s p).
  rewrite (IH (apply s c) N T2). apply (apply_other s c o p T1). intros ->. exact (N W).
Qed.
Lemma independent_tail r l : independent (r :: l) -> independent l.
Proof.
  intros [A B]. split.
  - intros j k x y p Hj Hk Wx Wy. assert (S j = S k) as E by (eapply A; cbn; eauto). congruence.
  - intros x y p Hx Hy. apply B; right; assumption.
Qed.
Lemma in_turn_files t cwd : forall l s, independent l ->
  (forall p, (forall r, In r l -> ~ writes r p) -> fs_file (in_turn t cwd s l) p = fs_file s p)
  /\ (forall r p, In r l -> writes r p -> fs_file (in_turn t cwd s l) p = fs_file (final s (perform t s cwd r)) p).
Proof.
  induction l as [|r l IH]; intros s IND; [split; [reflexivity|intros r p []]|]. cbn [in_turn].
  destruct (IH (final s (perform t s cwd r)) (independent_tail r l IND)) as [A B]. split.
  - intros p N. rewrite A; [|intros r' I; apply N; right; exact I]. apply (apply_all_not_written r p); [apply N; left; reflexivity|apply perform_on].
  - intros r' p [->|I] W.
    + apply A. intros x I W'. destruct (In_nth_error _ _ I) as [k Hk]. assert (0 = S k) by (eapply (proj1 IND); cbn; eauto). discriminate.
    + rewrite (B r' p I W). assert (N : ~ writes r p).
      { intros W'. destruct (In_nth_error _ _ I) as [k Hk]. assert (0 = S k) by (eapply (proj1 IND); cbn; eauto). discriminate. }
      assert (C : changes (perform t (final s (perform t s cwd r)) cwd r') = changes (perform t s cwd r')).
      { apply changes_alike; [apply apply_all_alike|]. intros q R. apply (apply_all_not_written r q); [|apply perform_on].
        intros Wq. exact (proj2 IND r r' q (or_introl eq_refl) (or_intror I) Wq R). }
      unfold final at 1. rewrite C. unfold final at 2. apply apply_all_same; [exact (on_touches r' p _ W (perform_on t s cwd r'))|].
      apply (apply_all_not_written r p); [exact N|apply perform_on].
Qed.
Lemma independent_permutation l l' : Permutation l l' -> independent l -> independent l'.
Proof.
  intros P [A B]. split.
  - apply Permutation_nth_error in P. destruct P as (_ & f & IN & E). intros j k r r' p Hj Hk W W'. apply IN. rewrite E in Hj, Hk. eapply A; eauto.
  - intros r r' p I I'. apply B; eapply Permutation_in; try (apply Permutation_sym; exact P); assumption.
Qed.
Lemma writes_dec l p : (exists r, In r l /\ writes r p) \/ (forall r, In r l -> ~ writes r p).
Proof.
  induction l as [|r l [(x & I & W)|N]]; [right; intros r []|left; exists x; split; [right; exact I|exact W]|].
  assert (D : writes r p \/ ~ writes r p) by (destruct r as [i o|i o|i o|i o|i x|]; cbn; try (right; tauto); destruct (list_eq_dec N.eq_dec p o) as [->|X]; [left; reflexivity|right; congruence|left; reflexivity|right; congruence|left; reflexivity|right; congruence|left; reflexivity|right; congruence]).
  destruct D as [W|W]; [left; exists r; split; [left; reflexivity|exact W]|right]. intros x [->|I]; [exact W|exact (N x I)].
Qed.
(** Run to the end one after the other, independent jobs leave the same files in
    whatever order they are run. *)
Theorem C83_order_does_not_matter :
  forall t cwd s jobs jobs', independent jobs -> Permutation jobs jobs' ->
    forall p, fs_file (in_turn t cwd s jobs) p = fs_file (in_turn t cwd s jobs') p.
Proof.
  intros t cwd s jobs jobs' IND P p. destruct (in_turn_files t cwd jobs s IND) as [A B].
  destruct (in_turn_files t cwd jobs' s (independent_permutation _ _ P IND)) as [A' B'].
  destruct (writes_dec jobs p) as [(r & I & W)|N].
  - rewrite (B r p I W), (B' r p (Permutation_in _ P I) W). reflexivity.
  - rewrite (A p N), A'; [reflexivity|]. intros r I. apply N. exact (Permutation_in _ (Permutation_sym P) I).
Qed.
Print Assumptions C83_order_does_not_matter.
(** Any history after which all jobs have run to their ends, with or without an error, leaves the files
    that running them one after the other leaves. *)
Theorem C83_at_once_as_in_turn :
  forall t cwd jobs s w, independent jobs -> history t cwd jobs s w ->
    (forall j r, nth_error jobs j = Some r -> w_jobs w j = Some []) ->
    forall p, fs_file (w_fs w) p = fs_file (in_turn t cwd s jobs) p.
Proof.
  intros t cwd jobs s w IND H D p. destruct (in_turn_files t cwd jobs s IND) as [A B].
  destruct (C83_independent_jobs_do_not_disturb_each_other t cwd jobs s w IND H) as (P1 & _ & P3 & _).
  destruct (writes_dec jobs p) as [(r & I & W)|N]; [|rewrite (A p N); exact (P1 p N)].
  destruct (In_nth_error _ _ I) as [j Hj]. rewrite (B r p I W). exact (P3 j r p Hj W (D j r Hj)).
Qed.
Print Assumptions C83_at_once_as_in_turn.

(** ** Examples and findings *)
Inductive does := Begin | Go | Stop.
(** follow a schedule; what is impossible is skipped *)
Definition play1 t cwd jobs (w : world) (e : nat * does) : world :=
  let (j, d) := e in
  match d, w_jobs w j, nth_error jobs j with
  | Begin, None, Some r => World (w_fs w) (put_job (w_jobs w) j (Some (changes (perform t (w_fs w) cwd r))))
  | Go, Some (c :: l), _ => World (apply (w_fs w) c) (put_job (w_jobs w) j (Some l))
  | Stop, Some _, _ => World (w_fs w) (put_job (w_jobs w) j None)
  | _, _, _ => w
  end.
Definition play t cwd jobs s (l : list (nat * does)) : world := fold_left (play1 t cwd jobs) l (World s (fun _ => None)).
Lemma play_history t cwd jobs s l : history t cwd jobs s (play t cwd jobs s l).
Proof.
  unfold play. generalize (begins t cwd jobs s). generalize (World s (fun _ => None)). induction l as [|[j d] l IH]; intros w H; [exact H|].
  cbn [fold_left]. apply IH. unfold play1.
  destruct d; destruct (w_jobs w j) as [[|c q]|] eqn:E; destruct (nth_error jobs j) as [r|] eqn:N; try exact H;
    (eapply continues; [exact H|]); first [eapply starts; eassumption|eapply goes_on; eassumption|eapply stops; eassumption].
Qed.
Definition three_files : fs :=
  FS (fun p => if str_eqb p "a.reqif" then Some tiny else if str_eqb p "b.reqif" then Some (tiny ++ nl) else if str_eqb p "x.reqif" then Some ("old" : str) else None)
     (fun _ => true) (fun _ => true).
Definition two_jobs : list request := [RPassthrough "a.reqif" "x.reqif"; RFormat "b.reqif" "y.reqif"].
(** The first job dies with its output empty; the second writes its output meanwhile;
    then the first is started again. *)
Example C83_example :
  independent two_jobs
  /\ (let w := play no_tools "/" two_jobs three_files [(0, Begin); (0, Go); (1, Begin); (0, Stop)] in
      fs_file (w_fs w) "x.reqif" = Some [] /\ fs_file (w_fs w) "y.reqif" = None)
  /\ (let w := play no_tools "/" two_jobs three_files ([(0, Begin); (0, Go); (1, Begin); (0, Stop); (1, Go); (0, Begin); (0, Go); (1, Go); (0, Go); (0, Stop); (0, Begin)] ++ flat_map (fun x => [(0, x); (1, x)]) (repeat Go 400)) in
      history no_tools "/" two_jobs three_files w
      /\ (forall j r, nth_error two_jobs j = Some r -> w_jobs w j = Some [] /\ ended (perform no_tools three_files "/" r) = Exit 0)
      /\ fs_file (w_fs w) "x.reqif" = fs_file (in_turn no_tools "/" three_files two_jobs) "x.reqif"
      /\ fs_file (w_fs w) "y.reqif" <> None /\ fs_file (w_fs w) "x.reqif" <> Some ("old" : str)).
Proof.
  split; [|split].
  - split.
    + intros [|[|j]] [|[|k]] r r' p Hj Hk W W'; cbn in Hj, Hk; try reflexivity; try (destruct j; discriminate); try (destruct k; discriminate);
        assert (r = r) by reflexivity; injection Hj as <-; injection Hk as <-; cbn in W, W'; subst p; discriminate.
    + intros r r' p [<-|[<-|[]]] [<-|[<-|[]]] W R; cbn in W, R; subst p; discriminate.
  - cbn zeta. split; vm_compute; reflexivity.
  - cbn zeta. split; [apply play_history|]. split; [|split; [vm_compute; reflexivity|split; vm_compute; discriminate]].
    intros [|[|j]] r H; cbn in H; [| |destruct j; discriminate]; assert (E := H); clear H;
      [assert (r = RPassthrough "a.reqif" "x.reqif") by congruence|assert (r = RFormat "b.reqif" "y.reqif") by congruence]; subst r; split; vm_compute; reflexivity.
Qed.
(** With the same output file: a job has run to its end without an error, and the
    file is empty, because another has just opened it. *)
Theorem C83_same_output_file_refuted :
  exists t jobs s w r o,
    history t [] jobs s w /\ nth_error jobs 0 = Some r /\ writes r o /\ ended (perform t s [] r) = Exit 0
    /\ w_jobs w 0 = Some [] /\ (forall r' p, In r' jobs -> writes r' p -> forall r'', In r'' jobs -> ~ reads r'' p)
    /\ fs_file (final s (perform t s [] r)) o <> Some [] /\ fs_file (w_fs w) o = Some [].
Proof.
  pose (jobs := [RPassthrough "a.reqif" "x.reqif"; RPassthrough "b.reqif" "x.reqif"]).
  exists no_tools, jobs, three_files, (play no_tools [] jobs three_files ([(0, Begin); (1, Begin)] ++ repeat (0, Go) 400 ++ [(1, Go)])), (RPassthrough "a.reqif" "x.reqif"), "x.reqif".
  split; [apply play_history|]. split; [reflexivity|]. split; [reflexivity|]. split; [vm_compute; reflexivity|]. split; [vm_compute; reflexivity|].
  split; [intros r' p [<-|[<-|[]]] W r'' [<-|[<-|[]]] R; cbn in W, R; subst p; discriminate|]. split; [vm_compute; discriminate|vm_compute; reflexivity].
Qed.
Print Assumptions C83_same_output_file_refuted.
(** With the output of one as the input of another: run one after the other, in
    either order, the second succeeds; at the same time it may find the file empty
    and fail. *)
Theorem C83_output_as_input_refuted :
  exists t r r' s w o,
    history t [] [r; r'] s w /\ writes r' o /\ w_jobs w 0 = Some [] /\ w_jobs w 1 = Some []
    /\ fs_file (in_turn t [] s [r; r']) o <> None /\ fs_file (in_turn t [] s [r'; r]) o <> None
    /\ fs_file (w_fs w) o = None.
Proof.
  pose (r := RPassthrough "b.reqif" "a.reqif"). pose (r' := RPassthrough "a.reqif" "y.reqif").
  exists no_tools, r, r', three_files, (play no_tools [] [r; r'] three_files ([(0, Begin); (0, Go); (1, Begin)] ++ repeat (0, Go) 400)), "y.reqif".
  split; [apply play_history|]. split; [reflexivity|]. split; [vm_compute; reflexivity|]. split; [vm_compute; reflexivity|].
  split; [vm_compute; discriminate|]. split; [vm_compute; discriminate|vm_compute; reflexivity].
Qed.
Print Assumptions C83_output_as_input_refuted.
