(** PathProofs.v -- os.path.abspath computes the shortest form of a path *)
From Verif Require Import Base Py DictProofs Paths Validate SpecPaths Frag.

Lemma eqb_ne a b : a <> b -> str_eqb a b = false.
Proof. intros H. destruct (str_eqb_spec a b); congruence. Qed.
Lemma ordinary_eqb c : ordinary c <-> str_eqb c [] = false /\ str_eqb c "." = false /\ str_eqb c ".." = false.
Proof.
  unfold ordinary. split.
  - intros H. repeat split; apply eqb_ne; intros ->; apply H; cbn; auto.
  - intros (A & B & C) [<-|[<-|[<-|[]]]]; rewrite str_eqb_refl in *; discriminate.
Qed.
Lemma norm_push acc c l : ordinary c -> norm_loop true acc (c :: l) = norm_loop true (c :: acc) l.
Proof. intros H. apply ordinary_eqb in H as (A & B & C). cbn [norm_loop]. rewrite A, B, C. reflexivity. Qed.
Lemma norm_skip acc l : norm_loop true acc ([] :: l) = norm_loop true acc l.
Proof. reflexivity. Qed.
Lemma norm_dot acc l : norm_loop true acc ("." :: l) = norm_loop true acc l.
Proof. reflexivity. Qed.
Lemma norm_up acc l : Forall ordinary acc -> norm_loop true acc (".." :: l) = norm_loop true (tl acc) l.
Proof.
  intros H. cbn [norm_loop]. change (str_eqb ".." []) with false. change (str_eqb ".." ".") with false.
  change (str_eqb ".." "..") with true. cbn [orb negb andb].
  destruct H as [|a acc A _]; [reflexivity|]. apply ordinary_eqb in A as (_ & _ & ->). reflexivity.
Qed.
Lemma cases c : c = [] \/ c = "." \/ c = ".." \/ ordinary c.
Proof.
  destruct (str_eqb_spec c []); [auto|]. destruct (str_eqb_spec c "."); [auto|].
  destruct (str_eqb_spec c ".."); [auto|]. right; right; right. intros [|[|[|[]]]]; congruence.
Qed.
Lemma tl_ordinary acc : Forall ordinary acc -> Forall ordinary (tl acc).
Proof. intros [|]; cbn; auto. Qed.
(** the loop after [x] *)
Lemma norm_app x : forall acc, Forall ordinary acc -> exists acc', Forall ordinary acc'
  /\ forall y, norm_loop true acc (x ++ y) = norm_loop true acc' y.
Proof.
  induction x as [|c x IH]; intros acc H; [exists acc; split; [exact H|reflexivity]|]. cbn [app].
  destruct (cases c) as [->|[->|[->|O]]].
  - apply IH, H.
  - apply IH, H.
  - destruct (IH (tl acc) (tl_ordinary _ H)) as (a & A & E). exists a. split; [exact A|]. intros y. rewrite norm_up by exact H. apply E.
  - destruct (IH (c :: acc)) as (a & A & E); [constructor; assumption|]. exists a. split; [exact A|]. intros y.
    rewrite norm_push by exact O. apply E.
Qed.
Lemma norm_shorter l l' : shorter l l' -> norm_loop true [] l = norm_loop true [] l'.
Proof.
  intros [x y|x y|x c y O|y].
  - destruct (norm_app x [] (Forall_nil _)) as (a & A & E). rewrite !E. apply norm_skip.
  - destruct (norm_app x [] (Forall_nil _)) as (a & A & E). rewrite !E. apply norm_dot.
  - destruct (norm_app x [] (Forall_nil _)) as (a & A & E). rewrite !E. rewrite norm_push by exact O.
    rewrite norm_up by (constructor; assumption). reflexivity.
  - rewrite norm_up by constructor. reflexivity.
Qed.
Lemma norm_ordinary l : forall acc, Forall ordinary l -> norm_loop true acc l = rev acc ++ l.
Proof.
  induction l as [|c l IH]; intros acc H; [cbn; rewrite app_nil_r; reflexivity|].
  inversion H; subst. rewrite norm_push, IH by assumption. cbn. rewrite <- app_assoc. reflexivity.
Qed.
Lemma norm_shortened l l' : shortened l l' -> Forall ordinary l' -> norm_loop true [] l = l'.
Proof.
  induction 1 as [l|l l' l'' S _ IH]; intros O; [apply (norm_ordinary l [] O)|].
  rewrite (norm_shorter _ _ S). auto.
Qed.
Lemma shortened_norm l : forall acc, Forall ordinary acc ->
  shortened (rev acc ++ l) (norm_loop true acc l) /\ Forall ordinary (norm_loop true acc l).
Proof.
  induction l as [|c l IH]; intros acc H.
  { cbn. rewrite app_nil_r. split; [constructor|]. apply Forall_rev, H. }
  destruct (cases c) as [->|[->|[->|O]]].
  - rewrite norm_skip. destruct (IH acc H) as [A B]. split; [|exact B]. econstructor; [apply drop_empty|exact A].
  - rewrite norm_dot. destruct (IH acc H) as [A B]. split; [|exact B]. econstructor; [apply drop_dot|exact A].
  - rewrite norm_up by exact H. destruct (IH (tl acc) (tl_ordinary _ H)) as [A B]. split; [|exact B].
    destruct H as [|a acc OA H]; cbn [tl rev] in *.
    + econstructor; [apply up_from_root|exact A].
    + rewrite <- app_assoc. econstructor; [apply (go_up _ a _ OA)|exact A].
  - rewrite norm_push by exact O. destruct (IH (c :: acc)) as [A B]; [constructor; assumption|]. split; [|exact B].
    cbn [rev] in A. rewrite <- app_assoc in A. exact A.
Qed.

Lemma split_no_slash s : Forall no_slash (split_slash s) /\ split_slash s <> [].
Proof.
  induction s as [|x s [IH N]]; cbn [split_slash]; [split; [repeat constructor; intros []|discriminate]|].
  destruct (N.eqb_spec x 47); [split; [constructor; [intros []|exact IH]|discriminate]|].
  destruct (split_slash s) as [|a l]; [congruence|]. inversion IH; subst. split; [|discriminate].
  constructor; [|assumption]. intros [E|E]; [congruence|]. contradiction.
Qed.
Lemma slashed_split s : "/" ++ s = slashed (split_slash s).
Proof.
  induction s as [|x s IH]; [reflexivity|]. cbn [split_slash]. destruct (N.eqb_spec x 47) as [->|].
  - change (slashed ([] :: split_slash s)) with ("/" ++ slashed (split_slash s)). rewrite <- IH. reflexivity.
  - pose proof (proj2 (split_no_slash s)). destruct (split_slash s) as [|a l]; [congruence|].
    change (slashed ((x :: a) :: l)) with ("/" ++ x :: (a ++ slashed l)).
    change (slashed (a :: l)) with ("/" ++ a ++ slashed l) in IH. apply app_inv_head in IH. rewrite IH. reflexivity.
Qed.
Lemma split_component c s : no_slash c -> split_slash (c ++ 47%N :: s) = c :: split_slash s.
Proof.
  induction c as [|x c IH]; intros H; cbn [app split_slash]; [reflexivity|].
  destruct (N.eqb_spec x 47); [subst; exfalso; apply H; left; reflexivity|].
  rewrite IH; [reflexivity|]. intros I. apply H. right. exact I.
Qed.
Lemma split_last c : no_slash c -> split_slash c = [c].
Proof.
  induction c as [|x c IH]; intros H; cbn [split_slash]; [reflexivity|].
  destruct (N.eqb_spec x 47); [subst; exfalso; apply H; left; reflexivity|].
  rewrite IH; [reflexivity|]. intros I. apply H. right. exact I.
Qed.
Lemma split_slashed l : Forall no_slash l -> split_slash (slashed l) = [] :: l.
Proof.
  induction 1 as [|c l H F IH]; [reflexivity|].
  change (slashed (c :: l)) with (47%N :: (c ++ slashed l)). cbn [split_slash]. rewrite N.eqb_refl. f_equal.
  destruct l as [|d l]; [cbn; rewrite app_nil_r; apply split_last, H|].
  change (slashed (d :: l)) with (47%N :: (d ++ slashed l)) in *. rewrite split_component by exact H. f_equal.
  cbn [split_slash] in IH. rewrite N.eqb_refl in IH. injection IH as IH. exact IH.
Qed.
Lemma join_absolute l : "/" ++ join_slash l = absolute l.
Proof.
  destruct l as [|c l]; [reflexivity|]. unfold absolute. revert c. induction l as [|d l IH]; intros c; [cbn; rewrite app_nil_r; reflexivity|].
  change (join_slash (c :: d :: l)) with (c ++ "/" ++ join_slash (d :: l)). rewrite IH. reflexivity.
Qed.
Lemma slashes_one p : starts_with "/" p = true -> (starts_with "//" p = true -> starts_with "///" p = true) -> slashes p = "/".
Proof.
  intros A B. unfold slashes. rewrite A. destruct (starts_with "//" p); [rewrite B by reflexivity|]; reflexivity.
Qed.
Lemma normpath_single p : starts_with "/" p = true -> (starts_with "//" p = true -> starts_with "///" p = true) ->
  normpath p = absolute (norm_loop true [] (split_slash p)).
Proof.
  intros A B. unfold normpath. destruct p as [|x p]; [discriminate|]. rewrite slashes_one by assumption.
  change (negb (str_eqb "/" [])) with true. cbv zeta. rewrite join_absolute.
  destruct (absolute (norm_loop true [] (split_slash (x :: p)))) eqn:E; [|reflexivity].
  exfalso. destruct (norm_loop true [] (split_slash (x :: p))); discriminate.
Qed.
Lemma split_app a b : split_slash (a ++ 47%N :: b) = split_slash a ++ split_slash b.
Proof.
  induction a as [|x a IH]; [reflexivity|]. cbn [app split_slash]. rewrite IH.
  destruct (N.eqb x 47); [reflexivity|]. pose proof (proj2 (split_no_slash a)).
  destruct (split_slash a); [congruence|reflexivity].
Qed.
Lemma ends_slash a : ends_with "/" a = true -> exists a', a = a' ++ [47%N].
Proof.
  unfold ends_with. intros H. apply starts_with_iff in H as (r & H). exists (rev r).
  rewrite <- (rev_involutive a), H. cbn. reflexivity.
Qed.
Lemma joined_single cwd input : working_directory cwd -> starts_with "/" input = false ->
  starts_with "/" (path_join cwd input) = true
  /\ (starts_with "//" (path_join cwd input) = true -> starts_with "///" (path_join cwd input) = true)
  /\ norm_loop true [] (split_slash (path_join cwd input)) = norm_loop true [] (split_slash (cwd ++ "/" ++ input)).
Proof.
  intros [W1 W2] I. unfold path_join. rewrite I.
  destruct cwd as [|x cwd]; [discriminate|]. change (str_eqb (x :: cwd) []) with false. cbn [orb].
  assert (x = 47%N) as ->.
  { apply starts_with_iff in W1 as (r & W1). injection W1. auto. }
  destruct (ends_with "/" (47%N :: cwd)) eqn:E.
  - apply ends_slash in E as (a & E).
    assert (S : norm_loop true [] (split_slash ((47%N :: cwd) ++ input)) = norm_loop true [] (split_slash ((47%N :: cwd) ++ "/" ++ input))).
    { rewrite E, <- !app_assoc. change (a ++ [47%N] ++ input) with (a ++ 47%N :: input).
      change (a ++ [47%N] ++ "/" ++ input) with (a ++ 47%N :: 47%N :: input). rewrite !split_app.
      change (split_slash (47%N :: input)) with ([] :: split_slash input).
      symmetry. apply norm_shorter, drop_empty. }
    split; [reflexivity|]. split; [|exact S]. clear S E a.
    intros H. apply starts_with_iff in H as (r & H).
    destruct cwd as [|y cwd]; [exfalso|].
    { injection H as H. rewrite H in I. discriminate. }
    assert (y = 47%N) by (injection H; auto). subst y.
    specialize (W2 eq_refl). apply starts_with_iff in W2 as (r' & W2). rewrite W2. reflexivity.
  - split; [reflexivity|]. split; [|reflexivity].
    intros H. apply starts_with_iff in H as (r & H).
    destruct cwd as [|y cwd]; [discriminate|].
    assert (y = 47%N) by (injection H; auto). subst y.
    specialize (W2 eq_refl). apply starts_with_iff in W2 as (r' & W2). rewrite W2. reflexivity.
Qed.
Lemma abspath_canonical cwd input path : working_directory cwd -> starts_with "/" input = false ->
  (canonical cwd input path <-> path = abspath cwd input).
Proof.
  intros W I. destruct (joined_single cwd input W I) as (J1 & J2 & J3).
  unfold abspath. rewrite I, normpath_single by assumption. rewrite J3. unfold canonical, asked_for. rewrite I.
  set (full := cwd ++ "/" ++ input).
  assert (exists s, full = "/" ++ s) as (s & ES).
  { destruct W as [W _]. apply starts_with_iff in W as (r & ->). unfold full. exists (r ++ "/" ++ input). rewrite <- app_assoc. reflexivity. }
  split.
  - intros (l & l' & NS & E & S & O & ->). rewrite E, split_slashed by exact NS. rewrite norm_skip.
    rewrite (norm_shortened l l' S O). reflexivity.
  - intros ->. exists (split_slash s), (norm_loop true [] (split_slash s)).
    destruct (shortened_norm (split_slash s) [] (Forall_nil _)) as [A B].
    split; [apply split_no_slash|]. split; [rewrite ES; apply slashed_split|].
    split; [exact A|]. split; [exact B|].
    rewrite ES. change ("/" ++ s) with (47%N :: s). cbn [split_slash]. rewrite N.eqb_refl, norm_skip. reflexivity.
Qed.
Lemma input_path_read e c cwd path : working_directory cwd ->
  (read_from e cwd (input_file c) path <-> input_path e c cwd = Ok path).
Proof.
  intros W. unfold read_from, input_path. destruct (starts_with "/" (input_file c)) eqn:I.
  - split; [intros [[_ ->]|[X _]]; congruence|]. intros E. left. split; congruence.
  - rewrite (abspath_canonical cwd _ path W I). destruct (getcwd_fails e).
    + split; [intros [[X _]|(_ & X & _)]; congruence|discriminate].
    + split; [intros [[X _]|(_ & _ & ->)]; congruence|]. intros E. right. split; [|split]; congruence.
Qed.
Lemma asked_opened cwd p : asked_for cwd p = opened cwd p.
Proof. reflexivity. Qed.
(** whatever reductions are applied, the shortest form is the same *)
Lemma canonical_unique cwd input p q : working_directory cwd -> starts_with "/" input = false ->
  canonical cwd input p -> canonical cwd input q -> p = q.
Proof. intros W I. rewrite !(abspath_canonical cwd input) by assumption. congruence. Qed.
