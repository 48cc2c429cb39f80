(** TraversalProofs.v -- lemmas behind Prop_Traversal.v *)
From Verif Require Import Base Xml Lxml Py Models BundleModel SpecTraversal.
From Coq Require Import Arith Lia.

(** ** Induction over hierarchies *)
Lemma hier_ind' (P : hier -> Prop) :
  (forall h, Forall P (h_kids h) -> P h) -> forall h, P h.
Proof.
  intros IH. fix F 1. intros h. apply IH.
  destruct h as [i so lv [l|] ln o lc ed tb sc nd]; cbn; [|constructor].
  induction l as [|k l IHl]; constructor; [apply F | exact IHl].
Qed.

Lemma size_eq h : size h = S (fsize (h_kids h)).
Proof. destruct h as [i so lv [l|] ln o lc ed tb sc nd]; reflexivity. Qed.

Fixpoint preorder (h : hier) : list hier :=
  h :: match h with
       | Hier _ _ _ (Some l) _ _ _ _ _ _ _ => flat_map preorder l
       | Hier _ _ _ None _ _ _ _ _ _ _ => []
       end.
Definition fpreorder (l : list hier) : list hier := flat_map preorder l.
Lemma preorder_eq h : preorder h = h :: fpreorder (h_kids h).
Proof. destruct h as [i so lv [l|] ln o lc ed tb sc nd]; reflexivity. Qed.
Lemma fpreorder_cons h l : fpreorder (h :: l) = h :: fpreorder (h_kids h ++ l).
Proof. unfold fpreorder. cbn [flat_map]. rewrite preorder_eq, flat_map_app. reflexivity. Qed.
Lemma fpreorder_app a b : fpreorder (a ++ b) = fpreorder a ++ fpreorder b.
Proof. apply flat_map_app. Qed.

Lemma length_preorder h : length (preorder h) = size h.
Proof.
  induction h as [h IH] using hier_ind'. rewrite preorder_eq, size_eq. cbn. f_equal.
  unfold fsize, fpreorder. induction (h_kids h) as [|k l IHl]; [reflexivity|].
  inversion IH; subst. cbn. rewrite app_length. rewrite H1. f_equal. apply IHl. assumption.
Qed.
Lemma length_fpreorder l : length (fpreorder l) = fsize l.
Proof.
  induction l as [|k l IHl]; [reflexivity|]. unfold fpreorder, fsize in *. cbn.
  rewrite app_length, length_preorder, IHl. reflexivity.
Qed.

(** ** The generator *)
Lemma resume_some h q : resume (Gen (Some h) q) = h_kids h ++ q.
Proof. unfold resume, h_kids. cbn. destruct (h_children h); reflexivity. Qed.

Lemma consume_preorder k g : consume k g = firstn k (fpreorder (resume g)).
Proof.
  revert g. induction k as [|k IH]; intros g; [reflexivity|].
  cbn [consume]. unfold gen_next. destruct (resume g) as [|h q] eqn:E; [reflexivity|].
  rewrite fpreorder_cons. cbn [firstn]. f_equal. rewrite IH, resume_some. reflexivity.
Qed.

(** ** Positions *)
Fixpoint hpaths (h : hier) : list path :=
  [] :: match h with
        | Hier _ _ _ (Some l) _ _ _ _ _ _ _ =>
            (fix go (i : nat) (l : list hier) : list path :=
               match l with
               | [] => []
               | k :: l' => map (cons i) (hpaths k) ++ go (S i) l'
               end) O l
        | _ => []
        end.
Fixpoint fpaths (i : nat) (l : list hier) : list path :=
  match l with
  | [] => []
  | k :: l' => map (cons i) (hpaths k) ++ fpaths (S i) l'
  end.
Lemma hpaths_eq h : hpaths h = [] :: fpaths 0 (h_kids h).
Proof.
  destruct h as [i so lv [l|] ln o lc ed tb sc nd]; [|reflexivity].
  cbn [hpaths h_kids h_children]. reflexivity.
Qed.

Definition hnode_at (h : hier) (p : path) : option hier :=
  match p with [] => Some h | _ => node_at (h_kids h) p end.

Lemma node_at_cons l i p :
  node_at l (i :: p) = match nth_error l i with None => None | Some h => hnode_at h p end.
Proof. cbn. destruct (nth_error l i); [|reflexivity]. destruct p; reflexivity. Qed.

Lemma fpaths_head i l p : In p (fpaths i l) -> exists j p', p = j :: p' /\ i <= j.
Proof.
  revert i. induction l as [|k l IH]; intros i H; [destruct H|].
  cbn in H. apply in_app_or in H. destruct H as [H|H].
  - apply in_map_iff in H. destruct H as [p' [<- _]]. exists i, p'. split; [reflexivity|lia].
  - apply IH in H. destruct H as (j & p' & -> & L). exists j, p'. split; [reflexivity|lia].
Qed.

Lemma sorted_app a b :
  sorted a -> sorted b -> (forall p q, In p a -> In q b -> before p q) -> sorted (a ++ b).
Proof.
  induction a as [|x a IH]; intros Ha Hb Hab; [exact Hb|].
  cbn. destruct Ha as [H1 H2]. split.
  - intros q Hq. apply in_app_or in Hq. destruct Hq; [auto|apply Hab; [left; reflexivity|assumption]].
  - apply IH; auto. intros; apply Hab; [right|]; assumption.
Qed.
Lemma sorted_map_cons i a : sorted a -> sorted (map (cons i) a).
Proof.
  induction a as [|x a IH]; intros H; [exact I|]. destruct H as [H1 H2]. split; [|auto].
  intros q Hq. apply in_map_iff in Hq. destruct Hq as (q' & <- & Hq').
  cbn. right. split; [reflexivity|]. auto.
Qed.

Lemma sorted_fpaths_aux l : Forall (fun h => sorted (hpaths h)) l -> forall i, sorted (fpaths i l).
Proof.
  induction 1 as [|k l Hk Hl IH]; intros i; [exact I|]. cbn. apply sorted_app.
  - apply sorted_map_cons, Hk.
  - apply IH.
  - intros p q Hp Hq. apply in_map_iff in Hp. destruct Hp as (p' & <- & _).
    apply fpaths_head in Hq. destruct Hq as (j & q' & -> & L). cbn. left. lia.
Qed.
Lemma sorted_hpaths h : sorted (hpaths h).
Proof.
  induction h as [h IH] using hier_ind'. rewrite hpaths_eq. split.
  - intros q Hq. apply fpaths_head in Hq. destruct Hq as (j & q' & -> & _). exact I.
  - apply sorted_fpaths_aux, IH.
Qed.
Lemma sorted_fpaths i l : sorted (fpaths i l).
Proof. apply sorted_fpaths_aux. apply Forall_forall. intros; apply sorted_hpaths. Qed.

Lemma in_fpaths_aux l :
  Forall (fun h => forall p, In p (hpaths h) <-> hnode_at h p <> None) l ->
  forall i p, In p (fpaths i l) <->
     exists j p', p = (i + j) :: p' /\ node_at l (j :: p') <> None.
Proof.
  induction 1 as [|k l Hk Hl IH]; intros i p.
  - split; [intros []|]. intros (j & p' & _ & H). destruct j; cbn in H; congruence.
  - cbn [fpaths]. rewrite in_app_iff, in_map_iff, IH. split.
    + intros [(p' & <- & H)|(j & p' & -> & H)].
      * exists 0, p'. split; [f_equal; lia|]. rewrite node_at_cons. cbn. apply Hk, H.
      * exists (S j), p'. split; [f_equal; lia|]. exact H.
    + intros ([|j] & p' & -> & H).
      * left. exists p'. split; [f_equal; lia|]. rewrite node_at_cons in H. apply Hk, H.
      * right. exists j, p'. split; [f_equal; lia|]. exact H.
Qed.
Lemma in_hpaths h : forall p, In p (hpaths h) <-> hnode_at h p <> None.
Proof.
  induction h as [h IH] using hier_ind'. intros p. rewrite hpaths_eq. cbn [In].
  rewrite (in_fpaths_aux _ IH). destruct p as [|i p].
  - cbn. split; [congruence|]. intros _. left. reflexivity.
  - cbn [hnode_at]. split.
    + intros [E|(j & p' & E & H)]; [discriminate|]. injection E as -> ->. exact H.
    + intros H. right. exists i, p. split; [reflexivity|exact H].
Qed.
Lemma in_fpaths l p : In p (fpaths 0 l) <-> node_at l p <> None.
Proof.
  rewrite in_fpaths_aux by (apply Forall_forall; intros; apply in_hpaths).
  split.
  - intros (j & p' & -> & H). exact H.
  - destruct p as [|j p']; [cbn; congruence|]. intros H. exists j, p'. split; [reflexivity|exact H].
Qed.

Lemma map_fpaths_aux l :
  Forall (fun h => map Some (preorder h) = map (hnode_at h) (hpaths h)) l ->
  forall l0, map Some (fpreorder l) = map (node_at (l0 ++ l)) (fpaths (length l0) l).
Proof.
  induction 1 as [|k l Hk Hl IH]; intros l0; [reflexivity|].
  cbn [fpaths]. unfold fpreorder. cbn [flat_map]. rewrite !map_app, Hk. f_equal.
  - rewrite map_map. apply map_ext. intros p. rewrite node_at_cons.
    rewrite nth_error_app2, Nat.sub_diag by lia. reflexivity.
  - change (flat_map preorder l) with (fpreorder l).
    rewrite (IH (l0 ++ [k])). rewrite <- app_assoc. cbn.
    rewrite app_length. cbn. rewrite Nat.add_1_r. reflexivity.
Qed.
Lemma map_hpaths h : map Some (preorder h) = map (hnode_at h) (hpaths h).
Proof.
  induction h as [h IH] using hier_ind'. rewrite preorder_eq, hpaths_eq. cbn. f_equal.
  rewrite (map_fpaths_aux _ IH []). cbn [app length]. apply map_ext_in.
  intros p Hp. apply fpaths_head in Hp. destruct Hp as (j & p' & -> & _). reflexivity.
Qed.
Lemma fpreorder_document_order l : document_order l (fpreorder l).
Proof.
  exists (fpaths 0 l). split; [apply sorted_fpaths|]. split; [apply in_fpaths|].
  apply (map_fpaths_aux l) with (l0 := []). apply Forall_forall. intros; apply map_hpaths.
Qed.

(** *** document order is unique *)
Lemma before_irrefl p : ~ before p p.
Proof. induction p as [|i p IH]; cbn; [tauto|]. intros [H|[_ H]]; [lia|auto]. Qed.
Lemma before_asym p q : before p q -> ~ before q p.
Proof.
  revert q. induction p as [|i p IH]; intros [|j q]; cbn; try tauto.
  intros [H|[-> H]] [H'|[E H']]; try lia. eapply IH; eauto.
Qed.
Lemma sorted_unique a b : sorted a -> sorted b -> (forall p, In p a <-> In p b) -> a = b.
Proof.
  revert b. induction a as [|x a IH]; intros [|y b] Ha Hb H.
  - reflexivity.
  - destruct (proj2 (H y) (or_introl eq_refl)).
  - destruct (proj1 (H x) (or_introl eq_refl)).
  - destruct Ha as [Hx Ha], Hb as [Hy Hb].
    assert (E : x = y).
    { destruct (proj1 (H x) (or_introl eq_refl)) as [E|Hin]; [auto|].
      destruct (proj2 (H y) (or_introl eq_refl)) as [E|Hin']; [auto|].
      exfalso. apply (before_asym x y); auto. }
    subst y. f_equal. apply IH; auto. intros p. split; intros Hp.
    + destruct (proj1 (H p) (or_intror Hp)) as [->|]; [|assumption].
      exfalso. apply (before_irrefl p). auto.
    + destruct (proj2 (H p) (or_intror Hp)) as [->|]; [|assumption].
      exfalso. apply (before_irrefl p). auto.
Qed.
Lemma map_Some_inj {A} (a b : list A) : map Some a = map Some b -> a = b.
Proof.
  revert b. induction a as [|x a IH]; intros [|y b] H; try discriminate; [reflexivity|].
  cbn in H. injection H as -> H. f_equal. apply IH, H.
Qed.
Lemma document_order_unique l a b : document_order l a -> document_order l b -> a = b.
Proof.
  intros (pa & Sa & Ia & Ma) (pb & Sb & Ib & Mb).
  assert (pa = pb) by (apply sorted_unique; auto; intros p; rewrite Ia, Ib; tauto).
  subst. apply map_Some_inj. congruence.
Qed.

(** ** Conversion *)
Section Conv.
Context {Sec St : Type}.
Variable get_level : Sec -> Z.
Variable node_lambda : St -> hier -> Sec -> St * result (Sec * bool).
Notation conv_loop := (conv_loop get_level node_lambda).
Notation conv_step := (conv_step get_level node_lambda).
Notation convert := (convert node_lambda).
Notation convert_forest := (convert_forest node_lambda).

Fixpoint conv_list (l : list hier) (stack : list Sec) (st : St)
  : (St * list (hier * Sec)) * result (list Sec) :=
  match l with
  | [] => ((st, []), Ok stack)
  | h :: l' =>
      match conv_step h stack st with
      | ((st1, calls), Raise e) => ((st1, calls), Raise e)
      | ((st1, calls), Ok stack') =>
          let '((st2, calls2), r) := conv_list l' stack' st1 in ((st2, calls ++ calls2), r)
      end
  end.
Lemma conv_loop_list k g stack st :
  conv_loop k g stack st = conv_list (consume k g) stack st.
Proof.
  revert g stack st. induction k as [|k IH]; intros g stack st; [reflexivity|].
  cbn. destruct (gen_next g) as [[h g']|]; [|reflexivity]. cbn.
  destruct (conv_step h stack st) as [[st1 c] [stack'|e]]; [|reflexivity].
  rewrite IH. reflexivity.
Qed.
Lemma conv_list_app a b stack st :
  conv_list (a ++ b) stack st =
  match conv_list a stack st with
  | ((st1, c1), Raise e) => ((st1, c1), Raise e)
  | ((st1, c1), Ok stack') =>
      let '((st2, c2), r) := conv_list b stack' st1 in ((st2, c1 ++ c2), r)
  end.
Proof.
  revert stack st. induction a as [|h a IH]; intros stack st.
  - cbn. destruct (conv_list b stack st) as [[? ?] ?]. reflexivity.
  - cbn. destruct (conv_step h stack st) as [[st1 c] [stack'|e]]; [|reflexivity].
    rewrite IH. destruct (conv_list a stack' st1) as [[st2 c2] [stack2|e]]; [|reflexivity].
    destruct (conv_list b stack2 st2) as [[st3 c3] r]. rewrite app_assoc. reflexivity.
Qed.

Variable is_section : hier -> bool.
Variable all : list hier.   (* every node that can be visited *)
Hypothesis lambda_ok : forall st h sec st' s made,
  In h all -> node_lambda st h sec = (st', Ok (s, made)) ->
  made = is_section h /\ (made = true -> get_level s = Z.of_nat (h_level h)).

Definition leaf_ok (h : hier) : Prop :=
  is_section h = false -> forall d, In d (preorder h) -> is_section d = false.

(** levels of the section stack decrease by one *)
Fixpoint chain (n : nat) (pre : list Sec) : Prop :=
  (* [pre] sits on top of a section of level n *)
  match pre with
  | [] => True
  | s :: pre' => get_level s = Z.of_nat (n + length pre) /\ chain n pre'
  end.

Lemma pops_app (pre : list Sec) sec rest : pops (length pre) (pre ++ sec :: rest) = Ok (sec :: rest).
Proof. induction pre; [reflexivity|]. cbn. assumption. Qed.

Lemma unwind_chain h (pre : list Sec) sec rest n :
  chain n pre -> get_level sec = Z.of_nat n ->
  h_level h = S n ->
  unwind get_level h (pre ++ sec :: rest) = Ok (sec :: rest).
Proof.
  intros Hc Hs Hl. unfold unwind. destruct pre as [|s pre].
  - cbn [app]. rewrite Hl, Hs. destruct (Z.leb_spec (Z.of_nat (S n)) (Z.of_nat n)); [lia|reflexivity].
  - cbn [app]. destruct Hc as [E _]. rewrite E, Hl.
    destruct (Z.leb_spec (Z.of_nat (S n)) (Z.of_nat (n + length (s :: pre)))).
    + replace (Z.to_nat _) with (length (s :: pre)) by (cbn [length] in *; lia).
      apply (pops_app (s :: pre)).
    + cbn [length] in *. lia.
Qed.

Definition forget (r : result (list Sec)) : result unit :=
  match r with Ok _ => Ok tt | Raise e => Raise e end.

Lemma convert_eq h sec st :
  convert h sec st =
  match node_lambda st h sec with
  | (st', Raise e) => ((st', [(h, sec)]), Raise e)
  | (st', Ok (s, made)) =>
      let '((st2, calls), r) := convert_forest (h_kids h) (if made then s else sec) st' in
      ((st2, (h, sec) :: calls), r)
  end.
Proof.
  destruct h as [i so lv [l|] ln o lc ed tb sc nd]; [|reflexivity].
  cbn [convert h_kids h_children]. destruct (node_lambda st _ sec) as [st' [[s made]|e]]; [|reflexivity].
  cbv zeta.
  match goal with |- (let '(_, _) := ?x in _) = (let '(_, _) := ?y in _) => assert (E : x = y) end.
  { revert st'. induction l as [|k l IH]; intros st'; [reflexivity|]. cbn.
    destruct (convert k _ st') as [[st1 c1] [|e]]; [|reflexivity]. rewrite IH. reflexivity. }
  rewrite E. reflexivity.
Qed.
Lemma convert_forest_cons k l sec st :
  convert_forest (k :: l) sec st =
  match convert k sec st with
  | ((st1, c1), Raise e) => ((st1, c1), Raise e)
  | ((st1, c1), Ok _) =>
      let '((st2, c2), r) := convert_forest l sec st1 in ((st2, c1 ++ c2), r)
  end.
Proof. reflexivity. Qed.

(** a forest below a node that made no section: the stack does not move *)
Definition quiet_goal (l : list hier) :=
  forall sec rest st n, incl (fpreorder l) all ->
    get_level sec = Z.of_nat n ->
    (forall d, In d (fpreorder l) -> is_section d = false /\ n < h_level d) ->
    conv_list (fpreorder l) (sec :: rest) st =
    (let '((st', c), r) := convert_forest l sec st in
     ((st', c), match r with Ok _ => Ok (sec :: rest) | Raise e => Raise e end)).

Lemma quiet_tree h :
  quiet_goal (h_kids h) ->
  forall sec rest st n, incl (preorder h) all ->
    get_level sec = Z.of_nat n ->
    (forall d, In d (preorder h) -> is_section d = false /\ n < h_level d) ->
    conv_list (preorder h) (sec :: rest) st =
    (let '((st', c), r) := convert h sec st in
     ((st', c), match r with Ok _ => Ok (sec :: rest) | Raise e => Raise e end)).
Proof.
  intros IH sec rest st n Hin Hs Hq.
  rewrite preorder_eq in *. rewrite convert_eq. cbn [conv_list]. unfold BundleModel.conv_step.
  destruct (Hq h (or_introl eq_refl)) as [Hh Hl].
  assert (U : unwind get_level h (sec :: rest) = Ok (sec :: rest)).
  { unfold unwind. rewrite Hs. destruct (Z.leb_spec (Z.of_nat (h_level h)) (Z.of_nat n)); [lia|reflexivity]. }
  rewrite U. destruct (node_lambda st h sec) as [st' [[s made]|e]] eqn:E; [|reflexivity].
  assert (Hm : made = false).
  { destruct (lambda_ok _ _ _ _ _ _ (Hin h (or_introl eq_refl)) E) as [-> _]. exact Hh. }
  subst made. rewrite (IH sec rest st' n).
  - destruct (convert_forest (h_kids h) sec st') as [[st2 c] r]. destruct r; reflexivity.
  - intros d Hd. apply Hin. right. exact Hd.
  - exact Hs.
  - intros d Hd. apply Hq. right. exact Hd.
Qed.
Lemma quiet_forest_aux l : Forall (fun h => quiet_goal (h_kids h)) l -> quiet_goal l.
Proof.
  induction 1 as [|h l Hh Hl IH]; intros sec rest st n Hin Hs Hq; [reflexivity|].
  unfold fpreorder in *. cbn [flat_map] in *. rewrite conv_list_app.
  rewrite (quiet_tree h Hh sec rest st n).
  - rewrite convert_forest_cons. destruct (convert h sec st) as [[st1 c1] [u|e]]; [|reflexivity].
    change (flat_map preorder l) with (fpreorder l) in *.
    rewrite (IH sec rest st1 n).
    + destruct (convert_forest l sec st1) as [[st2 c2] [|]]; reflexivity.
    + intros d Hd. apply Hin. apply in_or_app. right. exact Hd.
    + exact Hs.
    + intros d Hd. apply Hq. apply in_or_app. right. exact Hd.
  - intros d Hd. apply Hin. apply in_or_app. left. exact Hd.
  - exact Hs.
  - intros d Hd. apply Hq. apply in_or_app. left. exact Hd.
Qed.
Lemma quiet_kids h : quiet_goal (h_kids h).
Proof.
  induction h as [h IH] using hier_ind'. apply quiet_forest_aux.
  induction (h_kids h) as [|k l IHl]; constructor; inversion IH; auto.
Qed.

Lemma leveled_eq n h : leveled n h <-> h_level h = n /\ Forall (leveled (S n)) (h_kids h).
Proof.
  destruct h as [i so lv [l|] ln o lc ed tb sc nd]; cbn [leveled h_level h_kids h_children].
  - assert (E : forall l, (fix all (l : list hier) : Prop :=
                 match l with [] => True | k :: l' => leveled (S n) k /\ all l' end) l
               <-> Forall (leveled (S n)) l).
    { clear. induction l as [|k l IH]; [split; auto|]. rewrite Forall_cons_iff, IH. reflexivity. }
    rewrite E. tauto.
  - intuition.
Qed.
Lemma leveled_ge n h d : leveled n h -> In d (preorder h) -> n <= h_level d.
Proof.
  revert n. induction h as [h IH] using hier_ind'. intros n Hl Hd.
  apply leveled_eq in Hl. destruct Hl as [E Hk]. rewrite preorder_eq in Hd.
  destruct Hd as [->|Hd]; [lia|]. unfold fpreorder in Hd. apply in_flat_map in Hd.
  destruct Hd as (k & Hin & Hd). rewrite Forall_forall in IH, Hk.
  specialize (IH k Hin (S n) (Hk k Hin) Hd). lia.
Qed.

(** a forest directly below the section [sec] of level [n] *)
Definition conv_goal (l : list hier) :=
  forall sec rest pre st n, incl (fpreorder l) all ->
    get_level sec = Z.of_nat n -> chain n pre ->
    Forall (leveled (S n)) l ->
    (forall d, In d (fpreorder l) -> leaf_ok d) ->
    exists pre', chain n pre' /\
    conv_list (fpreorder l) (pre ++ sec :: rest) st =
    (let '((st', c), r) := convert_forest l sec st in
     ((st', c), match r with Ok _ => Ok (pre' ++ sec :: rest) | Raise e => Raise e end)).

Lemma conv_tree h : conv_goal (h_kids h) ->
  forall sec rest pre st n, incl (preorder h) all ->
    get_level sec = Z.of_nat n -> chain n pre ->
    leveled (S n) h ->
    (forall d, In d (preorder h) -> leaf_ok d) ->
    exists pre', chain n pre' /\
    conv_list (preorder h) (pre ++ sec :: rest) st =
    (let '((st', c), r) := convert h sec st in
     ((st', c), match r with Ok _ => Ok (pre' ++ sec :: rest) | Raise e => Raise e end)).
Proof.
  intros IH sec rest pre st n Hin Hs Hc Hl Hleaf.
  pose proof Hl as Hl'. apply leveled_eq in Hl'. destruct Hl' as [El Hk].
  rewrite preorder_eq. cbn [conv_list]. rewrite convert_eq.
  unfold BundleModel.conv_step. rewrite (unwind_chain h pre sec rest n Hc Hs El).
  destruct (node_lambda st h sec) as [st' [[s made]|e]] eqn:E.
  2:{ exists []. split; [exact I|]. reflexivity. }
  assert (Hh : In h all) by (apply Hin; rewrite preorder_eq; left; reflexivity).
  destruct (lambda_ok _ _ _ _ _ _ Hh E) as [-> Hlev].
  assert (Hin' : incl (fpreorder (h_kids h)) all).
  { intros d Hd. apply Hin. rewrite preorder_eq. right. exact Hd. }
  destruct (is_section h) eqn:Esec.
  - specialize (Hlev eq_refl). rewrite El in Hlev.
    destruct (IH s (sec :: rest) [] st' (S n)) as (pre' & Hc' & Hrun); auto.
    { exact I. }
    { intros d Hd. apply Hleaf. rewrite preorder_eq. right. exact Hd. }
    exists (pre' ++ [s]). split.
    { clear - Hc' Hlev. induction pre' as [|x p IHp]; cbn in *.
      - split; [rewrite Hlev; f_equal; lia|exact I].
      - destruct Hc' as [E H]. split; [|auto]. rewrite E, app_length. cbn. f_equal. lia. }
    cbn [app] in Hrun. rewrite Hrun. rewrite <- app_assoc. cbn [app].
    destruct (convert_forest (h_kids h) s st') as [[st2 c2] r]. reflexivity.
  - exists []. split; [exact I|]. cbn [app].
    rewrite (quiet_kids h sec rest st' n Hin' Hs).
    + destruct (convert_forest (h_kids h) sec st') as [[st2 c2] r]. destruct r; reflexivity.
    + intros d Hd. split.
      * apply (Hleaf h); [rewrite preorder_eq; left; reflexivity|exact Esec|].
        rewrite preorder_eq. right. exact Hd.
      * apply (leveled_ge (S n) h d Hl). rewrite preorder_eq. right. exact Hd.
Qed.
Lemma conv_forest_aux l : Forall (fun h => conv_goal (h_kids h)) l -> conv_goal l.
Proof.
  induction 1 as [|h l Hh Hl IH]; intros sec rest pre st n Hin Hs Hc Hlev Hleaf.
  - exists pre. split; [exact Hc|reflexivity].
  - unfold fpreorder in *. cbn [flat_map] in *. inversion Hlev as [|? ? L1 L2]; subst.
    destruct (conv_tree h Hh sec rest pre st n) as (pre1 & Hc1 & R1); auto.
    { intros d Hd. apply Hin. apply in_or_app. left. exact Hd. }
    { intros d Hd. apply Hleaf. apply in_or_app. left. exact Hd. }
    rewrite conv_list_app, R1, convert_forest_cons.
    destruct (convert h sec st) as [[st1 c1] [u|e]].
    2:{ exists []. split; [exact I|reflexivity]. }
    destruct (IH sec rest pre1 st1 n) as (pre2 & Hc2 & R2); auto.
    { intros d Hd. apply Hin. apply in_or_app. right. exact Hd. }
    { intros d Hd. apply Hleaf. apply in_or_app. right. exact Hd. }
    exists pre2. split; [exact Hc2|]. change (flat_map preorder l) with (fpreorder l).
    rewrite R2. destruct (convert_forest l sec st1) as [[st2 c2] [|]]; reflexivity.
Qed.
Lemma conv_kids h : conv_goal (h_kids h).
Proof.
  induction h as [h IH] using hier_ind'. apply conv_forest_aux.
  induction (h_kids h) as [|k l IHl]; constructor; inversion IH; auto.
Qed.
Lemma conv_forest l : conv_goal l.
Proof. apply conv_forest_aux. apply Forall_forall. intros; apply conv_kids. Qed.
End Conv.

Lemma within_preorder d h : within d h <-> In d (preorder h).
Proof.
  split.
  - induction 1 as [h|h k d Hk _ IH]; rewrite preorder_eq; [left; reflexivity|].
    right. unfold fpreorder. apply in_flat_map. exists k. auto.
  - revert d. induction h as [h IH] using hier_ind'. intros d Hd. rewrite preorder_eq in Hd.
    destruct Hd as [->|Hd]; [constructor|]. unfold fpreorder in Hd. apply in_flat_map in Hd.
    destruct Hd as (k & Hk & Hd). rewrite Forall_forall in IH. eapply within_kid; eauto.
Qed.

Theorem conversion_spec {Sec St : Type} (get_level : Sec -> Z)
  (node_lambda : St -> hier -> Sec -> St * result (Sec * bool))
  (forest : list hier) (root : Sec) (st : St) (is_section : hier -> bool) (k : nat) :
  get_level root = 0%Z ->
  Forall (leveled 1) forest ->
  (forall h t st sec st' s made, In t forest -> within h t ->
     node_lambda st h sec = (st', Ok (s, made)) ->
     made = is_section h /\ (made = true -> get_level s = Z.of_nat (h_level h))) ->
  (forall t h d, In t forest -> within h t -> within d h ->
     is_section h = false -> is_section d = false) ->
  fsize forest <= k ->
  let '((st1, calls), r) := conv_loop get_level node_lambda k (Gen None forest) [root] st in
  let '((st2, calls2), r2) := convert_forest node_lambda forest root st in
  st1 = st2 /\ calls = calls2 /\ forget r = r2.
Proof.
  intros Hroot Hlev Hlam Hleaf Hk.
  rewrite conv_loop_list, consume_preorder. cbn [resume g_yielded g_deque].
  rewrite firstn_all2 by (rewrite length_fpreorder; exact Hk).
  destruct (conv_forest get_level node_lambda is_section (fpreorder forest)) with
    (l := forest) (sec := root) (rest := @nil Sec) (pre := @nil Sec) (st := st) (n := 0)
    as (pre & _ & R).
  - intros st0 h sec st' s made Hin E. unfold fpreorder in Hin. apply in_flat_map in Hin.
    destruct Hin as (t & Ht & Hin). apply within_preorder in Hin. eapply Hlam; eauto.
  - apply incl_refl.
  - exact Hroot.
  - exact I.
  - exact Hlev.
  - intros h Hin Hs d Hd. unfold fpreorder in Hin. apply in_flat_map in Hin.
    destruct Hin as (t & Ht & Hin). apply within_preorder in Hin. apply within_preorder in Hd.
    eapply Hleaf; eauto.
  - cbn [app] in R. rewrite R. destruct (convert_forest node_lambda forest root st) as [[st2 c2] [u|e]];
      repeat split. destruct u. reflexivity.
Qed.

(** whatever the sections are, node_lambda is called on a prefix of the preorder *)
Lemma conv_list_calls {Sec St} (get_level : Sec -> Z)
  (node_lambda : St -> hier -> Sec -> St * result (Sec * bool)) l stack st :
  let '((_, calls), r) := conv_list get_level node_lambda l stack st in
  exists rest, l = map fst calls ++ rest /\ (forall s, r = Ok s -> rest = []).
Proof.
  revert stack st. induction l as [|h l IH]; intros stack st.
  - cbn. exists []. auto.
  - cbn. unfold BundleModel.conv_step. destruct (unwind get_level h stack) as [[|top s']|e].
    + exists (h :: l). split; [reflexivity|discriminate].
    + destruct (node_lambda st h top) as [st' [[s made]|e]].
      * specialize (IH (if made then s :: top :: s' else top :: s') st').
        destruct (conv_list get_level node_lambda l _ st') as [[st2 c2] r].
        destruct IH as (rest & E & Hr). exists rest. cbn. rewrite E at 1. auto.
      * exists l. split; [reflexivity|discriminate].
    + exists (h :: l). split; [reflexivity|discriminate].
Qed.

(** ** add_child *)
Lemma heap_set_length s i o : length (heap_set s i o) = length s.
Proof. revert i. induction s as [|x s IH]; intros [|i]; cbn; auto. Qed.
Lemma heap_set_same s i o : i < length s -> nth_error (heap_set s i o) i = Some o.
Proof. revert i. induction s as [|x s IH]; intros [|i] H; cbn in *; try lia; auto. apply IH. lia. Qed.
Lemma heap_set_other s i j o : i <> j -> nth_error (heap_set s i o) j = nth_error s j.
Proof. revert i j. induction s as [|x s IH]; intros [|i] [|j] H; cbn; try lia; auto. Qed.
Lemma heap_set_twice s i a b : heap_set (heap_set s i a) i b = heap_set s i b.
Proof. revert i. induction s as [|x s IH]; intros [|i]; cbn; auto. f_equal. auto. Qed.

Definition in_range (s : heap) (op : nat * nat) : Prop :=
  fst op < length s /\ snd op < length s.
Definition levels (s : heap) : list nat := map o_level s.
Lemma fits_levels s s' op : levels s = levels s' -> fits s op = fits s' op.
Proof.
  intros E. unfold fits, levels in *.
  assert (H : forall i, option_map o_level (nth_error s i) = option_map o_level (nth_error s' i)).
  { intros i. rewrite <- !nth_error_map, E. reflexivity. }
  pose proof (H (fst op)) as H1. pose proof (H (snd op)) as H2.
  destruct (nth_error s (fst op)), (nth_error s' (fst op)); cbn in H1; try discriminate; auto.
  destruct (nth_error s (snd op)), (nth_error s' (snd op)); cbn in H2; try discriminate; auto.
  injection H1 as ->. injection H2 as ->. reflexivity.
Qed.
Lemma levels_heap_set s i o o' :
  nth_error s i = Some o -> o_level o' = o_level o -> levels (heap_set s i o') = levels s.
Proof.
  unfold levels. revert i. induction s as [|x s IH]; intros [|i] H E; cbn in *; try discriminate.
  - injection H as ->. f_equal. exact E.
  - f_equal. eauto.
Qed.
Lemma given_levels s s' p ops : levels s = levels s' -> given s p ops = given s' p ops.
Proof.
  intros E. unfold given. f_equal. apply filter_ext. intros op. rewrite (fits_levels s s' op E). reflexivity.
Qed.
Lemma add_child_spec s p c : in_range s (p, c) ->
  let '(s', r) := add_child s p c in
  levels s' = levels s /\
  r = (if fits s (p, c) then Ok tt else Raise EAssertionError) /\
  forall i o, nth_error s i = Some o ->
    nth_error s' i = Some (HObj (o_level o)
      (if Nat.eqb p i then Some ((match o_children o with Some l => l | None => [] end)
                                 ++ (if fits s (p, c) then [c] else []))
       else o_children o)).
Proof.
  intros [Hp Hc]. cbn in Hp, Hc. unfold add_child, fits. cbn [fst snd].
  destruct (nth_error s p) as [op|] eqn:Ep; [|apply nth_error_None in Ep; lia].
  destruct (nth_error s c) as [oc|] eqn:Ec; [|apply nth_error_None in Ec; lia].
  rewrite (Nat.eqb_sym (o_level oc)), Nat.add_1_r.
  destruct (Nat.eqb_spec (S (o_level op)) (o_level oc)) as [E|E].
  - rewrite heap_set_twice. split; [eapply levels_heap_set; eauto; reflexivity|]. split; [reflexivity|].
    intros i o Hi. destruct (Nat.eqb_spec p i) as [->|N].
    + rewrite heap_set_same by assumption. assert (op = o) as -> by congruence. reflexivity.
    + rewrite heap_set_other by assumption. rewrite Hi. destruct o; reflexivity.
  - split; [eapply levels_heap_set; eauto; reflexivity|]. split; [reflexivity|].
    intros i o Hi. destruct (Nat.eqb_spec p i) as [->|N].
    + rewrite heap_set_same by assumption. rewrite app_nil_r. assert (op = o) as -> by congruence. reflexivity.
    + rewrite heap_set_other by assumption. rewrite Hi. destruct o; reflexivity.
Qed.

Lemma add_children_spec s ops : Forall (in_range s) ops ->
  let '(s', rs) := add_children s ops in
  levels s' = levels s /\
  rs = map (fun op => if fits s op then Ok tt else Raise EAssertionError) ops /\
  forall i o, nth_error s i = Some o ->
    nth_error s' i = Some (HObj (o_level o)
      (if called i ops
       then Some ((match o_children o with Some l => l | None => [] end) ++ given s i ops)
       else o_children o)).
Proof.
  revert s. induction ops as [|[p c] ops IH]; intros s Hr.
  - cbn. repeat split. intros i [l ch] H. exact H.
  - cbn [add_children]. inversion Hr as [|? ? H1 H2]; subst.
    pose proof (add_child_spec s p c H1) as HA.
    destruct (add_child s p c) as [s1 r]. destruct HA as (L1 & R1 & N1).
    assert (Len : length s1 = length s).
    { unfold levels in L1. rewrite <- (map_length o_level s1), L1, map_length. reflexivity. }
    assert (Hr1 : Forall (in_range s1) ops).
    { eapply Forall_impl; [|exact H2]. intros op. unfold in_range. rewrite Len. auto. }
    specialize (IH s1 Hr1). destruct (add_children s1 ops) as [s2 rs].
    destruct IH as (L2 & R2 & N2). split; [congruence|]. split.
    + cbn [map]. f_equal; [exact R1|]. rewrite R2. apply map_ext. intros op.
      rewrite (fits_levels s1 s op L1). reflexivity.
    + intros i o Hi. specialize (N1 i o Hi). specialize (N2 _ _ N1).
      rewrite (given_levels s1 s i ops L1) in N2. rewrite N2. cbn [o_level o_children]. f_equal. f_equal.
      unfold called, given. cbn [existsb filter fst].
      destruct (Nat.eqb_spec p i) as [->|N]; cbn [orb andb].
      * destruct (fits s (i, c)); cbn [map snd].
        -- destruct (existsb _ ops) eqn:Ex; [rewrite <- app_assoc; reflexivity|].
           f_equal. f_equal. f_equal.
           assert (Hf : filter (fun op => (fst op =? i) && fits s op) ops = []).
           { clear - Ex. induction ops as [|[a b] ops IH]; [reflexivity|]. cbn in *.
             apply orb_false_iff in Ex. destruct Ex as [-> Ex]. cbn. apply IH, Ex. }
           rewrite Hf. reflexivity.
        -- destruct (existsb _ ops) eqn:Ex; [rewrite <- app_assoc; reflexivity|].
           f_equal. f_equal.
           assert (Hf : filter (fun op => (fst op =? i) && fits s op) ops = []).
           { clear - Ex. induction ops as [|[a b] ops IH]; [reflexivity|]. cbn in *.
             apply orb_false_iff in Ex. destruct Ex as [-> Ex]. cbn. apply IH, Ex. }
           rewrite Hf. reflexivity.
      * reflexivity.
Qed.
