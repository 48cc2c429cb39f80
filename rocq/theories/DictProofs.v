(** DictProofs.v -- strings, dictionaries, result lists *)
From Verif Require Import Base Py SpecTraversal.

Lemma str_eqb_eq a b : str_eqb a b = true <-> a = b.
Proof.
  revert b. induction a as [|x a IH]; intros [|y b]; cbn; try (split; congruence).
  rewrite andb_true_iff, N.eqb_eq, IH. split; [intros [-> ->]; reflexivity|].
  intros H. injection H as -> ->. auto.
Qed.
Lemma str_eqb_refl a : str_eqb a a = true.
Proof. apply str_eqb_eq. reflexivity. Qed.
Lemma str_eqb_spec a b : reflect (a = b) (str_eqb a b).
Proof.
  destruct (str_eqb a b) eqn:E; constructor.
  - apply str_eqb_eq, E.
  - intros H. apply str_eqb_eq in H. congruence.
Qed.
Lemma ostr_eqb_eq a b : ostr_eqb a b = true <-> a = b.
Proof.
  destruct a, b; cbn; try (split; congruence). rewrite str_eqb_eq. split; congruence.
Qed.
Lemma ostr_eqb_refl a : ostr_eqb a a = true.
Proof. apply ostr_eqb_eq. reflexivity. Qed.
Lemma ostr_eqb_spec a b : reflect (a = b) (ostr_eqb a b).
Proof.
  destruct (ostr_eqb a b) eqn:E; constructor.
  - apply ostr_eqb_eq, E.
  - intros H. apply ostr_eqb_eq in H. congruence.
Qed.
Lemma str_mem_In x l : str_mem x l = true <-> In x l.
Proof.
  unfold str_mem. rewrite existsb_exists. split.
  - intros (y & Hy & E). apply str_eqb_eq in E. subst. exact Hy.
  - intros H. exists x. split; [exact H|apply str_eqb_refl].
Qed.
Lemma ostr_mem_In x l : ostr_mem x l = true <-> In x l.
Proof.
  unfold ostr_mem. rewrite existsb_exists. split.
  - intros (y & Hy & E). apply ostr_eqb_eq in E. subst. exact Hy.
  - intros H. exists x. split; [exact H|apply ostr_eqb_refl].
Qed.

Lemma dict_get_set {V} (d : dict V) k v k' :
  dict_get (dict_set d k v) k' = if ostr_eqb k' k then Some v else dict_get d k'.
Proof.
  induction d as [|[q w] d IH]; cbn; [reflexivity|].
  destruct (ostr_eqb_spec k q) as [->|N]; cbn.
  - destruct (ostr_eqb k' q); reflexivity.
  - rewrite IH. destruct (ostr_eqb_spec k' q) as [->|N']; [|reflexivity].
    destruct (ostr_eqb_spec q k); [congruence|reflexivity].
Qed.

(** a dictionary filled from a list: the last entry wins *)
Definition fill {A V} (key : A -> option str) (val : A -> V) (l : list A) (d : dict V) : dict V :=
  fold_left (fun m a => dict_set m (key a) (val a)) l d.
Lemma fill_app {A V} key (val : A -> V) l1 l2 d :
  fill key val (l1 ++ l2) d = fill key val l2 (fill key val l1 d).
Proof. apply fold_left_app. Qed.
Lemma fill_get {A V} key (val : A -> V) l k :
  dict_get (fill key val l []) k =
  option_map val (find (fun a => ostr_eqb (key a) k) (rev l)).
Proof.
  induction l as [|x l IH] using rev_ind; [reflexivity|].
  rewrite fill_app, rev_unit. cbn. rewrite dict_get_set, IH.
  destruct (ostr_eqb_spec k (key x)), (ostr_eqb_spec (key x) k); try congruence; reflexivity.
Qed.

Lemma find_first {A} f (l : list A) a :
  find f l = Some a <-> exists l1 l2, l = l1 ++ a :: l2 /\ f a = true /\ (forall x, In x l1 -> f x = false).
Proof.
  split.
  - induction l as [|x l IH]; [discriminate|]. cbn. destruct (f x) eqn:E.
    + intros H. injection H as ->. exists [], l. split; [reflexivity|]. split; [exact E|]. intros ? [].
    + intros H. destruct (IH H) as (l1 & l2 & -> & Ha & Hn). exists (x :: l1), l2.
      split; [reflexivity|]. split; [exact Ha|]. intros y [->|Hy]; auto.
  - intros (l1 & l2 & -> & Ha & Hn). induction l1 as [|x l1 IH]; cbn; [rewrite Ha; reflexivity|].
    rewrite (Hn x (or_introl eq_refl)). apply IH. intros y Hy. apply Hn. right. exact Hy.
Qed.
Lemma find_last {A} f (l : list A) a :
  find f (rev l) = Some a <-> exists l1 l2, l = l1 ++ a :: l2 /\ f a = true /\ (forall x, In x l2 -> f x = false).
Proof.
  rewrite find_first. split.
  - intros (l1 & l2 & E & Ha & Hn). exists (rev l2), (rev l1). split.
    + rewrite <- (rev_involutive l), E, rev_app_distr. cbn. rewrite <- app_assoc. reflexivity.
    + split; [exact Ha|]. intros x Hx. apply Hn. apply in_rev. exact Hx.
  - intros (l1 & l2 & -> & Ha & Hn). exists (rev l2), (rev l1). split.
    + rewrite rev_app_distr. cbn. rewrite <- app_assoc. reflexivity.
    + split; [exact Ha|]. intros x Hx. apply Hn. apply in_rev. exact Hx.
Qed.
Lemma find_none {A} f (l : list A) : find f l = None <-> forall x, In x l -> f x = false.
Proof.
  split; [intros H x Hx; eapply List.find_none; eauto|].
  induction l as [|x l IH]; intros H; [reflexivity|]. cbn. rewrite (H x (or_introl eq_refl)).
  apply IH. intros y Hy. apply H. right. exact Hy.
Qed.
Lemma fill_last {A} (key : A -> option str) l k a :
  dict_get (fill key (fun x => x) l []) k = Some a <-> is_last_with key l k a.
Proof.
  rewrite fill_get. unfold is_last_with.
  assert (E : option_map (fun x : A => x) (find (fun a => ostr_eqb (key a) k) (rev l))
              = find (fun a => ostr_eqb (key a) k) (rev l)) by (destruct (find _ _); reflexivity).
  rewrite E, find_last. split; intros (l1 & l2 & H1 & H2 & H3); exists l1, l2.
  - split; [exact H1|]. split; [apply ostr_eqb_eq, H2|]. intros x Hx Ek.
    apply ostr_eqb_eq in Ek. rewrite (H3 x Hx) in Ek. discriminate.
  - split; [exact H1|]. split; [apply ostr_eqb_eq, H2|]. intros x Hx.
    destruct (ostr_eqb_spec (key x) k) as [Ek|]; [exfalso; apply (H3 x Hx Ek)|reflexivity].
Qed.
Lemma fill_none {A V} (key : A -> option str) (val : A -> V) l k :
  dict_get (fill key val l []) k = None <-> forall x, In x l -> key x <> k.
Proof.
  rewrite fill_get.
  assert (E : option_map val (find (fun a => ostr_eqb (key a) k) (rev l)) = None
              <-> find (fun a => ostr_eqb (key a) k) (rev l) = None)
    by (destruct (find _ _); split; cbn; congruence).
  rewrite E, find_none. split; intros H x Hx.
  - intros Ek. apply ostr_eqb_eq in Ek. rewrite H in Ek; [discriminate|]. apply in_rev. rewrite rev_involutive. exact Hx.
  - destruct (ostr_eqb_spec (key x) k) as [Ek|]; [|reflexivity]. exfalso. apply (H x); [|exact Ek].
    apply in_rev, Hx.
Qed.
Lemma fill_mem {A V} (key : A -> option str) (val : A -> V) l k :
  dict_mem (fill key val l []) k = true <-> exists x, In x l /\ key x = k.
Proof.
  unfold dict_mem. destruct (dict_get (fill key val l []) k) as [v|] eqn:E.
  - split; [intros _|auto]. rewrite fill_get in E.
    destruct (find (fun a => ostr_eqb (key a) k) (rev l)) as [a|] eqn:F; [|discriminate].
    apply find_some in F. destruct F as [F1 F2]. exists a. split; [apply in_rev, F1|apply ostr_eqb_eq, F2].
  - split; [discriminate|]. intros (x & Hx & Ek). exfalso. apply (proj1 (fill_none key val l k) E x Hx Ek).
Qed.
(** keys appear in order of first use *)
Fixpoint first_uses {A} (eqb : A -> A -> bool) (seen l : list A) : list A :=
  match l with
  | [] => []
  | x :: l' => if existsb (eqb x) seen then first_uses eqb seen l'
               else x :: first_uses eqb (seen ++ [x]) l'
  end.
Lemma dict_keys_set {V} (d : dict V) k v :
  dict_keys (dict_set d k v) = if ostr_mem k (dict_keys d) then dict_keys d else dict_keys d ++ [k].
Proof.
  unfold dict_keys, ostr_mem. induction d as [|[q w] d IH]; [reflexivity|]. cbn.
  destruct (ostr_eqb k q) eqn:E; cbn; [reflexivity|]. rewrite IH. destruct (existsb _ _); reflexivity.
Qed.
Lemma fill_keys {A V} (key : A -> option str) (val : A -> V) l d :
  dict_keys (fill key val l d) = dict_keys d ++ first_uses ostr_eqb (dict_keys d) (map key l).
Proof.
  revert d. induction l as [|x l IH]; intros d; [cbn; rewrite app_nil_r; reflexivity|].
  change (fill key val (x :: l) d) with (fill key val l (dict_set d (key x) (val x))).
  cbn [map first_uses]. rewrite IH, dict_keys_set. unfold ostr_mem.
  destruct (existsb (ostr_eqb (key x)) (dict_keys d)); [reflexivity|].
  rewrite <- app_assoc. reflexivity.
Qed.

(** ** mapM *)
Lemma mapM_Ok {A B} (f : A -> result B) l l' :
  mapM f l = Ok l' <-> Forall2 (fun x y => f x = Ok y) l l'.
Proof.
  revert l'. induction l as [|x l IH]; intros l'.
  - cbn. split; [intros H; injection H as <-; constructor|]. inversion 1; reflexivity.
  - cbn. destruct (f x) as [y|e] eqn:E; cbn.
    + destruct (mapM f l) as [ys|e] eqn:E2; cbn.
      * split.
        -- intros H. injection H as <-. constructor; [exact E|]. apply IH. reflexivity.
        -- inversion 1; subst. apply IH in H4. congruence.
      * split; [discriminate|]. inversion 1; subst. apply IH in H4. discriminate.
    + split; [discriminate|]. inversion 1; congruence.
Qed.
Lemma mapM_app {A B} (f : A -> result B) a b :
  mapM f (a ++ b) = let! x := mapM f a in let! y := mapM f b in Ok (x ++ y).
Proof.
  induction a as [|x a IH]; cbn.
  - destruct (mapM f b); reflexivity.
  - destruct (f x); [|reflexivity]. cbn. rewrite IH. destruct (mapM f a); [|reflexivity]. cbn.
    destruct (mapM f b); reflexivity.
Qed.
Lemma mapM_ext {A B} (f g : A -> result B) l :
  (forall x, In x l -> f x = g x) -> mapM f l = mapM g l.
Proof.
  induction l as [|x l IH]; intros H; [reflexivity|]. cbn. rewrite (H x (or_introl eq_refl)).
  destruct (g x); [|reflexivity]. cbn. rewrite IH; [reflexivity|]. intros y Hy. apply H. right. exact Hy.
Qed.
Lemma mapM_map {A B C} (f : B -> result C) (g : A -> B) l : mapM f (map g l) = mapM (fun x => f (g x)) l.
Proof. induction l as [|x l IH]; [reflexivity|]. cbn. rewrite IH. reflexivity. Qed.
Lemma mapM_pure {A B} (f : A -> B) l : mapM (fun x => Ok (f x)) l = Ok (map f l).
Proof. induction l as [|x l IH]; [reflexivity|]. cbn. rewrite IH. reflexivity. Qed.

Lemma mapM_Raise {A B} (f : A -> result B) l e :
  mapM f l = Raise e -> exists x, In x l /\ f x = Raise e.
Proof.
  induction l as [|x l IH]; [discriminate|]. cbn. destruct (f x) as [y|e'] eqn:E; cbn.
  - destruct (mapM f l) eqn:M; cbn; [discriminate|]. intros H. injection H as ->.
    destruct (IH eq_refl) as (z & Hz & Ez). eauto.
  - intros H. injection H as ->. eauto.
Qed.
