(** AliasProofs.v -- the memory of Alias.v *)
From Verif Require Import Base Py DictProofs Models BundleModel Alias SpecAlias.

(** ** Lists *)
Lemma pick_app {A} (h : list A) a b : pick h (a ++ b) = pick h a ++ pick h b.
Proof. apply flat_map_app. Qed.
Lemma pick_grow {A} (h x : list A) rs : Forall (fun r => r < length h) rs -> pick (h ++ x) rs = pick h rs.
Proof.
  induction 1 as [|r rs H _ IH]; [reflexivity|]. unfold pick in *. cbn. rewrite nth_error_app1 by exact H. rewrite IH. reflexivity.
Qed.
Lemma pick_seq {A} (l h : list A) : pick (h ++ l) (seq (length h) (length l)) = l.
Proof.
  revert h. induction l as [|x l IH]; intros h; [reflexivity|]. cbn [length seq]. unfold pick in *. cbn.
  rewrite nth_error_app2 by apply le_n. rewrite Nat.sub_diag. cbn. f_equal.
  specialize (IH (h ++ [x])). rewrite <- app_assoc, app_length, Nat.add_1_r in IH. exact IH.
Qed.
Lemma nth_upd {A} n f (l : list A) i :
  nth_error (upd n f l) i = if Nat.eqb i n then option_map f (nth_error l i) else nth_error l i.
Proof.
  revert n i. induction l as [|x l IH]; intros n i; cbn.
  - destruct i, n; cbn; try reflexivity. destruct (Nat.eqb i n); reflexivity.
  - destruct n, i; cbn; try reflexivity. apply IH.
Qed.
Lemma upd_length {A} n f (l : list A) : length (upd n f l) = length l.
Proof. revert n. induction l as [|x l IH]; intros [|n]; cbn; congruence. Qed.
Lemma pick_upd_other {A} (h : list A) r f rs : ~ In r rs -> pick (upd r f h) rs = pick h rs.
Proof.
  induction rs as [|q rs IH]; intros N; [reflexivity|]. unfold pick in *. cbn. rewrite nth_upd.
  destruct (Nat.eqb_spec q r) as [->|_]; [exfalso; apply N; left; reflexivity|]. rewrite IH; [reflexivity|]. intros H. apply N. right. exact H.
Qed.
Lemma pick_at {A} (h : list A) (a : list ref) (r : ref) (b : list ref) x : nth_error h r = Some x -> pick h (a ++ r :: b) = pick h a ++ x :: pick h b.
Proof. intros E. rewrite pick_app. unfold pick at 2. cbn. rewrite E. reflexivity. Qed.
Lemma pick_length {A} (h : list A) rs : Forall (fun r => r < length h) rs -> length (pick h rs) = length rs.
Proof.
  induction 1 as [|r rs H _ IH]; [reflexivity|]. unfold pick in *. cbn. rewrite app_length, IH.
  destruct (nth_error h r) eqn:E; [reflexivity|]. apply nth_error_None in E. lia.
Qed.
Lemma upd_split {A} (l : list A) r x f : nth_error l r = Some x ->
  exists a b, l = a ++ x :: b /\ upd r f l = a ++ f x :: b /\ length a = r.
Proof.
  revert r. induction l as [|y l IH]; intros [|r] E; try discriminate.
  - cbn in E. assert (y = x) by congruence. subst. exists [], l. repeat split.
  - destruct (IH r E) as (a & b & -> & E2 & L). exists (y :: a), b. cbn. rewrite E2, L. repeat split.
Qed.
Lemma upd_none {A} (l : list A) r f : nth_error l r = None -> upd r f l = l.
Proof. revert r. induction l as [|y l IH]; intros [|r] E; try reflexivity; try discriminate. cbn. rewrite IH; [reflexivity|exact E]. Qed.

(** ** Dictionaries *)
Lemma dict_get_split {V} (d : dict V) key v : NoDup (map fst d) ->
  dict_get d key = Some v <-> In (key, v) d.
Proof.
  induction d as [|[q w] d IH]; intros ND; [cbn; split; [discriminate|tauto]|].
  apply NoDup_cons_iff in ND. destruct ND as [N ND]. cbn [dict_get In].
  destruct (ostr_eqb_spec key q) as [->|Q].
  - split; [intros E; left; congruence|]. intros [E|H]; [congruence|]. exfalso. apply N. apply in_map_iff. exists (q, v). auto.
  - rewrite IH by exact ND. split; [auto|]. intros [E|H]; [congruence|exact H].
Qed.
Lemma dict_set_at {V} (d1 : dict V) key o d2 v : ~ In key (map fst d1) ->
  dict_set (d1 ++ (key, o) :: d2) key v = d1 ++ (key, v) :: d2.
Proof.
  induction d1 as [|[q w] d1 IH]; intros N; cbn [app dict_set].
  - rewrite ostr_eqb_refl. reflexivity.
  - destruct (ostr_eqb_spec key q) as [->|_]; [exfalso; apply N; left; reflexivity|]. rewrite IH; [reflexivity|]. intros H. apply N. right. exact H.
Qed.
Lemma dict_set_new {V} (d : dict V) key v : ~ In key (map fst d) -> dict_set d key v = d ++ [(key, v)].
Proof.
  induction d as [|[q w] d IH]; intros N; [reflexivity|]. cbn [dict_set app].
  destruct (ostr_eqb_spec key q) as [->|_]; [exfalso; apply N; left; reflexivity|]. rewrite IH; [reflexivity|]. intros H. apply N. right. exact H.
Qed.
Lemma dict_set_cases {V} (d : dict V) key v :
  (exists d1 w d2, d = d1 ++ (key, w) :: d2 /\ ~ In key (map fst d1) /\ dict_set d key v = d1 ++ (key, v) :: d2)
  \/ (~ In key (map fst d) /\ dict_set d key v = d ++ [(key, v)]).
Proof.
  induction d as [|[q w] d IH]; [right; cbn; split; [tauto|reflexivity]|]. cbn [dict_set].
  destruct (ostr_eqb_spec key q) as [->|Q]; [left; exists [], w, d; cbn; split; [reflexivity|split; [tauto|reflexivity]]|].
  destruct IH as [(d1 & w' & d2 & -> & N & E)|[N E]].
  - left. exists ((q, w) :: d1), w', d2. rewrite E. cbn. split; [reflexivity|]. split; [intros [H|H]; [congruence|auto]|reflexivity].
  - right. rewrite E. split; [cbn; intros [H|H]; [congruence|auto]|reflexivity].
Qed.
Lemma dict_set_in {V} (d : dict V) key v q w : In (q, w) (dict_set d key v) -> (q, w) = (key, v) \/ In (q, w) d.
Proof.
  destruct (dict_set_cases d key v) as [(d1 & w' & d2 & -> & _ & ->)|[_ ->]]; rewrite !in_app_iff; cbn [In].
  - intros [H|[H|H]]; auto.
  - intros [H|[H|[]]]; auto.
Qed.
Lemma dict_set_keys_nodup {V} (d : dict V) key v : NoDup (map fst d) -> NoDup (map fst (dict_set d key v)).
Proof.
  destruct (dict_set_cases d key v) as [(d1 & w & d2 & -> & N & ->)|[N ->]]; rewrite !map_app; cbn [map fst]; [auto|].
  intros H. apply NoDup_Add with (a := key) (l := map fst d); [|auto]. rewrite <- (app_nil_r (map fst d)) at 1. apply Add_app.
Qed.
Lemma nodup_flat_map {A B} (g : A -> list B) l i j y z a : NoDup (flat_map g l) ->
  nth_error l i = Some y -> nth_error l j = Some z -> i <> j -> In a (g y) -> ~ In a (g z).
Proof.
  revert i j. induction l as [|x l IH]; intros [|i] [|j] ND Ey Ez N Hy Hz; try discriminate; try lia.
  - cbn in Ey. assert (x = y) by congruence. subst. cbn in ND. revert ND Hy. generalize (g y). intros q ND Hy.
    assert (In a (flat_map g l)) by (apply in_flat_map; exists z; split; [eapply nth_error_In; exact Ez|exact Hz]).
    induction q as [|u q IHq]; [contradiction|]. cbn in ND. apply NoDup_cons_iff in ND. destruct ND as [N1 ND].
    destruct Hy as [->|Hy]; [apply N1, in_app_iff; auto|auto].
  - cbn in Ez. assert (x = z) by congruence. subst. cbn in ND. revert ND Hz. generalize (g z). intros q ND Hz.
    assert (In a (flat_map g l)) by (apply in_flat_map; exists y; split; [eapply nth_error_In; exact Ey|exact Hy]).
    induction q as [|u q IHq]; [contradiction|]. cbn in ND. apply NoDup_cons_iff in ND. destruct ND as [N1 ND].
    destruct Hz as [->|Hz]; [apply N1, in_app_iff; auto|auto].
  - cbn in ND, Ey, Ez. assert (NoDup (flat_map g l)).
    { clear - ND. induction (g x) as [|u q IHq]; [exact ND|]. cbn in ND. apply NoDup_cons_iff in ND. apply IHq, ND. }
    refine (IH i j _ Ey Ez _ Hy Hz); [assumption|lia].
Qed.
Lemma nodup_app_split {A} (a b : list A) : NoDup (a ++ b) <-> NoDup a /\ NoDup b /\ (forall x, In x a -> ~ In x b).
Proof.
  induction a as [|x a IH]; cbn.
  - split; [intros H; split; [constructor|split; [exact H|tauto]]|intros (_ & H & _); exact H].
  - rewrite !NoDup_cons_iff, IH, in_app_iff. split.
    + intros (N & Ha & Hb & D). split; [tauto|]. split; [exact Hb|]. intros y [->|H]; [tauto|auto].
    + intros ((N & Ha) & Hb & D). split; [intros [H|H]; [tauto|exact (D x (or_introl eq_refl) H)]|]. split; [exact Ha|]. split; [exact Hb|]. intros y H. apply D. right. exact H.
Qed.

(** ** The invariant *)
Section Invariant.
Context {I C : Type} (k : kind I C).

(** the three kinds are well behaved *)
Record lawful : Prop := {
  law_items : forall c x, (x = None <-> k_items k c = None) -> k_items k (k_put k c x) = x;
  law_same : forall c, k_put k c (k_items k c) = c;
  law_twice : forall c x l, k_put k (k_put k c x) (Some l) = k_put k c (Some l) }.

Definition refs_of (x : cell C) : list ref := match c_items x with Some rs => rs | None => [] end.
Definition fits (x : cell C) : Prop :=
  (c_items x = None <-> k_items k (c_own x) = None) /\ (forall q r, In (q, r) (c_map x) -> In r (refs_of x)).
Record sound (p : place I C) : Prop := {
  s_list : NoDup (p_list p);
  s_list_in : Forall (fun r => r < length (p_cells p)) (p_list p);
  s_dict_in : forall q r, In (q, r) (p_dict p) -> In r (p_list p);
  s_dict_refs : NoDup (map snd (p_dict p));
  s_dict_keys : NoDup (map fst (p_dict p));
  s_items : NoDup (flat_map refs_of (p_cells p));
  s_items_in : Forall (fun r => r < length (p_items p)) (flat_map refs_of (p_cells p));
  s_cells : Forall fits (p_cells p) }.

(** the object at a reference *)
Definition seen (p : place I C) (r : ref) : option C := option_map (view_cell k p) (nth_error (p_cells p) r).
Definition one {A} (o : option A) : list A := match o with Some x => [x] | None => [] end.
Lemma view_list_seen p : view_list k p = flat_map (fun r => one (seen p r)) (p_list p).
Proof.
  unfold view_list, pick, seen. induction (p_list p) as [|r l IH]; [reflexivity|]. cbn. rewrite map_app, IH.
  destruct (nth_error (p_cells p) r); reflexivity.
Qed.
Definition entry (p : place I C) (e : option str * ref) : dict C := map (pair (fst e)) (one (seen p (snd e))).
Lemma view_dict_seen p : view_dict k p = flat_map (entry p) (p_dict p).
Proof.
  unfold view_dict, entry, seen. induction (p_dict p) as [|[q r] l IH]; [reflexivity|]. cbn [flat_map fst snd]. rewrite IH.
  destruct (nth_error (p_cells p) r); reflexivity.
Qed.
Lemma entry_keys p d q : In q (map fst (flat_map (entry p) d)) -> In q (map fst d).
Proof.
  induction d as [|[u r] d IH]; [tauto|]. cbn [flat_map map]. rewrite map_app, in_app_iff.
  intros [H|H]; [|right; auto]. left. unfold entry in H. cbn in H. destruct (seen p r); cbn in H; [destruct H as [H|[]]; exact H|contradiction].
Qed.

(** [p'] differs from [p] at most in what is seen at [r] *)
Definition differs_at (p p' : place I C) (r : ref) : Prop :=
  p_list p' = p_list p /\ p_dict p' = p_dict p /\ forall i, i <> r -> seen p' i = seen p i.
Lemma change_list p p' r a b o o' : differs_at p p' r -> NoDup (p_list p) -> p_list p = a ++ r :: b ->
  seen p r = Some o -> seen p' r = Some o' ->
  view_list k p = flat_map (fun r => one (seen p r)) a ++ o :: flat_map (fun r => one (seen p r)) b
  /\ view_list k p' = flat_map (fun r => one (seen p r)) a ++ o' :: flat_map (fun r => one (seen p r)) b.
Proof.
  intros (EL & _ & D) ND E S1 S2. rewrite !view_list_seen, EL, E, !flat_map_app. cbn [flat_map]. rewrite S1, S2. cbn [one app].
  split; [reflexivity|]. rewrite E in ND. apply NoDup_remove_2 in ND. rewrite in_app_iff in ND.
  assert (P : forall l, ~ In r l -> flat_map (fun r => one (seen p' r)) l = flat_map (fun r => one (seen p r)) l).
  { induction l as [|q l IH]; intros N; [reflexivity|]. cbn. rewrite D; [|intros ->; apply N; left; reflexivity]. rewrite IH; [reflexivity|]. intros H. apply N. right. exact H. }
  rewrite !P by tauto. reflexivity.
Qed.
Lemma entry_other p p' r d : (forall i, i <> r -> seen p' i = seen p i) -> ~ In r (map snd d) ->
  flat_map (entry p') d = flat_map (entry p) d.
Proof.
  intros D. induction d as [|[q w] d IH]; intros N; [reflexivity|]. cbn [flat_map]. rewrite IH by (intros H; apply N; right; exact H).
  unfold entry. cbn [fst snd]. rewrite D; [reflexivity|]. intros ->. apply N. left. reflexivity.
Qed.
Lemma keys_of_none d r : ~ In r (map snd d) -> keys_of d r = [].
Proof.
  unfold keys_of. induction d as [|[q w] d IH]; intros N; [reflexivity|]. cbn.
  destruct (Nat.eqb_spec w r) as [->|_]; [exfalso; apply N; left; reflexivity|]. apply IH. intros H. apply N. right. exact H.
Qed.
Lemma keys_of_app d1 d2 r : keys_of (d1 ++ d2) r = keys_of d1 r ++ keys_of d2 r.
Proof. unfold keys_of. rewrite filter_app. apply map_app. Qed.
Lemma change_dict p p' r o' : differs_at p p' r -> NoDup (map fst (p_dict p)) -> NoDup (map snd (p_dict p)) ->
  seen p r <> None -> seen p' r = Some o' -> view_dict k p' = found_under (keys_of (p_dict p) r) o' (view_dict k p).
Proof.
  intros (_ & ED & D) NK NR S1 S2. rewrite !view_dict_seen, ED. destruct (in_dec Nat.eq_dec r (map snd (p_dict p))) as [H|H].
  - apply in_map_iff in H. destruct H as ([q w] & E & H). cbn in E. subst w. apply in_split in H. destruct H as (d1 & d2 & E).
    rewrite E in *. rewrite map_app in NK, NR. cbn [map fst snd] in NK, NR. apply NoDup_remove_2 in NK. apply NoDup_remove_2 in NR.
    rewrite in_app_iff in NK, NR. rewrite keys_of_app, (keys_of_none d1) by tauto.
    assert (K : keys_of ((q, r) :: d2) r = [q]).
    { unfold keys_of. cbn. rewrite Nat.eqb_refl. cbn. f_equal. apply keys_of_none. tauto. }
    rewrite K. cbn [app found_under fold_left]. rewrite !flat_map_app. cbn [flat_map].
    rewrite !(entry_other p p' r) by tauto. unfold entry at 2 5. cbn [fst snd]. rewrite S2. destruct (seen p r) as [o|]; [|congruence]. cbn [one map app].
    symmetry. apply dict_set_at. intros H. apply entry_keys in H. tauto.
  - rewrite keys_of_none by exact H. cbn. apply (entry_other p p' r); assumption.
Qed.

(** ** Each edit *)
Lemma in_cells_refs (p : place I C) r x a : nth_error (p_cells p) r = Some x -> In a (refs_of x) -> In a (flat_map refs_of (p_cells p)).
Proof. intros E H. apply in_flat_map. exists x. split; [eapply nth_error_In; exact E|exact H]. Qed.
Lemma own_seen p r f : own_fields k f -> differs_at p (edit_own p r f) r /\ seen (edit_own p r f) r = option_map f (seen p r).
Proof.
  intros (_ & Hf). unfold differs_at, seen, edit_own. cbn. split; [split; [reflexivity|split; [reflexivity|]]|].
  - intros i N. rewrite nth_upd. apply Nat.eqb_neq in N. rewrite N. destruct (nth_error (p_cells p) i); reflexivity.
  - rewrite nth_upd, Nat.eqb_refl. destruct (nth_error (p_cells p) r) as [x|]; [|reflexivity]. cbn. f_equal. unfold view_cell. cbn. symmetry. apply Hf.
Qed.
Lemma own_sound p r f : own_fields k f -> sound p -> sound (edit_own p r f).
Proof.
  intros (Hi & _) S. unfold edit_own. destruct (nth_error (p_cells p) r) as [x|] eqn:E.
  2: { rewrite upd_none by exact E. destruct p, S. constructor; assumption. }
  destruct (upd_split _ _ _ (fun x => Cell (f (c_own x)) (c_items x) (c_map x)) E) as (a & b & E1 & E2 & L).
  assert (R : flat_map refs_of (a ++ Cell (f (c_own x)) (c_items x) (c_map x) :: b) = flat_map refs_of (p_cells p)).
  { rewrite E1, !flat_map_app. reflexivity. }
  destruct S. constructor; cbn; rewrite ?upd_length; rewrite ?E2, ?R; try assumption.
  rewrite E1 in s_cells0. apply Forall_app in s_cells0. destruct s_cells0 as [F1 F2]. apply Forall_app. split; [exact F1|].
  inversion F2; subst. constructor; [|assumption]. destruct H1 as [G1 G2]. split; [cbn; rewrite Hi; exact G1|exact G2].
Qed.
Lemma item_sound p r v : sound p -> sound (edit_item p r v).
Proof. intros S. destruct S. constructor; cbn; rewrite ?upd_length; assumption. Qed.
Lemma item_seen_other p i ra v x : nth_error (p_cells p) i = Some x -> ~ In ra (refs_of x) -> seen (edit_item p ra v) i = seen p i.
Proof.
  intros E N. unfold seen, edit_item. cbn. rewrite E. cbn. f_equal. unfold view_cell, refs_of in *. cbn.
  destruct (c_items x) as [rs|]; [|reflexivity]. cbn. rewrite pick_upd_other by exact N. reflexivity.
Qed.
Lemma item_seen p r ra v : sound p -> In ra (items_of p r) -> differs_at p (edit_item p ra v) r.
Proof.
  intros S H. split; [reflexivity|]. split; [reflexivity|]. intros i N.
  unfold items_of in H. destruct (nth_error (p_cells p) r) as [x|] eqn:E; [|contradiction].
  destruct (nth_error (p_cells p) i) as [y|] eqn:Ei; [|unfold seen; cbn; rewrite Ei; reflexivity].
  apply (item_seen_other p i ra v y Ei). eapply nodup_flat_map; [apply (s_items p S)|exact E|exact Ei|auto|].
  destruct x as [c [rs|] m]; [exact H|contradiction].
Qed.
Lemma append_item_sound p r v p' : append_item p r v = Ok p' -> sound p -> sound p'.
Proof.
  unfold append_item. intros E S. destruct (nth_error (p_cells p) r) as [[c [rs|] m]|] eqn:Er; try discriminate.
  assert (p' = Place (p_items p ++ [v]) (upd r (fun _ => Cell c (Some (rs ++ [length (p_items p)])) m) (p_cells p)) (p_list p) (p_dict p)) by congruence.
  subst p'. clear E. destruct (upd_split _ _ _ (fun _ => Cell c (Some (rs ++ [length (p_items p)])) m) Er) as (a & b & E1 & E2 & L).
  destruct S. constructor; cbn; rewrite ?upd_length; try assumption.
  - rewrite E2. rewrite E1 in s_items0, s_items_in0. rewrite flat_map_app in s_items0, s_items_in0 |- *. cbn [flat_map refs_of c_items] in s_items0, s_items_in0 |- *.
    rewrite <- app_assoc. cbn [app]. apply NoDup_Add with (a := length (p_items p)) (l := flat_map refs_of a ++ rs ++ flat_map refs_of b).
    + rewrite !app_assoc. apply Add_app.
    + split; [exact s_items0|]. intros H. rewrite Forall_forall in s_items_in0. specialize (s_items_in0 _ H). lia.
  - rewrite E2, app_length. cbn. rewrite E1, flat_map_app in s_items_in0. rewrite flat_map_app. cbn [flat_map refs_of c_items] in s_items_in0 |- *.
    apply Forall_app in s_items_in0. destruct s_items_in0 as [F1 F2]. apply Forall_app in F2. destruct F2 as [F2 F3].
    apply Forall_app. split; [eapply Forall_impl; [|exact F1]; cbn; intros; lia|].
    apply Forall_app. split; [|eapply Forall_impl; [|exact F3]; cbn; intros; lia].
    apply Forall_app. split; [eapply Forall_impl; [|exact F2]; cbn; intros; lia|]. constructor; [lia|constructor].
  - rewrite E2. rewrite E1 in s_cells0. apply Forall_app in s_cells0. destruct s_cells0 as [F1 F2]. apply Forall_app. split; [exact F1|].
    inversion F2; subst. constructor; [|assumption]. destruct H1 as [G1 G2]. split; cbn in *.
    + split; [discriminate|]. intros H. apply G1 in H. discriminate.
    + intros q r H. apply in_app_iff. left. exact (G2 q r H).
Qed.
Lemma cell_refs_in p i x : sound p -> nth_error (p_cells p) i = Some x -> Forall (fun r => r < length (p_items p)) (refs_of x).
Proof.
  intros S E. apply Forall_forall. intros a H. pose proof (s_items_in p S) as F. rewrite Forall_forall in F. apply F. exact (in_cells_refs p i x a E H).
Qed.
Lemma view_grow p x l cells d y : Forall (fun r => r < length (p_items p)) (refs_of x) ->
  view_cell k (Place (p_items p ++ y) cells l d) x = view_cell k p x.
Proof.
  intros F. unfold view_cell, refs_of in *. cbn. destruct (c_items x) as [rs|]; [|reflexivity]. cbn. rewrite pick_grow by exact F. reflexivity.
Qed.
Lemma append_item_seen p r v p' : sound p -> append_item p r v = Ok p' -> differs_at p p' r.
Proof.
  unfold append_item. intros S E. destruct (nth_error (p_cells p) r) as [[c [rs|] m]|] eqn:Er; try discriminate.
  match type of E with Ok ?x = _ => assert (p' = x) by congruence end.
  subst p'. clear E. split; [reflexivity|]. split; [reflexivity|]. intros i N. unfold seen. cbn. rewrite nth_upd.
  apply Nat.eqb_neq in N. rewrite N. destruct (nth_error (p_cells p) i) as [x|] eqn:Ei; [|reflexivity]. cbn. f_equal.
  apply view_grow. exact (cell_refs_in p i x S Ei).
Qed.

(** creating *)
Lemma item_map_in rs l q r : In (q, r) (item_map k rs l) -> In r rs.
Proof.
  unfold item_map. assert (P : forall z d, (forall q r, In (q, r) d -> In r rs) -> (forall x, In x z -> In (fst x) rs) ->
    In (q, r) (fold_left (fun d x => dict_set d (k_item_key k (snd x)) (fst x)) z d) -> In r rs).
  { induction z as [|x z IH]; intros d Hd Hz H; [exact (Hd q r H)|]. cbn in H. refine (IH _ _ _ H).
    - intros q' r' H'. apply dict_set_in in H'. destruct H' as [E|H']; [|exact (Hd q' r' H')].
      assert (r' = fst x) by congruence. subst r'. apply Hz. left. reflexivity.
    - intros x' H'. apply Hz. right. exact H'. }
  apply P; [contradiction|]. intros [a b] H. apply in_combine_l in H. exact H.
Qed.
Lemma create_facts p c items x : create_cell k p c = (items, x) ->
  (exists l, items = p_items p ++ l /\ refs_of x = seq (length (p_items p)) (length l))
  /\ fits x /\ (lawful -> forall cells l d, view_cell k (Place items cells l d) x = c).
Proof.
  unfold create_cell. destruct (k_items k c) as [l|] eqn:E; intros H.
  - assert (items = p_items p ++ l) by congruence.
    match type of H with (_, ?y) = _ => assert (x = y) by congruence end. subst. split; [exists l; split; reflexivity|]. split.
    + split; cbn; [rewrite E; split; discriminate|]. intros q r. destruct (k_mapped k c); [|contradiction]. apply item_map_in.
    + intros L cells l' d. unfold view_cell. cbn. rewrite pick_seq, <- E. apply (law_same L).
  - assert (items = p_items p) by congruence. assert (x = Cell c None []) by congruence. subst. split; [exists []; rewrite app_nil_r; split; reflexivity|]. split.
    + split; cbn; [split; auto|contradiction].
    + intros L cells l' d. unfold view_cell. cbn. rewrite <- E. apply (law_same L).
Qed.
Lemma seq_fresh n m a : In a (seq n m) -> n <= a < n + m.
Proof. intros H. apply in_seq in H. exact H. Qed.
Lemma grown_sound p c items x d :
  create_cell k p c = (items, x) -> sound p ->
  (forall q r, In (q, r) d -> r = length (p_cells p) \/ In r (p_list p)) -> NoDup (map snd d) -> NoDup (map fst d) ->
  sound (Place items (p_cells p ++ [x]) (p_list p ++ [length (p_cells p)]) d).
Proof.
  intros E S D1 D2 D3. destruct (create_facts p c items x E) as ((l & E1 & E2) & E3 & _). destruct S. subst items. constructor; cbn; try assumption.
  - apply nodup_app_split. split; [assumption|]. split; [repeat constructor; intros []|]. intros a Ha [H|[]]. rewrite Forall_forall in s_list_in0. specialize (s_list_in0 a Ha). lia.
  - rewrite app_length. cbn. apply Forall_app. split; [eapply Forall_impl; [|exact s_list_in0]; cbn; intros; lia|]. constructor; [lia|constructor].
  - intros q r H. apply in_app_iff. destruct (D1 q r H) as [->|H']; [right; left; reflexivity|left; exact H'].
  - rewrite flat_map_app. cbn [flat_map]. rewrite app_nil_r, E2. apply nodup_app_split. split; [assumption|]. split; [apply seq_NoDup|].
    intros a Ha Hb. rewrite Forall_forall in s_items_in0. specialize (s_items_in0 a Ha). apply in_seq in Hb. lia.
  - rewrite flat_map_app. cbn [flat_map]. rewrite app_nil_r, E2, app_length. apply Forall_app. split; [eapply Forall_impl; [|exact s_items_in0]; cbn; intros; lia|].
    apply Forall_forall. intros a H. apply in_seq in H. lia.
  - apply Forall_app. split; [assumption|]. constructor; [assumption|constructor].
Qed.
Lemma grown_seen p c items x d l i : lawful -> create_cell k p c = (items, x) -> sound p ->
  seen (Place items (p_cells p ++ [x]) l d) i = if Nat.eqb i (length (p_cells p)) then Some c else seen p i.
Proof.
  intros L E S. destruct (create_facts p c items x E) as ((w & E1 & E2) & E3 & E4). unfold seen. cbn.
  destruct (Nat.eqb_spec i (length (p_cells p))) as [->|N].
  - rewrite nth_error_app2 by apply le_n. rewrite Nat.sub_diag. cbn. rewrite (E4 L). reflexivity.
  - destruct (nth_error (p_cells p) i) as [y|] eqn:Ei.
    + rewrite nth_error_app1 by (apply nth_error_Some; congruence). rewrite Ei. cbn. f_equal. subst items. apply view_grow. exact (cell_refs_in p i y S Ei).
    + apply nth_error_None in Ei. rewrite (proj2 (nth_error_None _ _)); [reflexivity|]. rewrite app_length. cbn. lia.
Qed.
Lemma flat_other p p' c l : (forall i, seen p' i = if Nat.eqb i (length (p_cells p)) then Some c else seen p i) ->
  Forall (fun r => r < length (p_cells p)) l -> flat_map (fun r => one (seen p' r)) l = flat_map (fun r => one (seen p r)) l.
Proof.
  intros G F. induction F as [|r l H _ IH]; [reflexivity|]. cbn. rewrite G, IH. destruct (Nat.eqb_spec r (length (p_cells p))); [lia|reflexivity].
Qed.
Lemma append_object_sound p c : sound p -> sound (append_object k p c).
Proof.
  intros S. unfold append_object. destruct (create_cell k p c) as [items x] eqn:E. apply (grown_sound p c); try assumption; [|apply S|apply S].
  intros q r H. right. exact (s_dict_in p S q r H).
Qed.
Lemma add_new_sound p c : sound p -> sound (add_new k p c).
Proof.
  intros S. unfold add_new. destruct (create_cell k p c) as [items x] eqn:E. apply (grown_sound p c); try assumption.
  - intros q r H. apply dict_set_in in H. destruct H as [H|H]; [left; congruence|right; exact (s_dict_in p S q r H)].
  - assert (N : ~ In (length (p_cells p)) (map snd (p_dict p))).
    { intros H. apply in_map_iff in H. destruct H as ([q r] & Er & H). cbn in Er. subst r. apply (s_dict_in p S) in H.
      pose proof (s_list_in p S) as F. rewrite Forall_forall in F. specialize (F _ H). lia. }
    pose proof (s_dict_refs p S) as ND.
    destruct (dict_set_cases (p_dict p) (k_key k c) (length (p_cells p))) as [(d1 & w & d2 & E1 & _ & ->)|[_ ->]].
    + rewrite E1 in ND, N. rewrite map_app in *. cbn [map snd] in *. rewrite in_app_iff in N. cbn [In] in N.
      apply NoDup_Add with (a := length (p_cells p)) (l := map snd d1 ++ map snd d2); [apply Add_app|]. split; [apply NoDup_remove_1 in ND; exact ND|]. rewrite in_app_iff. tauto.
    + rewrite map_app. cbn [map snd]. apply nodup_app_split. split; [exact ND|]. split; [repeat constructor; intros []|]. intros a Ha [H|[]]. cbn in H. subst a. exact (N Ha).
  - apply dict_set_keys_nodup, S.
Qed.
Lemma no_objects_sound : sound (@no_objects I C).
Proof. constructor; cbn; try constructor; intros; contradiction. Qed.
Lemma step_sound present p p' : step k present p p' -> sound p -> sound p'.
Proof.
  intros H S. destruct H as [r f H|r v|r v p' H|c H]; [apply own_sound; assumption|apply item_sound; assumption|exact (append_item_sound p r v p' H S)|apply append_object_sound, S].
Qed.
Lemma add_new_view p c : lawful -> sound p ->
  view_list k (add_new k p c) = view_list k p ++ [c] /\ view_dict k (add_new k p c) = dict_set (view_dict k p) (k_key k c) c.
Proof.
  intros L S. pose proof (add_new_sound p c S) as S'. revert S'. unfold add_new. destruct (create_cell k p c) as [items x] eqn:E. intros S'.
  set (p' := Place _ _ _ _) in *. assert (G : forall i, seen p' i = if Nat.eqb i (length (p_cells p)) then Some c else seen p i) by (intros i; apply (grown_seen p c); assumption).
  rewrite !view_list_seen, !view_dict_seen. split.
  - cbn [p_list p']. rewrite flat_map_app. cbn [flat_map]. rewrite G, Nat.eqb_refl. cbn. f_equal.
    pose proof (s_list_in p S) as F. exact (flat_other p p' c (p_list p) G F).
  - cbn [p_dict p'].
    assert (P : forall d, (forall q r, In (q, r) d -> In r (p_list p)) -> flat_map (entry p') d = flat_map (entry p) d).
    { intros d Hd. induction d as [|[q r] d IH]; [reflexivity|]. cbn [flat_map]. rewrite IH by (intros q' r' H; apply (Hd q' r'); right; exact H).
      unfold entry. cbn [fst snd]. rewrite G. destruct (Nat.eqb_spec r (length (p_cells p))) as [->|_]; [|reflexivity].
      pose proof (s_list_in p S) as F. rewrite Forall_forall in F. specialize (F _ (Hd q _ (or_introl eq_refl))). lia. }
    pose proof (s_dict_in p S) as D.
    destruct (dict_set_cases (p_dict p) (k_key k c) (length (p_cells p))) as [(d1 & w & d2 & E1 & N & ->)|[N ->]].
    + rewrite E1 in D |- *. rewrite !flat_map_app. cbn [flat_map]. rewrite !P by (intros q r H; apply (D q r), in_app_iff; cbn; auto).
      unfold entry at 2 5. cbn [fst snd]. rewrite G, Nat.eqb_refl. cbn [one map app].
      assert (W : exists o, seen p w = Some o).
      { assert (Hw : In w (p_list p)) by (apply (D (k_key k c) w), in_app_iff; right; left; reflexivity).
        pose proof (s_list_in p S) as F. rewrite Forall_forall in F. specialize (F _ Hw). unfold seen.
        destruct (nth_error (p_cells p) w) eqn:Ew; [eexists; reflexivity|]. apply nth_error_None in Ew. lia. }
      destruct W as (o & ->). cbn [one map app]. symmetry. apply dict_set_at. intros H. apply entry_keys in H. exact (N H).
    + rewrite flat_map_app. cbn [flat_map]. rewrite P by exact D. unfold entry at 2. cbn [fst snd]. rewrite G, Nat.eqb_refl. cbn [one map app].
      symmetry. apply dict_set_new. intros H. apply entry_keys in H. exact (N H).
Qed.
Lemma append_object_view p c : lawful -> sound p ->
  view_list k (append_object k p c) = view_list k p ++ [c] /\ view_dict k (append_object k p c) = view_dict k p.
Proof.
  intros L S. unfold append_object. destruct (create_cell k p c) as [items x] eqn:E.
  set (p' := Place _ _ _ _) in *. assert (G : forall i, seen p' i = if Nat.eqb i (length (p_cells p)) then Some c else seen p i) by (intros i; apply (grown_seen p c); assumption).
  pose proof (s_list_in p S) as F. rewrite !view_list_seen, !view_dict_seen. split.
  - cbn [p_list p']. rewrite flat_map_app. cbn [flat_map]. rewrite G, Nat.eqb_refl. cbn. f_equal.
    exact (flat_other p p' c (p_list p) G F).
  - cbn [p_dict p']. pose proof (s_dict_in p S) as D. clearbody p'. induction (p_dict p) as [|[q r] d IH]; [reflexivity|]. cbn [flat_map]. rewrite IH by (intros q' r' H; apply (D q' r'); right; exact H).
    unfold entry. cbn [fst snd]. rewrite G. destruct (Nat.eqb_spec r (length (p_cells p))) as [->|_]; [|reflexivity].
    rewrite Forall_forall in F. specialize (F _ (D q _ (or_introl eq_refl))). lia.
Qed.

(** ** All edits of one object *)
Lemma nth_split_refs rs j (ra : ref) : nth_error rs j = Some ra -> exists s1 s2, rs = s1 ++ ra :: s2 /\ length s1 = j.
Proof. intros H. apply nth_error_split in H. exact H. Qed.
Lemma edits_of p r j : lawful -> sound p -> nth_error (p_list p) j = Some r ->
  exists l1 o l2, view_list k p = l1 ++ o :: l2 /\ length l1 = j /\ seen p r = Some o
    /\ edits k p r l1 o l2 (fun p' l o' => view_list k p' = l /\ view_dict k p' = found_under (keys_of (p_dict p) r) o' (view_dict k p)).
Proof.
  intros L S Hj. destruct (nth_error_split _ _ Hj) as (a & b & El & Ej).
  assert (Hr : r < length (p_cells p)). { pose proof (s_list_in p S) as F. rewrite Forall_forall in F. apply F. rewrite El. apply in_app_iff. right. left. reflexivity. }
  destruct (nth_error (p_cells p) r) as [x|] eqn:Er; [|apply nth_error_None in Er; lia].
  assert (So : seen p r = Some (view_cell k p x)) by (unfold seen; rewrite Er; reflexivity). set (o := view_cell k p x) in *.
  exists (flat_map (fun r => one (seen p r)) a), o, (flat_map (fun r => one (seen p r)) b).
  assert (K : forall p' o', differs_at p p' r -> seen p' r = Some o' ->
     view_list k p' = flat_map (fun r => one (seen p r)) a ++ o' :: flat_map (fun r => one (seen p r)) b
     /\ view_dict k p' = found_under (keys_of (p_dict p) r) o' (view_dict k p)).
  { intros p' o' D Sp. split; [exact (proj2 (change_list p p' r a b o o' D (s_list p S) El So Sp))|].
    apply change_dict; [exact D|apply S|apply S|congruence|exact Sp]. }
  split; [|split; [|split; [exact So|split; [|split; [|split]]]]].
  - refine (proj1 (change_list p p r a b o o _ (s_list p S) El So So)). split; [reflexivity|]. split; [reflexivity|]. reflexivity.
  - rewrite <- Ej. assert (F : Forall (fun r => r < length (p_cells p)) a). { pose proof (s_list_in p S) as F. rewrite El in F. apply Forall_app in F. apply F. }
    clear - F. induction F as [|q a H _ IH]; [reflexivity|]. cbn. rewrite app_length, IH. unfold seen. destruct (nth_error (p_cells p) q) eqn:E; [reflexivity|]. apply nth_error_None in E. lia.
  - intros f Hf. destruct (own_seen p r f Hf) as [D E]. rewrite So in E. cbn in E. apply K; assumption.
  - pose proof (s_cells p S) as FC. rewrite Forall_forall in FC. destruct (FC x (nth_error_In _ _ Er)) as [G1 G2].
    assert (Ei : k_items k o = option_map (pick (p_items p)) (c_items x)).
    { unfold o, view_cell. apply (law_items L). rewrite <- G1. destruct (c_items x); cbn; split; congruence. }
    rewrite Ei. pose proof (cell_refs_in p r x S Er) as F. unfold items_of. rewrite Er. destruct x as [c [rs|] m]; [|reflexivity].
    cbn [option_map c_items]. symmetry. apply pick_length. exact F.
  - pose proof (s_cells p S) as FC. rewrite Forall_forall in FC. destruct (FC x (nth_error_In _ _ Er)) as [G1 G2].
    intros i ra Hi. destruct (nth_split_refs _ _ _ Hi) as (s1 & s2 & Es & Ls). assert (Hin : In ra (items_of p r)) by (rewrite Es; apply in_app_iff; right; left; reflexivity).
    assert (Ec : c_items x = Some (items_of p r)).
    { unfold items_of in Hi |- *. rewrite Er in Hi |- *. destruct x as [c [rs|] m]; [reflexivity|destruct i; discriminate]. }
    assert (Fr : Forall (fun r => r < length (p_items p)) (items_of p r)).
    { pose proof (cell_refs_in p r x S Er) as F. unfold refs_of in F. rewrite Ec in F. exact F. }
    assert (Lra : ra < length (p_items p)) by (rewrite Forall_forall in Fr; auto).
    destruct (nth_error (p_items p) ra) as [v|] eqn:Ev; [|apply nth_error_None in Ev; lia].
    exists (pick (p_items p) s1), v, (pick (p_items p) s2). split; [|split].
    + unfold o, view_cell. rewrite (law_items L) by (rewrite <- G1; destruct (c_items x); cbn; split; congruence).
      rewrite Ec, Es. cbn [option_map]. rewrite (pick_at _ s1 ra s2 v Ev). reflexivity.
    + rewrite pick_length; [exact Ls|]. rewrite Es in Fr. apply Forall_app in Fr. apply Fr.
    + intros v'. apply K; [apply item_seen; assumption|]. unfold seen, edit_item. cbn. rewrite Er. cbn. f_equal. unfold o, view_cell. cbn [p_items]. rewrite (law_twice L), Ec, Es. cbn [option_map].
      do 2 f_equal. rewrite (pick_at _ s1 ra s2 v').
      2: { rewrite nth_upd, Nat.eqb_refl, Ev. reflexivity. }
      assert (ND : NoDup (items_of p r)).
      { pose proof (s_items p S) as N. destruct (upd_split _ _ _ (fun x => x) Er) as (u & w & E1 & _). rewrite E1, flat_map_app in N. cbn [flat_map] in N.
        apply nodup_app_split in N. destruct N as (_ & N & _). apply nodup_app_split in N. destruct N as (N & _). unfold refs_of in N. rewrite Ec in N. exact N. }
      rewrite Es in ND. apply NoDup_remove_2 in ND. rewrite in_app_iff in ND. rewrite !pick_upd_other by tauto. reflexivity.
  - intros v. pose proof (s_cells p S) as FC. rewrite Forall_forall in FC. destruct (FC x (nth_error_In _ _ Er)) as [G1 G2].
    assert (Ei : k_items k o = option_map (pick (p_items p)) (c_items x)).
    { unfold o, view_cell. apply (law_items L). rewrite <- G1. destruct (c_items x); cbn; split; congruence. }
    rewrite Ei. destruct x as [c [rs|] m] eqn:Ex; cbn [option_map c_items].
    + eexists. split; [unfold append_item; rewrite Er; reflexivity|]. apply K.
      * apply append_item_seen with (v := v); [exact S|]. unfold append_item. rewrite Er. reflexivity.
      * unfold seen. cbn. rewrite nth_upd, Nat.eqb_refl, Er. cbn. f_equal. unfold o, view_cell. cbn. rewrite (law_twice L). do 2 f_equal.
        rewrite pick_app, pick_grow.
        -- f_equal. unfold pick. cbn. rewrite nth_error_app2 by apply le_n. rewrite Nat.sub_diag. reflexivity.
        -- exact (cell_refs_in p r _ S Er).
    + unfold append_item. rewrite Er. reflexivity.
Qed.
Lemma found_in_list p key r : sound p -> find_ref p key = Ok r -> exists j, nth_error (p_list p) j = Some r.
Proof.
  unfold find_ref, dict_index. intros S H. destruct (dict_get (p_dict p) key) as [r'|] eqn:E; [|discriminate]. assert (r' = r) by congruence. subst r'.
  apply dict_get_split in E; [|apply S]. apply In_nth_error. exact (s_dict_in p S key r E).
Qed.
Lemma found_keys p key r : sound p -> find_ref p key = Ok r -> keys_of (p_dict p) r = [key].
Proof.
  unfold find_ref, dict_index. intros S H. destruct (dict_get (p_dict p) key) as [r'|] eqn:E; [|discriminate]. assert (r' = r) by congruence. subst r'.
  apply dict_get_split in E; [|apply S]. apply in_split in E. destruct E as (d1 & d2 & E). pose proof (s_dict_refs p S) as ND. rewrite E in ND |- *.
  rewrite map_app in ND. cbn [map snd] in ND. apply NoDup_remove_2 in ND. rewrite in_app_iff in ND.
  rewrite keys_of_app, (keys_of_none d1) by tauto. unfold keys_of. cbn. rewrite Nat.eqb_refl. cbn. f_equal. apply keys_of_none. tauto.
Qed.
Lemma found_seen p key : sound p -> dict_index (view_dict k p) key = let! r := find_ref p key in match seen p r with Some o => Ok o | None => Raise EKeyError end.
Proof.
  intros S. unfold find_ref, dict_index. rewrite view_dict_seen. pose proof (s_dict_in p S) as D. pose proof (s_list_in p S) as F. rewrite Forall_forall in F.
  induction (p_dict p) as [|[q r] d IH]; [reflexivity|]. cbn [flat_map dict_get]. unfold entry at 1. cbn [fst snd].
  assert (Hs : exists o, seen p r = Some o).
  { specialize (F r (D q r (or_introl eq_refl))). unfold seen. destruct (nth_error (p_cells p) r) eqn:E; [eexists; reflexivity|]. apply nth_error_None in E. lia. }
  destruct Hs as (o & Hs). rewrite Hs. cbn [one map app dict_get]. destruct (ostr_eqb key q); [cbn; rewrite Hs; reflexivity|].
  apply IH. intros q' r' H. apply (D q' r'). right. exact H.
Qed.
Lemma item_in p r d ra : sound p -> item_ref p r d = Ok ra -> exists j, nth_error (items_of p r) j = Some ra.
Proof.
  unfold item_ref, items_of, dict_index. intros S H. destruct (nth_error (p_cells p) r) as [x|] eqn:Er; [|discriminate].
  destruct (dict_get (c_map x) d) as [r'|] eqn:E; [|discriminate]. assert (r' = ra) by congruence. subst r'.
  pose proof (s_cells p S) as FC. rewrite Forall_forall in FC. destruct (FC x (nth_error_In _ _ Er)) as [_ G2].
  assert (G : exists q, In (q, ra) (c_map x)).
  { clear - E. induction (c_map x) as [|[q w] m IH]; [discriminate|]. cbn [dict_get] in E. destruct (ostr_eqb d q); [exists q; left; congruence|]. destruct (IH E) as (q' & H). exists q'. right. exact H. }
  destruct G as (q & G). apply G2 in G. apply In_nth_error. unfold refs_of in G. destruct x as [c [rs|] m]; [exact G|contradiction].
Qed.

(** ** Freshly created objects *)
Definition made (vs : list C) : place I C := fold_left (add_new k) vs no_objects.
Lemma made_snoc vs v : made (vs ++ [v]) = add_new k (made vs) v.
Proof. unfold made. rewrite fold_left_app. reflexivity. Qed.
Lemma made_sound vs : sound (made vs).
Proof. induction vs as [|v vs IH] using rev_ind; [apply no_objects_sound|]. rewrite made_snoc. apply add_new_sound, IH. Qed.
Lemma made_view vs : lawful -> view_list k (made vs) = vs /\ view_dict k (made vs) = fill (k_key k) (fun c => c) vs [].
Proof.
  intros L. induction vs as [|v vs IH] using rev_ind; [split; reflexivity|]. rewrite made_snoc, fill_app.
  destruct (add_new_view (made vs) v L (made_sound vs)) as [-> ->]. destruct IH as [-> ->]. split; reflexivity.
Qed.
Lemma made_count vs : length (p_cells (made vs)) = length vs /\ p_list (made vs) = seq 0 (length vs).
Proof.
  induction vs as [|v vs IH] using rev_ind; [split; reflexivity|]. rewrite made_snoc. unfold add_new. destruct (create_cell k (made vs) v) as [items x].
  cbn. rewrite !app_length. cbn. destruct IH as [-> ->]. rewrite Nat.add_1_r, seq_S. split; reflexivity.
Qed.
Lemma made_find vs key r : find_ref (made vs) key = Ok r ->
  exists l1 o l2, vs = l1 ++ o :: l2 /\ length l1 = r /\ last_in (k_key k) key o l2.
Proof.
  unfold find_ref, dict_index. induction vs as [|v vs IH] using rev_ind; [discriminate|]. rewrite made_snoc. unfold add_new.
  destruct (create_cell k (made vs) v) as [items x]. cbn [p_dict]. rewrite dict_get_set. destruct (ostr_eqb_spec key (k_key k v)) as [->|N].
  - intros H. exists vs, v, []. split; [reflexivity|]. rewrite (proj1 (made_count vs)) in H. split; [congruence|]. split; [reflexivity|]. intros o' [].
  - intros H. destruct (IH H) as (l1 & o & l2 & -> & L & K1 & K2). exists l1, o, (l2 ++ [v]). rewrite <- app_assoc. split; [reflexivity|]. split; [exact L|]. split; [exact K1|].
    intros o' Ho. apply in_app_iff in Ho. destruct Ho as [Ho|[<-|[]]]; [auto|congruence].
Qed.
Lemma item_map_last rs l d ra : length rs = length l -> dict_get (item_map k rs l) d = Some ra ->
  exists a1 a a2, l = a1 ++ a :: a2 /\ nth_error rs (length a1) = Some ra /\ last_in (k_item_key k) d a a2.
Proof.
  unfold item_map. revert rs. induction l as [|x l IH] using rev_ind; intros rs HL H.
  - destruct rs; [discriminate|discriminate].
  - destruct rs as [|r rs _] using rev_ind; [rewrite app_length in HL; cbn in HL; lia|]. rewrite !app_length in HL. cbn in HL.
    assert (HL' : length rs = length l) by lia.
    assert (EC : combine (rs ++ [r]) (l ++ [x]) = combine rs l ++ [(r, x)]).
    { clear - HL'. revert l HL'. induction rs as [|u rs IHr]; intros [|w l] HL'; try discriminate; [reflexivity|]. cbn. f_equal. apply IHr. cbn in HL'. lia. }
    rewrite EC, fold_left_app in H. cbn [fold_left fst snd] in H. rewrite dict_get_set in H. destruct (ostr_eqb_spec d (k_item_key k x)) as [->|N].
    + exists l, x, []. split; [reflexivity|]. split; [|split; [reflexivity|intros o' []]]. rewrite <- HL', nth_error_app2, Nat.sub_diag by apply le_n. cbn. congruence.
    + destruct (IH rs HL' H) as (a1 & a & a2 & -> & E & K1 & K2). exists a1, a, (a2 ++ [x]). rewrite <- app_assoc. split; [reflexivity|]. split.
      * rewrite nth_error_app1; [exact E|]. apply nth_error_Some. congruence.
      * split; [exact K1|]. intros o' Ho. apply in_app_iff in Ho. destruct Ho as [Ho|[<-|[]]]; [auto|congruence].
Qed.
Lemma made_cell vs r c : nth_error vs r = Some c -> exists x, nth_error (p_cells (made vs)) r = Some x
  /\ match k_items k c with
     | None => c_items x = None /\ c_map x = []
     | Some l => exists rs, length rs = length l /\ c_items x = Some rs /\ c_map x = if k_mapped k c then item_map k rs l else []
     end.
Proof.
  revert r. induction vs as [|v vs IH] using rev_ind; intros r H; [destruct r; discriminate|]. rewrite made_snoc. unfold add_new.
  destruct (create_cell k (made vs) v) as [items x] eqn:E. cbn [p_cells]. destruct (Nat.lt_ge_cases r (length vs)) as [Lt|Ge].
  - rewrite nth_error_app1 in H by exact Lt. destruct (IH r H) as (y & Ey & P). exists y. split; [|exact P]. rewrite nth_error_app1; [exact Ey|]. apply nth_error_Some. congruence.
  - rewrite nth_error_app2 in H by exact Ge. assert (r = length vs). { destruct (r - length vs) as [|n] eqn:Q; [lia|destruct n; discriminate]. }
    subst r. rewrite Nat.sub_diag in H. cbn in H. assert (v = c) by congruence. subst v. exists x. split.
    + rewrite nth_error_app2 by (rewrite (proj1 (made_count vs)); apply le_n). rewrite (proj1 (made_count vs)), Nat.sub_diag. reflexivity.
    + unfold create_cell in E. destruct (k_items k c) as [l|].
      * match type of E with (_, ?y) = _ => assert (x = y) by congruence end. subst x. exists (seq (length (p_items (made vs))) (length l)). split; [apply seq_length|]. split; reflexivity.
      * assert (x = Cell c None []) by congruence. subst x. split; reflexivity.
Qed.
Lemma made_item vs r c d ra : nth_error vs r = Some c -> item_ref (made vs) r d = Ok ra ->
  k_mapped k c = true /\ exists a1 a a2, k_items k c = Some (a1 ++ a :: a2) /\ nth_error (items_of (made vs) r) (length a1) = Some ra /\ last_in (k_item_key k) d a a2.
Proof.
  intros Hc. destruct (made_cell vs r c Hc) as (x & Ex & P). unfold item_ref, items_of, dict_index. rewrite Ex. destruct (k_items k c) as [l|].
  - destruct P as (rs & HL & Ei & ->). destruct (k_mapped k c); [|discriminate]. intros H. split; [reflexivity|].
    destruct (dict_get _ d) as [r'|] eqn:E; [|discriminate]. assert (r' = ra) by congruence. subst r'. destruct (item_map_last rs l d ra HL E) as (a1 & a & a2 & -> & N & K).
    exists a1, a, a2. split; [reflexivity|]. split; [|exact K]. destruct x as [c0 ci m]. cbn in Ei. subst ci. exact N.
  - destruct P as (_ & ->). discriminate.
Qed.
Lemma made_find_all vs c : In c vs -> exists r, find_ref (made vs) (k_key k c) = Ok r.
Proof.
  unfold find_ref, dict_index. induction vs as [|v vs IH] using rev_ind; [contradiction|]. rewrite made_snoc. unfold add_new.
  destruct (create_cell k (made vs) v) as [items x]. cbn [p_dict]. rewrite dict_get_set. destruct (ostr_eqb_spec (k_key k c) (k_key k v)) as [E|N].
  - intros _. eexists. reflexivity.
  - intros H. apply in_app_iff in H. destruct H as [H|[<-|[]]]; [exact (IH H)|congruence].
Qed.
Lemma item_map_all rs l a : length rs = length l -> In a l -> exists ra, dict_get (item_map k rs l) (k_item_key k a) = Some ra.
Proof.
  unfold item_map. revert rs. induction l as [|x l IH] using rev_ind; intros rs HL H; [contradiction|].
  destruct rs as [|r rs _] using rev_ind; [rewrite app_length in HL; cbn in HL; lia|]. rewrite !app_length in HL. cbn in HL.
  assert (HL' : length rs = length l) by lia.
  assert (EC : combine (rs ++ [r]) (l ++ [x]) = combine rs l ++ [(r, x)]).
  { clear - HL'. revert l HL'. induction rs as [|u rs IHr]; intros [|w l] HL'; try discriminate; [reflexivity|]. cbn. f_equal. apply IHr. cbn in HL'. lia. }
  rewrite EC, fold_left_app. cbn [fold_left fst snd]. rewrite dict_get_set. destruct (ostr_eqb_spec (k_item_key k a) (k_item_key k x)) as [E|N]; [eexists; reflexivity|].
  apply in_app_iff in H. destruct H as [H|[<-|[]]]; [exact (IH rs HL' H)|congruence].
Qed.
Lemma made_item_all vs r c l a : nth_error vs r = Some c -> k_mapped k c = true -> k_items k c = Some l -> In a l ->
  exists ra, item_ref (made vs) r (k_item_key k a) = Ok ra.
Proof.
  intros Hc Hm Hl Ha. destruct (made_cell vs r c Hc) as (x & Ex & P). rewrite Hl in P. destruct P as (rs & HL & _ & Em). rewrite Hm in Em.
  unfold item_ref, dict_index. rewrite Ex, Em. destruct (item_map_all rs l a HL Ha) as (ra & ->). exists ra. reflexivity.
Qed.
End Invariant.
