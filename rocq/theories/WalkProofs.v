(** WalkProofs.v -- walking a hierarchy that changes meanwhile *)
From Verif Require Import Base Py Models BundleModel SpecTraversal TraversalProofs Walk SpecWalk.

Section Relations.
Variable kids : nat -> nat -> list nat.

Lemma visits_app t a b out : visits kids t (a ++ b) out ->
  exists o1 o2, out = o1 ++ o2 /\ visits kids t a o1 /\ visits kids (t + length o1) b o2.
Proof.
  revert t out. induction a as [|n a IH]; intros t out H.
  - exists [], out. cbn. rewrite Nat.add_0_r. repeat split; [constructor|exact H].
  - cbn in H. inversion H as [|? ? ? below later H1 H2]; subst.
    destruct (IH _ _ H2) as (o1 & o2 & -> & H3 & H4).
    exists (n :: below ++ o1), o2. split; [cbn; rewrite app_assoc; reflexivity|].
    split; [constructor; assumption|].
    replace (t + length (n :: below ++ o1)) with (S t + length below + length o1) by (cbn; rewrite app_length; lia).
    exact H4.
Qed.
Lemma begins_app t a b out : begins kids t (a ++ b) out ->
  begins kids t a out \/
  exists o1 o2, out = o1 ++ o2 /\ visits kids t a o1 /\ begins kids (t + length o1) b o2.
Proof.
  revert t out. induction a as [|n a IH]; intros t out H.
  - right. exists [], out. cbn. rewrite Nat.add_0_r. repeat split; [constructor|exact H].
  - cbn in H. inversion H as [|? ? ? below H1|? ? ? below later H1 H2]; subst.
    + left. constructor.
    + left. apply begins_below, H1.
    + destruct (IH _ _ H2) as [H3|(o1 & o2 & -> & H3 & H4)].
      * left. apply begins_later; assumption.
      * right. exists (n :: below ++ o1), o2. split; [cbn; rewrite app_assoc; reflexivity|].
        split; [constructor; assumption|].
        replace (t + length (n :: below ++ o1)) with (S t + length below + length o1) by (cbn; rewrite app_length; lia).
        exact H4.
Qed.
Lemma visits_unique t l a : visits kids t l a -> forall b, visits kids t l b -> a = b.
Proof.
  induction 1 as [t|t n l below later H1 IH1 H2 IH2]; intros b H; inversion H as [|? ? ? below' later' H3 H4]; subst; [reflexivity|].
  rewrite (IH1 _ H3) in *. rewrite (IH2 _ H4). reflexivity.
Qed.
(** the children read at the right moment make the walk a pre-order *)
Lemma visits_preorder t l out : visits kids t l out -> forall F,
  (forall i n, nth_error out i = Some n -> F n = kids (S (t + i)) n) -> preorder F l out.
Proof.
  induction 1 as [t|t n l below later H1 IH1 H2 IH2]; intros F HF; [constructor|].
  pose proof (HF 0 n eq_refl) as H0. rewrite Nat.add_0_r in H0. constructor.
  - rewrite H0. apply IH1. intros i m Hm. rewrite (HF (S i) m).
    + f_equal. lia.
    + cbn. rewrite nth_error_app1; [exact Hm|]. apply nth_error_Some. congruence.
  - apply IH2. intros i m Hm. rewrite (HF (S (length below + i)) m).
    + f_equal. lia.
    + cbn. rewrite nth_error_app2 by lia. rewrite Nat.add_comm, Nat.add_sub. exact Hm.
Qed.
End Relations.

Lemma preorder_unique F l a : preorder F l a -> forall b, preorder F l b -> a = b.
Proof.
  induction 1 as [|n l below later H1 IH1 H2 IH2]; intros b H; inversion H as [|? ? below' later' H3 H4]; subst; [reflexivity|].
  rewrite (IH1 _ H3), (IH2 _ H4). reflexivity.
Qed.

(** ** The generators *)
Section Run.
Variable next : world -> walker -> walker * outcome.
Hypothesis next_waiting : forall w n l, next w (Waiting n l) = continue_after w n l.
Hypothesis next_finished : forall w, next w Finished = (Finished, Ok None).
Variable W : nat -> world.
Hypothesis W_history : history W.

Lemma calls_finished t k : calls next W t k Finished = repeat (Ok None) k.
Proof. revert t. induction k as [|k IH]; intros t; [reflexivity|]. cbn. rewrite next_finished, IH. reflexivity. Qed.

(** [k] calls, the first of which has come to the loop with [l] *)
Definition from_loop (t k : nat) (l : list nat) : list outcome :=
  match k with
  | O => []
  | S k' => let (g, o) := advance l in o :: calls next W (S t) k' g
  end.
Lemma from_loop_cons t k n l : n < length (w_heap (W t)) ->
  from_loop t (S k) (n :: l) = Ok (Some n) :: from_loop (S t) k (kids_at W (S t) n ++ l).
Proof.
  intros Hn. cbn. f_equal. destruct k as [|k]; [reflexivity|]. cbn [calls from_loop].
  rewrite next_waiting. unfold continue_after, kids_at, children_in.
  destruct (W_history t) as [_ Hlen].
  destruct (nth_error (w_heap (W (S t))) n) as [o|] eqn:E; [|apply nth_error_None in E; lia].
  destruct (o_children o); reflexivity.
Qed.
Lemma from_loop_nil t k : from_loop t k [] = repeat (Ok None) k.
Proof. destruct k as [|k]; [reflexivity|]. cbn. rewrite calls_finished. reflexivity. Qed.

Lemma walk_loop k : forall t l, Forall (fun c => c < length (w_heap (W t))) l ->
  (exists out, length out = k /\ begins (kids_at W) t l out /\ from_loop t k l = gave out)
  \/ (exists out, length out < k /\ visits (kids_at W) t l out /\ from_loop t k l = ended_after out k).
Proof.
  induction k as [|k IH]; intros t l Hl.
  - left. exists []. repeat split. constructor.
  - destruct l as [|n l].
    + right. exists []. split; [cbn; lia|]. split; [constructor|]. rewrite from_loop_nil. reflexivity.
    + inversion Hl as [|? ? Hn Hl']; subst. rewrite from_loop_cons by exact Hn.
      destruct (W_history t) as [_ Hlen]. destruct (W_history (S t)) as [Hs _].
      assert (HK : Forall (fun c => c < length (w_heap (W (S t)))) (kids_at W (S t) n ++ l)).
      { apply Forall_app. split.
        - apply Forall_forall. intros c Hc. eapply Hs, Hc.
        - eapply Forall_impl; [|exact Hl']. intros c Hc. cbn beta in *. lia. }
      destruct (IH (S t) _ HK) as [(out & L & B & E)|(out & L & V & E)].
      * left. exists (n :: out). split; [cbn; lia|]. split.
        -- apply begins_app in B. destruct B as [B|(o1 & o2 & -> & V & B)]; [apply begins_below, B|apply begins_later; assumption].
        -- rewrite E. reflexivity.
      * right. exists (n :: out). split; [cbn; lia|]. split.
        -- apply visits_app in V. destruct V as (o1 & o2 & -> & V1 & V2). constructor; assumption.
        -- rewrite E. reflexivity.
Qed.
End Run.

(** ** Edits with add_child *)
Lemma add_child_length s p c : length (fst (add_child s p c)) = length s.
Proof.
  unfold add_child. destruct (nth_error s p); [|reflexivity]. destruct (nth_error s c); [|reflexivity].
  destruct (o_level h + 1 =? o_level h0)%nat; cbn; rewrite ?heap_set_length; reflexivity.
Qed.
Lemma add_child_other s p c n : n <> p -> children_in (fst (add_child s p c)) n = children_in s n.
Proof.
  intros H. unfold add_child. destruct (nth_error s p); [|reflexivity]. destruct (nth_error s c); [|reflexivity].
  unfold children_in.
  destruct (o_level h + 1 =? o_level h0)%nat; cbn [fst]; rewrite ?heap_set_twice, heap_set_other by congruence; reflexivity.
Qed.
Lemma edit_other s e n : ~ touches e n -> children_in (edit_one s e) n = children_in s n.
Proof.
  intros H. destruct e as [lv|p c]; cbn.
  - unfold children_in. destruct (Nat.lt_ge_cases n (length s)) as [L|L].
    + rewrite nth_error_app1 by exact L. reflexivity.
    + rewrite nth_error_app2 by exact L. rewrite (proj2 (nth_error_None s n) L).
      destruct (n - length s) as [|[|m]]; reflexivity.
  - apply add_child_other. intros ->. apply H. exists c. reflexivity.
Qed.
Lemma edits_other l n : (forall e, In e l -> ~ touches e n) -> forall s,
  children_in (fold_left edit_one l s) n = children_in s n.
Proof.
  intros H. induction l as [|e l IH]; intros s; [reflexivity|]. cbn.
  rewrite IH by (intros e' He; apply H; right; exact He). apply edit_other, H. left. reflexivity.
Qed.
Lemma add_child_children s p c n x : In x (children_in (fst (add_child s p c)) n) ->
  In x (children_in s n) \/ x < length s.
Proof.
  destruct (Nat.eq_dec n p) as [->|N]; [|rewrite add_child_other by exact N; auto].
  unfold add_child, children_in. destruct (nth_error s p) as [h|] eqn:Ep; [|cbn [fst]; rewrite Ep; auto].
  assert (Hp : p < length s) by (apply nth_error_Some; congruence).
  destruct (nth_error s c) as [h0|] eqn:Ec; [|cbn [fst]; rewrite Ep; auto].
  assert (Hc : c < length s) by (apply nth_error_Some; congruence).
  destruct (o_level h + 1 =? o_level h0)%nat; cbn [fst]; rewrite ?heap_set_twice, heap_set_same by exact Hp; cbn [o_children].
  - intros H. apply in_app_or in H. destruct H as [H|[<-|[]]]; auto.
  - auto.
Qed.
Lemma edit_length s e : length s <= length (edit_one s e).
Proof. destruct e as [lv|p c]; cbn; [rewrite app_length; lia|]. rewrite add_child_length. lia. Qed.
Lemma edits_length l : forall s, length s <= length (fold_left edit_one l s).
Proof. induction l as [|e l IH]; intros s; [reflexivity|]. cbn. pose proof (IH (edit_one s e)). pose proof (edit_length s e). lia. Qed.
Lemma edit_sound s e : sound_heap s -> sound_heap (edit_one s e).
Proof.
  intros H n x Hx. pose proof (edit_length s e) as L. destruct e as [lv|p c].
  - rewrite edit_other in Hx by (intros [c E]; discriminate). specialize (H n x Hx). lia.
  - cbn in *. apply add_child_children in Hx. destruct Hx as [Hx|Hx]; [specialize (H n x Hx)|]; lia.
Qed.
Lemma edits_sound l : forall s, sound_heap s -> sound_heap (fold_left edit_one l s).
Proof. induction l as [|e l IH]; intros s H; [exact H|]. apply IH, edit_sound, H. Qed.
Lemma heap_at_sound s prog t : sound_heap s -> sound_heap (heap_at s prog t).
Proof. intros H. induction t as [|t IH]; [exact H|]. cbn. apply edits_sound, IH. Qed.
Lemma editing_history top s prog : sound_heap s -> history (editing top s prog).
Proof. intros H t. cbn [editing w_heap heap_at]. split; [apply heap_at_sound, H|apply edits_length]. Qed.
(** nothing is done to [n] between two moments *)
Lemma heap_at_kept s prog n a b : a <= b ->
  (forall t e, a <= t -> t < b -> In e (prog t) -> ~ touches e n) ->
  children_in (heap_at s prog b) n = children_in (heap_at s prog a) n.
Proof.
  intros Hab. induction Hab as [|b Hab IH]; intros H; [reflexivity|]. cbn.
  rewrite edits_other by (intros e He; apply (H b e); [exact Hab|lia|exact He]).
  apply IH. intros t e H1 H2. apply H; lia.
Qed.

(** *** Levels: an object keeps its level, and add_child only links to the next one *)
Lemma edit_level s e n o : nth_error s n = Some o ->
  exists o', nth_error (edit_one s e) n = Some o' /\ o_level o' = o_level o.
Proof.
  intros H. assert (L : n < length s) by (apply nth_error_Some; congruence). destruct e as [lv|p c]; cbn.
  - exists o. rewrite nth_error_app1 by exact L. auto.
  - unfold add_child. destruct (nth_error s p) as [h|] eqn:Ep; [|eauto]. destruct (nth_error s c) as [h0|]; [|eauto].
    destruct (Nat.eq_dec p n) as [->|N].
    + assert (h = o) as -> by congruence.
      destruct (o_level o + 1 =? o_level h0)%nat; cbn [fst]; rewrite ?heap_set_twice, heap_set_same by exact L; eauto.
    + destruct (o_level h + 1 =? o_level h0)%nat; cbn [fst]; rewrite ?heap_set_twice, heap_set_other by exact N; eauto.
Qed.
Lemma edits_level l : forall s n o, nth_error s n = Some o ->
  exists o', nth_error (fold_left edit_one l s) n = Some o' /\ o_level o' = o_level o.
Proof.
  induction l as [|e l IH]; intros s n o H; [eauto|]. destruct (edit_level s e n o H) as (o1 & H1 & E1).
  destruct (IH _ _ _ H1) as (o2 & H2 & E2). exists o2. cbn. split; [exact H2|congruence].
Qed.
Lemma heap_at_level s prog n a b o : a <= b -> nth_error (heap_at s prog a) n = Some o ->
  exists o', nth_error (heap_at s prog b) n = Some o' /\ o_level o' = o_level o.
Proof.
  intros Hab H. induction Hab as [|b Hab (o1 & H1 & E1)]; [eauto|]. cbn.
  destruct (edits_level (prog b) _ _ _ H1) as (o2 & H2 & E2). exists o2. split; [exact H2|congruence].
Qed.
Lemma edit_descending s e : sound_heap s -> descending s -> descending (edit_one s e).
Proof.
  intros HS H n o' c k' Hn Hc Hk.
  assert (HL : forall m x', nth_error (edit_one s e) m = Some x' -> m < length s -> exists x, nth_error s m = Some x /\ o_level x' = o_level x).
  { intros m x' Hm Lm. destruct (nth_error s m) as [x|] eqn:Ex; [|apply nth_error_None in Ex; lia].
    destruct (edit_level s e m x Ex) as (x1 & H1 & E1). exists x. split; [reflexivity|]. congruence. }
  destruct e as [lv|p q].
  - rewrite edit_other in Hc by (intros [x E]; discriminate). pose proof (HS n c Hc) as Lc.
    assert (Ln : n < length s). { unfold children_in in Hc. destruct (nth_error s n) eqn:E; [apply nth_error_Some; congruence|destruct Hc]. }
    destruct (HL _ _ Hn Ln) as (o & Ho & Eo). destruct (HL _ _ Hk Lc) as (k & Hk' & Ek). rewrite Eo, Ek. eauto.
  - assert (Ln : n < length s). { cbn in Hn. rewrite <- (add_child_length s p q). apply nth_error_Some. congruence. }
    assert (Lc : c < length s). { cbn in Hk. rewrite <- (add_child_length s p q). apply nth_error_Some. congruence. }
    destruct (HL _ _ Hn Ln) as (o & Ho & Eo). destruct (HL _ _ Hk Lc) as (k & Hk' & Ek). rewrite Eo, Ek.
    destruct (Nat.eq_dec n p) as [->|N]; [|cbn in Hc; rewrite add_child_other in Hc by exact N; eauto].
    cbn in Hc. unfold add_child in Hc. unfold children_in at 1 in Hc.
    rewrite Ho in Hc. destruct (nth_error s q) as [h0|] eqn:Eq; [|cbn [fst] in Hc; rewrite Ho in Hc; apply (H p o c k Ho); [unfold children_in; rewrite Ho; exact Hc|exact Hk']].
    destruct (Nat.eqb_spec (o_level o + 1) (o_level h0)) as [E|E]; cbn [fst] in Hc;
      rewrite ?heap_set_twice, heap_set_same in Hc by exact Ln; cbn [o_children] in Hc.
    + apply in_app_or in Hc. destruct Hc as [Hc|[<-|[]]].
      * apply (H p o c k Ho); [unfold children_in; rewrite Ho; exact Hc|exact Hk'].
      * assert (h0 = k) as -> by congruence. lia.
    + apply (H p o c k Ho); [unfold children_in; rewrite Ho; exact Hc|exact Hk'].
Qed.
Lemma heap_at_descending s prog t : sound_heap s -> descending s -> descending (heap_at s prog t).
Proof.
  intros HS H. induction t as [|t IH]; [exact H|]. cbn. pose proof (heap_at_sound s prog t HS) as HS'.
  revert IH HS'. generalize (heap_at s prog t). generalize (prog t). induction l as [|e l IHl]; intros h0 H1 H2; [exact H1|].
  apply IHl; [apply edit_descending; assumption|apply edit_sound, H2].
Qed.

(** *** With levels up to a bound the walk ends *)
Lemma walk_ends top s prog L : sound_heap s -> descending s ->
  (forall t n o, nth_error (heap_at s prog t) n = Some o -> o_level o <= L) ->
  forall d t l, (forall c, In c l -> exists o, nth_error (heap_at s prog t) c = Some o /\ L < o_level o + d) ->
    exists out, visits (kids_at (editing top s prog)) t l out.
Proof.
  intros HS HD HL d. induction d as [|d IHd]; intros t l; revert t; induction l as [|n l IHl]; intros t H;
    try (exists []; constructor).
  - destruct (H n (or_introl eq_refl)) as (o & Ho & Lo). specialize (HL t n o Ho). lia.
  - destruct (H n (or_introl eq_refl)) as (o & Ho & Lo).
    destruct (IHd (S t) (kids_at (editing top s prog) (S t) n)) as (below & V1).
    + intros c Hc. unfold kids_at in Hc. cbn [editing w_heap] in Hc.
      pose proof (heap_at_sound s prog (S t) HS n c Hc) as Lc.
      destruct (nth_error (heap_at s prog (S t)) c) as [k|] eqn:Ek; [|apply nth_error_None in Ek; lia].
      destruct (heap_at_level s prog n t (S t) o (Nat.le_succ_diag_r t) Ho) as (o' & Ho' & Eo).
      pose proof (heap_at_descending s prog (S t) HS HD n o' c k Ho' Hc Ek). exists k. split; [reflexivity|lia].
    + destruct (IHl (S t + length below)) as (later & V2).
      * intros c Hc. destruct (H c (or_intror Hc)) as (k & Hk & Lk).
        destruct (heap_at_level s prog c t (S t + length below) k ltac:(lia) Hk) as (k' & Hk' & Ek).
        exists k'. split; [exact Hk'|lia].
      * exists (n :: below ++ later). constructor; assumption.
Qed.

(** ** A hierarchy that stays as it is: the model of BundleModel.v *)
Lemma stands_for_kids s n h : stands_for s n h -> exists o, nth_error s n = Some o
  /\ Forall2 (stands_for s) (match o_children o with Some l => l | None => [] end) (match h_children h with Some l => l | None => [] end)
  /\ (o_children o = None <-> h_children h = None).
Proof.
  intros H. inversion H as [n' lv h' H1 H2 H3|n' lv h' l hs H1 H2 H3 H4]; subst.
  - exists (HObj (h_level h) None). rewrite H3. cbn. repeat split; auto.
  - exists (HObj (h_level h) (Some l)). rewrite H3. cbn. repeat split; try discriminate; auto.
Qed.
Lemma static_loop next (NW : forall w n l, next w (Waiting n l) = continue_after w n l)
  (NF : forall w, next w Finished = (Finished, Ok None)) w k : forall t l hs,
  Forall2 (stands_for (w_heap w)) l hs ->
  exists nodes, Forall2 (stands_for (w_heap w)) nodes (consume k (Gen None hs))
    /\ from_loop next (fun _ => w) t k l = ended_after nodes k.
Proof.
  induction k as [|k IH]; intros t l hs H.
  - exists []. split; [constructor|reflexivity].
  - destruct H as [|n h l hs Hn H].
    + exists []. split; [constructor|]. rewrite from_loop_nil by exact NF. reflexivity.
    + destruct (stands_for_kids _ _ _ Hn) as (o & Ho & Hk & Hnone).
      assert (E : from_loop next (fun _ => w) t (S k) (n :: l)
                  = Ok (Some n) :: from_loop next (fun _ => w) (S t) k (match o_children o with Some l => l | None => [] end ++ l)).
      { cbn. f_equal. destruct k; [reflexivity|]. cbn [calls from_loop]. rewrite NW. unfold continue_after. rewrite Ho.
        destruct (o_children o); reflexivity. }
      destruct (IH (S t) _ _ (Forall2_app Hk H)) as (nodes & H1 & H2).
      exists (n :: nodes). split.
      * cbn [consume gen_next resume g_yielded g_deque]. constructor; [exact Hn|].
        replace (consume k (Gen (Some h) hs)) with (consume k (Gen None ((match h_children h with Some l => l | None => [] end) ++ hs))); [exact H1|].
        destruct k; [reflexivity|]. cbn [consume]. unfold gen_next, resume. cbn [g_yielded g_deque].
        destruct (h_children h); reflexivity.
      * rewrite E, H2. reflexivity.
Qed.
