(** Prop_Walk.v -- C77: walking a hierarchy while changing it *)
From Verif Require Import Base Py Models BundleModel SpecTraversal TraversalProofs Walk SpecWalk WalkProofs.

(** Whatever the caller does to the objects between the calls of next(): the nodes
    come in depth-first order, where specification.children is read by the first
    call and the children of a node by the call after the one that gave it; and a
    walk that has ended stays ended.  Both iterators of the library do this. *)
Theorem C77_walk :
  forall (W : nat -> world) (roots : list nat), history W -> starts_with W roots -> w_listed (W 0) = true ->
  forall k, exists results,
    calls walk_next W 0 k Fresh = results /\ calls iterator_next W 0 k Fresh = results
    /\ ((exists out, length out = k /\ begins (kids_at W) 0 roots out /\ results = gave out)
        \/ (exists out, length out < k /\ visits (kids_at W) 0 roots out /\ results = ended_after out k)).
Proof.
  intros W roots HH [H0 HR] HL k.
  assert (EW : calls walk_next W 0 k Fresh = from_loop walk_next W 0 k roots).
  { destruct k; [reflexivity|]. cbn [calls walk_next from_loop]. rewrite HL, H0. reflexivity. }
  assert (EI : calls iterator_next W 0 k Fresh = from_loop iterator_next W 0 k roots).
  { destruct k; [reflexivity|]. cbn [calls iterator_next from_loop]. rewrite H0. reflexivity. }
  assert (EE : forall k t g, g <> Fresh -> calls iterator_next W t k g = calls walk_next W t k g).
  { clear. induction k as [|k IH]; intros t g Hg; [reflexivity|]. cbn [calls].
    assert (E : iterator_next (W t) g = walk_next (W t) g) by (destruct g; [contradiction|reflexivity..]).
    rewrite E. destruct (walk_next (W t) g) as [g' o] eqn:Ew. f_equal. apply IH. intros ->.
    destruct g as [|n l|]; [contradiction| |cbn in Ew; congruence]. cbn in Ew. unfold continue_after, advance in Ew.
    destruct (nth_error _ n) as [h|]; [|congruence]. destruct (o_children h) as [[|]|]; destruct l; cbn in Ew; congruence. }
  assert (EF : from_loop iterator_next W 0 k roots = from_loop walk_next W 0 k roots).
  { destruct k; [reflexivity|]. cbn [from_loop]. destruct roots; cbn [advance]; f_equal; apply EE; discriminate. }
  exists (from_loop walk_next W 0 k roots). split; [exact EW|]. split; [congruence|].
  apply walk_loop; [reflexivity|reflexivity|exact HH|]. apply Forall_forall. exact HR.
Qed.
Print Assumptions C77_walk.

(** The first call decides about the rest: without the specification in the bundle
    or without children there is no walk, whatever is done afterwards. *)
Theorem C77_walk_refused :
  forall (W : nat -> world) (k : nat),
    (w_listed (W 0) = false -> calls walk_next W 0 (S k) Fresh = Raise EAssertionError :: repeat (Ok None) k)
    /\ (w_listed (W 0) = true -> w_top (W 0) = None -> calls walk_next W 0 (S k) Fresh = repeat (Ok None) (S k))
    /\ (w_top (W 0) = None -> calls iterator_next W 0 (S k) Fresh = Raise ETypeError :: repeat (Ok None) k).
Proof.
  intros W k. repeat split; intros H; [|intros H1|]; cbn [calls walk_next iterator_next repeat]; rewrite H, ?H1;
    f_equal; apply calls_finished; reflexivity.
Qed.
Print Assumptions C77_walk_refused.

Lemma ended_visits W roots k out : history W -> starts_with W roots -> w_listed (W 0) = true ->
  calls walk_next W 0 k Fresh = ended_after out k -> length out < k -> visits (kids_at W) 0 roots out.
Proof.
  intros HH HR HL E Lk. destruct (C77_walk W roots HH HR HL k) as (r & E1 & _ & [(o & L & B & Er)|(o & L & V & Er)]).
  - exfalso. rewrite E1, Er in E.
    assert (Hin : In (Ok None) (gave o)).
    { rewrite E. unfold ended_after. apply in_or_app. right. destruct (k - length out) as [|m] eqn:Em; [lia|]. left. reflexivity. }
    apply in_map_iff in Hin. destruct Hin as (x & Hx & _). discriminate.
  - replace out with o; [exact V|]. rewrite E1, Er in E. unfold ended_after in E. clear - E L Lk.
    assert (G : forall a b i j, gave a ++ repeat (Ok None) i = gave b ++ repeat (Ok None) j -> a = b).
    { induction a as [|x a IH]; intros [|y b] i j Hab; cbn in Hab; [reflexivity|..].
      - destruct i; discriminate.
      - destruct j; discriminate.
      - injection Hab as -> Hab. f_equal. eapply IH, Hab. }
    eapply G, E.
Qed.

(** A walk that has come to its end is the pre-order of the hierarchy in which
    every node has the children it had when the walk left it, that is, at the call
    after the one that gave it. *)
Theorem C77_children_when_left :
  forall W roots k out (kids : nat -> list nat), history W -> starts_with W roots -> w_listed (W 0) = true ->
    calls walk_next W 0 k Fresh = ended_after out k -> length out < k ->
    (forall i n, nth_error out i = Some n -> kids n = children_in (w_heap (W (S i))) n) ->
    preorder kids roots out.
Proof.
  intros W roots k out kids HH HR HL E Lk HK. pose proof (ended_visits W roots k out HH HR HL E Lk) as V.
  eapply visits_preorder; [exact V|]. intros i n Hi. cbn [Nat.add]. unfold kids_at. auto.
Qed.
Print Assumptions C77_children_when_left.

Lemma editing_starts s top prog : (forall c, In c top -> c < length s) -> starts_with (editing (Some top) s prog) top.
Proof. intros H. split; [reflexivity|exact H]. Qed.

(** Children added to the node just given, or to nodes that the walk has not come
    to, are walked: the walk is the pre-order of the hierarchy as it is at the end. *)
Theorem C77_children_added_ahead :
  forall s top prog k out, sound_heap s -> (forall c, In c top -> c < length s) ->
    calls walk_next (editing (Some top) s prog) 0 k Fresh = ended_after out k -> length out < k ->
    (forall t e n, t < length out -> In e (prog t) -> touches e n -> ~ In n (firstn t out)) ->
    preorder (children_in (heap_at s prog (length out))) top out.
Proof.
  intros s top prog k out HS HT E Lk HP.
  eapply C77_children_when_left; [apply editing_history, HS|apply editing_starts, HT|reflexivity|exact E|exact Lk|].
  intros i n Hi. assert (Li : i < length out) by (apply nth_error_Some; congruence).
  cbn [editing w_heap]. apply heap_at_kept; [exact Li|]. intros t e H1 H2 He Ht. apply (HP t e n H2 He Ht).
  apply nth_error_split in Hi. destruct Hi as (l1 & l2 & -> & <-).
  rewrite firstn_app. apply in_or_app. right. destruct (t - length l1) as [|m] eqn:Em; [lia|]. left. reflexivity.
Qed.
Print Assumptions C77_children_added_ahead.

(** Children added to nodes that the walk has passed are not walked: the walk is
    the pre-order of the hierarchy as it was at the start. *)
Theorem C77_children_added_behind :
  forall s top prog k out, sound_heap s -> (forall c, In c top -> c < length s) ->
    calls walk_next (editing (Some top) s prog) 0 k Fresh = ended_after out k -> length out < k ->
    NoDup out ->
    (forall t e n, t < length out -> In e (prog t) -> touches e n -> In n (firstn t out)) ->
    preorder (children_in s) top out.
Proof.
  intros s top prog k out HS HT E Lk ND HP.
  eapply C77_children_when_left; [apply editing_history, HS|apply editing_starts, HT|reflexivity|exact E|exact Lk|].
  intros i n Hi. assert (Li : i < length out) by (apply nth_error_Some; congruence).
  cbn [editing w_heap]. symmetry. apply (heap_at_kept s prog n 0 (S i)); [lia|]. intros t e _ H2 He Ht.
  pose proof (HP t e n ltac:(lia) He Ht) as Hin. apply In_nth_error in Hin. destruct Hin as (j & Hj).
  assert (Lj : j < t). { rewrite <- (firstn_length_le out (n := t)) by lia. apply nth_error_Some. congruence. }
  assert (Hj' : nth_error out j = Some n).
  { rewrite <- (firstn_skipn t out), nth_error_app1; [exact Hj|]. rewrite firstn_length_le by lia. exact Lj. }
  assert (j = i); [|lia]. eapply NoDup_nth_error; [exact ND|lia|congruence].
Qed.
Print Assumptions C77_children_added_behind.

(** As long as every object the caller makes is at most at some level, the walk
    ends, however many objects are made. *)
Theorem C77_walk_ends :
  forall s top prog bound, sound_heap s -> descending s -> (forall c, In c top -> c < length s) ->
    (forall t n o, nth_error (heap_at s prog t) n = Some o -> o_level o <= bound) ->
    exists out, forall k, length out < k ->
      calls walk_next (editing (Some top) s prog) 0 k Fresh = ended_after out k.
Proof.
  intros s top prog L HS HD HT HL.
  destruct (walk_ends (Some top) s prog L HS HD HL (S L) 0 top) as (out & V).
  { intros c Hc. specialize (HT c Hc). cbn [heap_at]. destruct (nth_error s c) as [o|] eqn:E; [|apply nth_error_None in E; lia].
    exists o. split; [reflexivity|lia]. }
  exists out. intros k Lk.
  destruct (C77_walk (editing (Some top) s prog) top (editing_history _ _ _ HS) (editing_starts _ _ _ HT) eq_refl k)
    as (r & E1 & _ & [(o & Lo & B & Er)|(o & Lo & V' & Er)]).
  - exfalso. assert (G : forall kids t l o, begins kids t l o -> forall out, visits kids t l out -> length o <= length out).
    { clear. induction 1 as [t l|t n l below H IH|t n l below later H H2 IH]; intros out V.
      - cbn. lia.
      - inversion V as [|? ? ? below' later' V1 V2]; subst. cbn. rewrite app_length. specialize (IH _ V1). lia.
      - inversion V as [|? ? ? below' later' V1 V2]; subst. pose proof (visits_unique _ _ _ _ H _ V1) as ->.
        cbn. rewrite !app_length. specialize (IH _ V2). lia. }
    specialize (G _ _ _ _ B _ V). lia.
  - rewrite (visits_unique _ _ _ _ V _ V'). congruence.
Qed.
Print Assumptions C77_walk_ends.

(** A hierarchy that nobody touches: the walk is that of C07. *)
Theorem C77_untouched :
  forall w b i specs sp forest top, bundle_specifications b = Some specs -> nth_error specs i = Some sp ->
    sp_children sp = Some forest -> w_listed w = true -> w_top w = Some top ->
    Forall2 (stands_for (w_heap w)) top forest ->
    exists g, iterate_specification_hierarchy b i = Ok g
    /\ forall k, exists nodes, Forall2 (stands_for (w_heap w)) nodes (consume k g)
         /\ calls walk_next (fun _ => w) 0 k Fresh = ended_after nodes k.
Proof.
  intros w b i specs sp forest top Hb Hi Hc HL HT HF. unfold iterate_specification_hierarchy. rewrite Hb, Hi, Hc.
  eexists. split; [reflexivity|]. intros k.
  destruct (static_loop walk_next ltac:(reflexivity) ltac:(reflexivity) w k 0 top forest HF) as (nodes & H1 & H2).
  exists nodes. split; [exact H1|]. rewrite <- H2. destruct k; [reflexivity|].
  cbn [calls walk_next from_loop]. rewrite HL, HT. reflexivity.
Qed.
Print Assumptions C77_untouched.

(** ** Examples: a hierarchy 0(1, 2), 3; while walking, the caller gives the node it
    has (1) a new child (4), then node 3 (ahead) and node 0 (passed) new children. *)
Definition sample : heap := [HObj 1 (Some [1; 2]); HObj 2 None; HObj 2 None; HObj 1 None].
Definition sample_ahead (t : nat) : list edit :=
  match t with
  | 1 => [Create 3; Adopt 1 4]
  | 2 => [Create 2; Adopt 3 5; Create 2; Adopt 3 6]
  | _ => []
  end.
Definition sample_behind (t : nat) : list edit :=
  match t with 2 => [Create 2; Adopt 0 4; Adopt 1 4] | _ => [] end.
Example C77_example :
  sound_heap sample /\ descending sample
  /\ calls walk_next (editing (Some [0; 3]) sample sample_ahead) 0 9 Fresh = ended_after [0; 1; 4; 2; 3; 5; 6] 9
  /\ (forall t e n, t < 7 -> In e (sample_ahead t) -> touches e n -> ~ In n (firstn t [0; 1; 4; 2; 3; 5; 6]))
  /\ calls walk_next (editing (Some [0; 3]) sample sample_behind) 0 9 Fresh = ended_after [0; 1; 2; 3] 9
  /\ (forall t e n, t < 4 -> In e (sample_behind t) -> touches e n -> In n (firstn t [0; 1; 2; 3])).
Proof.
  split. { intros [|[|[|[|n]]]] c H; cbn in H; try (destruct n; contradiction); cbn; intuition lia. }
  split. { intros [|[|[|[|n]]]] o c k Hn H Hk; cbn in H, Hn; try (destruct n; contradiction); try contradiction.
           injection Hn as <-. destruct H as [<-|[<-|[]]]; cbn in Hk; injection Hk as <-; cbn; lia. }
  split; [vm_compute; reflexivity|]. split.
  { intros [|[|[|t]]] e n Ht He [c ->]; cbn in He; intuition try discriminate; cbn in *; intuition congruence. }
  split; [vm_compute; reflexivity|].
  intros [|[|[|t]]] e n Ht He [c ->]; cbn in He; intuition try discriminate; cbn; intuition congruence.
Qed.

(** A hierarchy nobody touches, next to its tree; and one from which the caller
    takes away, after the first call, the children of the node it has. *)
Example C77_untouched_example :
  let h id level kids := Hier id (Some id) level kids None true None None None false None in
  Forall2 (stands_for sample) [0; 3] [h "a" 1 (Some [h "b" 2 None; h "c" 2 None]); h "d" 1 None]
  /\ (let W t := World true (Some [0; 3]) (match t with O => sample | _ => heap_set sample 0 (HObj 1 (Some [])) end) in
      history W /\ starts_with W [0; 3] /\ calls walk_next W 0 4 Fresh = ended_after [0; 3] 4).
Proof.
  cbv zeta. split.
  - repeat first [apply Forall2_nil | apply Forall2_cons
                 | eapply stands_leaf; reflexivity | eapply stands_node; [reflexivity|reflexivity|reflexivity|]].
  - split; [|split].
    + intros t. split.
      * destruct t; intros [|[|[|[|n]]]] c H; cbn in H; try (destruct n; contradiction); try contradiction; cbn; intuition lia.
      * destruct t; cbn; lia.
    + split; [reflexivity|]. intros c H. cbn in *. intuition lia.
    + vm_compute. reflexivity.
Qed.
(** The pre-order of the theorems above is determined by the children. *)
Theorem C77_preorder_unique : forall kids l a b, preorder kids l a -> preorder kids l b -> a = b.
Proof. intros kids l a b Ha Hb. exact (preorder_unique kids l a Ha b Hb). Qed.
Print Assumptions C77_preorder_unique.

(** "The walk always ends" is false: a caller that gives every node it gets a new
    child walks for ever. *)
Definition digging (t : nat) : list edit := [Create (t + 2); Adopt t (t + 1)].
Theorem C77_walk_always_ends_refuted :
  exists s top prog, sound_heap s /\ descending s
    /\ (forall t e n, In e (prog t) -> touches e n -> n = t)
    /\ forall k, calls walk_next (editing (Some top) s prog) 0 k Fresh = gave (seq 0 k).
Proof.
  exists [HObj 1 None], [0], digging.
  assert (HS : sound_heap [HObj 1 None]) by (intros [|[|n]] c H; cbn in H; contradiction).
  assert (HD : descending [HObj 1 None]) by (intros [|[|n]] o c k Hn H; cbn in H; contradiction).
  split; [exact HS|]. split; [exact HD|].
  split. { intros t e n He [c ->]. cbn in He. destruct He as [He|[He|[]]]; congruence. }
  set (chain := fun t => map (fun i => HObj (S i) (Some [S i])) (seq 0 t) ++ [HObj (S t) None]).
  assert (HC : forall t, heap_at [HObj 1 None] digging t = chain t).
  { induction t as [|t IH]; [reflexivity|]. cbn [heap_at digging fold_left edit_one]. rewrite IH.
    assert (Lc : length (map (fun i => HObj (S i) (Some [S i])) (seq 0 t)) = t) by (rewrite map_length, seq_length; reflexivity).
    unfold chain. rewrite seq_S, map_app. cbn [Nat.add map].
    set (A := map _ _) in *. clearbody A. rewrite <- !app_assoc. cbn [app].
    unfold add_child.
    assert (E1 : nth_error (A ++ [HObj (S t) None; HObj (t + 2) None]) t = Some (HObj (S t) None)).
    { rewrite nth_error_app2 by lia. rewrite Lc, Nat.sub_diag. reflexivity. }
    assert (E2 : nth_error (A ++ [HObj (S t) None; HObj (t + 2) None]) (t + 1) = Some (HObj (t + 2) None)).
    { rewrite nth_error_app2 by lia. rewrite Lc. replace (t + 1 - t) with 1 by lia. reflexivity. }
    rewrite E1, E2. cbn [o_level o_children]. replace (S t + 1) with (t + 2) by lia. rewrite Nat.eqb_refl. cbn [fst app].
    rewrite heap_set_twice. replace (t + 2) with (S (S t)) by lia. replace (t + 1) with (S t) by lia.
    assert (Q : forall (A : heap) x B o, heap_set (A ++ x :: B) (length A) o = A ++ o :: B).
    { clear. induction A as [|y A IH]; intros x B o; [reflexivity|]. cbn. f_equal. apply IH. }
    pose proof (Q A (HObj (S t) None) [HObj (S (S t)) None] (HObj (S t) (Some [S t]))) as Q1.
    rewrite Lc in Q1. exact Q1. }
  assert (G : forall k t, from_loop walk_next (editing (Some [0]) [HObj 1 None] digging) t k [t] = gave (seq t k)).
  { induction k as [|k IH]; intros t; [reflexivity|].
    rewrite from_loop_cons; [|reflexivity|apply editing_history, HS|].
    - change (gave (seq t (S k))) with ((Ok (Some t) : outcome) :: gave (seq (S t) k)). f_equal. rewrite <- (IH (S t)). f_equal.
      unfold kids_at, children_in. cbn [editing w_heap]. rewrite HC. unfold chain.
      rewrite seq_S, map_app. cbn [Nat.add map]. rewrite <- app_assoc. cbn [app].
      rewrite nth_error_app2 by (rewrite map_length, seq_length; lia).
      rewrite map_length, seq_length, Nat.sub_diag. reflexivity.
    - cbn [editing w_heap]. rewrite HC. unfold chain. rewrite app_length, map_length, seq_length. cbn. lia. }
  intros k. rewrite <- G. destruct k; reflexivity.
Qed.
Print Assumptions C77_walk_always_ends_refuted.

(** "Every child of a node of the hierarchy is walked" is false for children added
    to a node that was passed. *)
Theorem C77_late_children_refuted :
  exists s top prog out, sound_heap s /\ descending s
    /\ (forall k, length out < k -> calls walk_next (editing (Some top) s prog) 0 k Fresh = ended_after out k)
    /\ exists n c, In n out /\ In c (children_in (heap_at s prog (length out)) n) /\ ~ In c out.
Proof.
  exists sample, [0; 3], sample_behind, [0; 1; 2; 3].
  destruct C77_example as (HS & HD & _). split; [exact HS|]. split; [exact HD|]. split.
  - intros k Hk. destruct k as [|[|[|[|[|k]]]]]; cbn in Hk; try lia.
    change (S (S (S (S (S k))))) with (5 + k). clear Hk.
    unfold ended_after. replace (5 + k - length [0; 1; 2; 3]) with (S k) by (cbn; lia).
    assert (E : calls walk_next (editing (Some [0; 3]) sample sample_behind) 0 (5 + k) Fresh
      = Ok (Some 0) :: Ok (Some 1) :: Ok (Some 2) :: Ok (Some 3) :: Ok None :: calls walk_next (editing (Some [0; 3]) sample sample_behind) 5 k Finished) by reflexivity.
    rewrite E, calls_finished by reflexivity. reflexivity.
  - exists 0, 4. vm_compute. intuition congruence.
Qed.
Print Assumptions C77_late_children_refuted.
