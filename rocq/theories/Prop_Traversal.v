(** Prop_Traversal.v -- C07, C09, C10 *)
From Verif Require Import Base Xml Lxml Py Models BundleModel SpecTraversal TraversalProofs.

(** A hierarchy node with only the fields that matter here. *)
Definition mk (id : str) (level : nat) (kids : option (list hier)) : hier :=
  Hier id (Some id) level kids None true None None None false None.
Definition sample_forest : list hier :=
  [mk "a" 1 (Some [mk "b" 2 None; mk "c" 2 (Some [mk "d" 3 (Some [])])]);
   mk "e" 1 (Some [mk "f" 2 None])].

(** ** C07: iteration is the pre-order walk *)

(** All nodes of the specification's forest, every position exactly once, in
    document order; and whatever number of items the caller takes, it gets the
    first ones of that list. *)
Theorem C07_iteration_is_document_order :
  forall (b : bundle) (i : nat) (specs : list specification) (s : specification),
    bundle_specifications b = Some specs ->
    nth_error specs i = Some s ->
    exists g nodes,
      iterate_specification_hierarchy b i = Ok g
      /\ document_order (match sp_children s with Some c => c | None => [] end) nodes
      /\ (forall k, consume k g = firstn k nodes).
Proof.
  intros b i specs s Hs Hi.
  exists (Gen None (match sp_children s with Some c => c | None => [] end)).
  exists (fpreorder (match sp_children s with Some c => c | None => [] end)).
  split; [unfold iterate_specification_hierarchy; rewrite Hs, Hi; reflexivity|].
  split; [apply fpreorder_document_order|]. intros k. apply consume_preorder.
Qed.
(** The list in the previous theorem is determined by the forest. *)
Theorem C07_document_order_unique :
  forall forest a b, document_order forest a -> document_order forest b -> a = b.
Proof. exact document_order_unique. Qed.
(** A specification that is not in the bundle is rejected at the first item. *)
Theorem C07_foreign_specification_rejected :
  forall b i specs, bundle_specifications b = Some specs -> length specs <= i ->
    iterate_specification_hierarchy b i = Raise EAssertionError.
Proof.
  intros b i specs Hs Hi. unfold iterate_specification_hierarchy. rewrite Hs.
  apply nth_error_None in Hi. rewrite Hi. reflexivity.
Qed.
(** The second iterator of the library walks the same way, but fails on a
    specification without CHILDREN. *)
Theorem C07_specification_iterator :
  forall s c, sp_children s = Some c ->
    exists g nodes, iterate_specification s = Ok g /\ document_order c nodes
      /\ (forall k, consume k g = firstn k nodes).
Proof.
  intros s c Hc. exists (Gen None c), (fpreorder c).
  split; [unfold iterate_specification; rewrite Hc; reflexivity|].
  split; [apply fpreorder_document_order|]. intros k. apply consume_preorder.
Qed.
Theorem C07_specification_iterator_refuted :
  exists s, sp_children s = None /\ iterate_specification s = Raise ETypeError.
Proof. exists (Specification "s" None None None None None None None). split; reflexivity. Qed.

Definition sample_bundle : bundle :=
  Bundle namespace_info_default None
    (Some (Some (Content None None None None
       (Some [Specification "s0" None None None None None None None;
              Specification "s" None None None None None (Some sample_forest) None]) None)))
    false lookup_empty [].
Example C07_example :
  exists g, iterate_specification_hierarchy sample_bundle 1 = Ok g
  /\ map h_identifier (consume 4 g) = ["a"; "b"; "c"; "d"]
  /\ map h_identifier (consume 100 g) = ["a"; "b"; "c"; "d"; "e"; "f"].
Proof. eexists. split; [reflexivity|]. split; vm_compute; reflexivity. Qed.

(** ** C09: add_child *)

(** After any program of add_child calls, failed calls included: levels are as
    before, every call succeeded exactly if the levels fit, and every node's
    children are those it had followed by the accepted ones in call order. *)
Theorem C09_add_child_program :
  forall (s : heap) (ops : list (nat * nat)),
    Forall (fun op => fst op < length s /\ snd op < length s) ops ->
    let '(s', results) := add_children s ops in
    map o_level s' = map o_level s
    /\ results = map (fun op => if fits s op then Ok tt else Raise EAssertionError) ops
    /\ forall i o, nth_error s i = Some o ->
       exists o', nth_error s' i = Some o' /\
       o_children o' =
         (if called i ops
          then Some ((match o_children o with Some l => l | None => [] end) ++ given s i ops)
          else o_children o).
Proof.
  intros s ops H. pose proof (add_children_spec s ops H) as HS.
  destruct (add_children s ops) as [s' rs]. destruct HS as (H1 & H2 & H3).
  split; [exact H1|]. split; [exact H2|]. intros i o Hi. eexists. split; [apply (H3 i o Hi)|reflexivity].
Qed.

(** Hence the level discipline: starting from childless nodes, each child's
    level is its parent's level plus one. *)
Theorem C09_levels_preserved :
  forall (s : heap) (ops : list (nat * nat)),
    Forall (fun op => fst op < length s /\ snd op < length s) ops ->
    (forall i o, nth_error s i = Some o -> o_children o = None) ->
    forall i p l c k, nth_error (fst (add_children s ops)) i = Some p ->
      o_children p = Some l -> In c l ->
      nth_error (fst (add_children s ops)) c = Some k ->
      o_level k = S (o_level p).
Proof.
  intros s ops H Hnone i p l c k Hi Hl Hin Hk.
  pose proof (add_children_spec s ops H) as HS.
  destruct (add_children s ops) as [s' rs] eqn:E. destruct HS as (H1 & _ & H3). cbn [fst] in *.
  assert (Hlev : forall j o, nth_error s' j = Some o ->
            exists o0, nth_error s j = Some o0 /\ o_level o0 = o_level o).
  { intros j o Hj. assert (Hm : nth_error (map o_level s) j = Some (o_level o)).
    { change (nth_error (levels s) j = Some (o_level o)). rewrite <- H1.
      unfold levels. rewrite nth_error_map, Hj. reflexivity. }
    rewrite nth_error_map in Hm. destruct (nth_error s j) as [o0|]; [|discriminate].
    exists o0. split; [reflexivity|]. injection Hm as <-. reflexivity. }
  destruct (Hlev i p Hi) as (p0 & Hp0 & Ep). destruct (Hlev c k Hk) as (k0 & Hk0 & Ek).
  pose proof (H3 i p0 Hp0) as Hi'. rewrite Hi in Hi'. injection Hi' as ->.
  cbn [o_children o_level] in *. rewrite (Hnone i p0 Hp0) in Hl.
  destruct (called i ops); [|discriminate]. injection Hl as <-.
  cbn [app] in Hin. unfold given in Hin. apply in_map_iff in Hin.
  destruct Hin as ([a b] & Eb & Hf). apply filter_In in Hf. destruct Hf as [_ Hf].
  cbn [fst snd] in *. subst b. apply andb_true_iff in Hf. destruct Hf as [Ha Hf].
  apply Nat.eqb_eq in Ha. subst a. unfold fits in Hf. cbn [fst snd] in Hf.
  rewrite Hp0, Hk0 in Hf. apply Nat.eqb_eq in Hf. congruence.
Qed.
(** "A rejected call changes nothing" is false: children becomes an empty list. *)
Theorem C09_rejected_call_changes_node_refuted :
  exists s p c, snd (add_child s p c) = Raise EAssertionError
    /\ nth_error s p = Some (HObj 1 None)
    /\ nth_error (fst (add_child s p c)) p = Some (HObj 1 (Some [])).
Proof. exists [HObj 1 None; HObj 3 None], 0, 1. repeat split. Qed.

Example C09_example :
  let s := [HObj 1 None; HObj 2 None; HObj 2 None; HObj 3 None] in
  let ops := [(0, 2); (0, 3); (0, 1); (1, 3); (3, 0)] in
  Forall (fun op => fst op < length s /\ snd op < length s) ops
  /\ add_children s ops =
     ([HObj 1 (Some [2; 1]); HObj 2 (Some [3]); HObj 2 None; HObj 3 (Some [])],
      [Ok tt; Raise EAssertionError; Ok tt; Ok tt; Raise EAssertionError]).
Proof.
  cbv zeta. split; [|vm_compute; reflexivity].
  repeat (constructor; [cbn; lia|]). constructor.
Qed.

(** ** C10: conversion *)

(** For every stateful, possibly raising node_lambda: if it makes sections for
    an ancestor-closed set of nodes, with the level of the node, then the run
    makes exactly the calls of the recursive specification [convert_forest],
    which hands every node its enclosing section. *)
Theorem C10_conversion_passes_enclosing_section :
  forall (Sec St : Type) (get_level : Sec -> Z)
    (node_lambda : St -> hier -> Sec -> St * result (Sec * bool))
    (forest : list hier) (root : Sec) (st : St) (is_section : hier -> bool) (k : nat),
  get_level root = 0%Z ->
  Forall (leveled 1) forest ->
  (forall h t st sec st' s made, In t forest -> within h t ->
     node_lambda st h sec = (st', Ok (s, made)) ->
     made = is_section h /\ (made = true -> get_level s = Z.of_nat (h_level h))) ->
  (forall t h d, In t forest -> within h t -> within d h ->
     is_section h = false -> is_section d = false) ->
  fsize forest <= k ->
  let '((st1, calls), r) := conv_loop get_level node_lambda k (Gen None forest) [root] st in
  let '((st2, calls2), r2) := convert_forest node_lambda forest root st in
  st1 = st2 /\ calls = calls2
  /\ (match r with Ok _ => Ok tt | Raise e => Raise e end) = r2.
Proof. exact @conversion_spec. Qed.

(** With no assumption at all, node_lambda is called on the nodes in document
    order, once each, up to the point where an exception ends the walk. *)
Theorem C10_conversion_calls_in_document_order :
  forall (Sec St : Type) (get_level : Sec -> Z)
    (node_lambda : St -> hier -> Sec -> St * result (Sec * bool))
    (forest : list hier) (root : Sec) (st : St) (k : nat),
  fsize forest <= k ->
  exists nodes, document_order forest nodes /\
  let '((_, calls), r) := conv_loop get_level node_lambda k (Gen None forest) [root] st in
  exists rest, nodes = map fst calls ++ rest /\ (forall s, r = Ok s -> rest = []).
Proof.
  intros Sec St gl nl forest root st k Hk. exists (fpreorder forest).
  split; [apply fpreorder_document_order|].
  rewrite conv_loop_list, consume_preorder. cbn [resume g_yielded g_deque].
  rewrite firstn_all2 by (rewrite length_fpreorder; exact Hk). apply conv_list_calls.
Qed.

(** Sections are (name, level); the callback makes a section for every node
    whose name is listed. *)
Definition demo_lambda (secs : list str) (st : nat) (h : hier) (parent : str * Z)
  : nat * result ((str * Z) * bool) :=
  (S st, Ok ((h_identifier h, Z.of_nat (h_level h)), str_mem (h_identifier h) secs)).
Definition demo (secs : list str) (forest : list hier) :=
  let '((_, calls), r) :=
    conv_loop snd (demo_lambda secs) 100 (Gen None forest) [("root", 0%Z)] 0 in
  (map (fun c => (h_identifier (fst c), fst (snd c))) calls, r).

(** Without the discipline a node gets a section that does not enclose it: here
    "d" is a section although its parent "c" is none, and "x", nested in "a",
    is handed the root. *)
Theorem C10_undisciplined_sections_refuted :
  exists forest secs, fst (demo secs forest) =
    [("a", "root"); ("c", "a"); ("d", "a"); ("x", "root")]
  /\ forest = [mk "a" 1 (Some [mk "c" 2 (Some [mk "d" 3 None]); mk "x" 2 None])].
Proof.
  eexists; exists ["a"; "d"]. split; [|reflexivity]. vm_compute. reflexivity.
Qed.
(** ... or the walk dies with IndexError or AssertionError. *)
Theorem C10_undisciplined_levels_fail_refuted :
  (exists forest secs, snd (demo secs forest) = Raise EIndexError)
  /\ (exists forest secs, snd (demo secs forest) = Raise EAssertionError).
Proof.
  split.
  - exists [mk "a" 1 (Some [mk "c" 2 None]); mk "x" 1 None], ["c"]. vm_compute. reflexivity.
  - exists [mk "a" 1 (Some [mk "c" 2 (Some [mk "d" 3 None])]); mk "x" 1 None], ["d"].
    vm_compute. reflexivity.
Qed.

Example C10_example :
  Forall (leveled 1) sample_forest
  /\ demo ["a"; "c"; "e"] sample_forest =
     ([("a", "root"); ("b", "a"); ("c", "a"); ("d", "c"); ("e", "root"); ("f", "e")],
      Ok [("e", 1%Z); ("root", 0%Z)])
  /\ map (fun c => (h_identifier (fst c), fst (snd c)))
       (snd (fst (convert_forest (demo_lambda ["a"; "c"; "e"]) sample_forest ("root", 0%Z) 0)))
     = fst (demo ["a"; "c"; "e"] sample_forest)
  /\ (forall t h d, In t sample_forest -> within h t -> within d h ->
       str_mem (h_identifier h) ["a"; "c"; "e"] = false ->
       str_mem (h_identifier d) ["a"; "c"; "e"] = false).
Proof.
  split; [repeat constructor|]. split; [vm_compute; reflexivity|].
  split; [vm_compute; reflexivity|].
  intros t h d Ht Hh Hd. apply within_preorder in Hh. apply within_preorder in Hd.
  assert (Hf : In h (fpreorder sample_forest)) by (apply in_flat_map; exists t; auto).
  vm_compute in Hf.
  repeat (destruct Hf as [<-|Hf]; [vm_compute in Hd;
     repeat (destruct Hd as [<-|Hd]; [vm_compute; congruence|]); destruct Hd|]).
  destruct Hf.
Qed.

Print Assumptions C07_iteration_is_document_order.
Print Assumptions C07_document_order_unique.
Print Assumptions C07_foreign_specification_rejected.
Print Assumptions C07_specification_iterator.
Print Assumptions C07_specification_iterator_refuted.
Print Assumptions C09_add_child_program.
Print Assumptions C09_levels_preserved.
Print Assumptions C09_rejected_call_changes_node_refuted.
Print Assumptions C10_conversion_passes_enclosing_section.
Print Assumptions C10_conversion_calls_in_document_order.
Print Assumptions C10_undisciplined_sections_refuted.
Print Assumptions C10_undisciplined_levels_fail_refuted.
