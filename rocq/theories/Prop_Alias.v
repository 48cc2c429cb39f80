(** Prop_Alias.v -- C76: objects found by lookup are the objects of the document *)
From Verif Require Import Base Xml Lxml Py DictProofs Models DataType SpecObj Hierarchy SpecTypes Header Progress Parser
  BundleModel Unparser SpecLookup SpecEdit Alias SpecAlias AliasProofs Prop_Edit.

(** ** The three kinds *)
Lemma object_lawful : lawful object_kind.
Proof.
  constructor; cbn.
  - intros c [l|] H; [reflexivity|]. discriminate (proj1 H eq_refl).
  - intros []; reflexivity.
  - intros c [x|] l; reflexivity.
Qed.
Lemma type_lawful : lawful type_kind.
Proof. constructor; cbn; [intros [[]|[]|[]|[]] x _|intros [[]|[]|[]|[]]|intros [[]|[]|[]|[]] x l]; reflexivity. Qed.
Lemma data_lawful : lawful data_kind.
Proof.
  constructor; cbn; [|intros []; reflexivity|intros [] x l; reflexivity].
  intros [] [l|] H; cbn in *; try reflexivity; discriminate (proj2 H eq_refl).
Qed.

(** the shapes of the specification *)
Lemma object_shape_eq : object_shape = object_kind. Proof. reflexivity. Qed.
Lemma type_shape_eq : type_shape = type_kind. Proof. reflexivity. Qed.
Lemma data_shape_eq : data_shape = data_kind. Proof. reflexivity. Qed.

(** ** Parsing into the memory and parsing into values *)
Section Sim.
Context {S T : Type} (v : S -> T) (P : S -> Prop).
Definition simulates {A} (body : A -> S -> result S) (body' : A -> T -> result T) : Prop :=
  forall n s, P s -> match body n s with
                     | Ok s2 => P s2 /\ body' n (v s) = Ok (v s2)
                     | Raise e => body' n (v s) = Raise e
                     end.
Lemma track_sim {A} cb t total (body : A -> S -> result S) body' : simulates body body' -> forall ks idx s h, P s ->
  match track_loop cb t total body idx ks s h with
  | (h', Ok s2) => P s2 /\ track_loop cb t total body' idx ks (v s) h = (h', Ok (v s2))
  | (h', Raise e) => track_loop cb t total body' idx ks (v s) h = (h', Raise e)
  end.
Proof.
  intros H. induction ks as [|n ks IH]; intros idx s h Hs; cbn [track_loop].
  - unfold ret. split; [exact Hs|reflexivity].
  - unfold mbind at 1 3 4. unfold lift. specialize (H n s Hs). destruct (body n s) as [s2|e].
    + destruct H as [H2 ->]. unfold mbind. destruct (deliver cb _ h) as [h2 [[]|e]]; [|reflexivity]. apply IH, H2.
    + rewrite H. unfold mbind. reflexivity.
Qed.
Lemma section_sim cb t n body body' s0 h : simulates body body' -> P s0 ->
  match section_ cb t n body s0 h with
  | (h', Ok (b, s2)) => P s2 /\ (b = false -> s2 = s0) /\ section_ cb t n body' (v s0) h = (h', Ok (b, v s2))
  | (h', Raise e) => section_ cb t n body' (v s0) h = (h', Raise e)
  end.
Proof.
  intros H H0. unfold section_. destruct (find_child t n) as [x|]; [|unfold ret; split; [exact H0|split; [auto|reflexivity]]].
  unfold mbind, track. pose proof (track_sim cb t (length (children x)) body body' H (children x) 0 s0 h H0) as Q.
  destruct (track_loop cb t _ body 0 _ s0 h) as [h' [s2|e]].
  - destruct Q as [Q ->]. unfold ret. split; [exact Q|]. split; [discriminate|reflexivity].
  - rewrite Q. reflexivity.
Qed.
End Sim.
Definition fresh {I C} (k : kind I C) (p : place I C) : Prop := exists vs, p = made k vs.
Definition seen_both {I C} (k : kind I C) (p : place I C) : list C * dict C := (view_list k p, view_dict k p).
Lemma fresh_add {I C} (k : kind I C) p c : lawful k -> fresh k p ->
  fresh k (add_new k p c) /\ seen_both k (add_new k p c) = (fst (seen_both k p) ++ [c], dict_set (snd (seen_both k p)) (k_key k c) c).
Proof.
  intros L [vs ->]. split; [exists (vs ++ [c]); rewrite made_snoc; reflexivity|]. unfold seen_both. cbn [fst snd].
  destruct (add_new_view k (made k vs) c L (made_sound k vs)) as [-> ->]. reflexivity.
Qed.
Lemma data_sim : simulates (seen_both data_kind) (fresh data_kind) shared_data_type_body data_type_body.
Proof.
  intros n p F. unfold shared_data_type_body, data_type_body. destruct (parse_data_type n) as [d|e]; [|reflexivity]. unfold bind.
  destruct (fresh_add data_kind p d data_lawful F) as [F2 ->]. split; [exact F2|reflexivity].
Qed.
Lemma type_sim : simulates (seen_both type_kind) (fresh type_kind) shared_spec_type_body spec_type_body.
Proof.
  intros n p F. unfold shared_spec_type_body, spec_type_body. destruct (parse_spec_type n) as [[t|]|e]; [| |reflexivity]; unfold bind; [|split; [exact F|reflexivity]].
  destruct (fresh_add type_kind p t type_lawful F) as [F2 ->]. split; [exact F2|reflexivity].
Qed.
Lemma object_sim : simulates (seen_both object_kind) (fresh object_kind) shared_spec_object_body spec_object_body.
Proof.
  intros n p F. unfold shared_spec_object_body, spec_object_body. destruct (is_comment n); [split; [exact F|reflexivity]|].
  destruct (parse_spec_object n) as [o|e]; [|reflexivity]. unfold bind.
  destruct (fresh_add object_kind p o object_lawful F) as [F2 ->]. split; [exact F2|reflexivity].
Qed.
Lemma fresh_none {I C} (k : kind I C) : fresh k no_objects.
Proof. exists []. reflexivity. Qed.

(** a bundle just parsed *)
Definition just_parsed (b : shared_bundle) : Prop :=
  fresh data_kind (hb_data_types b) /\ fresh type_kind (hb_spec_types b) /\ fresh object_kind (hb_spec_objects b)
  /\ (has_list hc_data_types b = false -> hb_data_types b = no_objects)
  /\ (has_list hc_spec_types b = false -> hb_spec_types b = no_objects)
  /\ (has_list hc_spec_objects b = false -> hb_spec_objects b = no_objects).
Definition agrees {A B} (v : A -> B) (Q : A -> Prop) (x : list event * result A) (y : list event * result B) : Prop :=
  match x with
  | (h, Ok a) => Q a /\ y = (h, Ok (v a))
  | (h, Raise e) => y = (h, Raise e)
  end.
Definition parts_seen (x : shared_parts) : content * lookup * list exn :=
  let c := sp_content x in
  (Content (when_ (hc_data_types c) (view_list data_kind (sp_data_types x))) (when_ (hc_spec_types c) (view_list type_kind (sp_spec_types x)))
     (when_ (hc_spec_objects c) (view_list object_kind (sp_spec_objects x))) (hc_spec_relations c) (hc_specifications c) (hc_spec_relation_groups c),
   Lookup (view_dict data_kind (sp_data_types x)) (view_dict type_kind (sp_spec_types x)) (view_dict object_kind (sp_spec_objects x)) (sp_parents x) true,
   sp_exceptions x).
Definition parts_fresh (x : shared_parts) : Prop :=
  fresh data_kind (sp_data_types x) /\ fresh type_kind (sp_spec_types x) /\ fresh object_kind (sp_spec_objects x)
  /\ (hc_data_types (sp_content x) = false -> sp_data_types x = no_objects)
  /\ (hc_spec_types (sp_content x) = false -> sp_spec_types x = no_objects)
  /\ (hc_spec_objects (sp_content x) = false -> sp_spec_objects x = no_objects).
Lemma content_agrees cb n h : agrees parts_seen parts_fresh (shared_parse_content cb n h) (parse_reqif_content cb n h).
Proof.
  unfold shared_parse_content, parse_reqif_content, mbind, lift, ret.
  destruct (py_assert _) as [u|e]; [|reflexivity].
  pose proof (section_sim (seen_both data_kind) (fresh data_kind) cb "DATATYPES" n _ _ no_objects h data_sim (fresh_none _)) as Q1.
  change (seen_both data_kind no_objects) with (([], []) : list data_type * dict data_type) in Q1.
  destruct (section_ cb "DATATYPES" n shared_data_type_body no_objects h) as [h1 [[b1 p1]|e]]; [|rewrite Q1; reflexivity].
  destruct Q1 as (F1 & N1 & ->). unfold seen_both at 1.
  pose proof (section_sim (seen_both type_kind) (fresh type_kind) cb "SPEC-TYPES" n _ _ no_objects h1 type_sim (fresh_none _)) as Q2.
  change (seen_both type_kind no_objects) with (([], []) : list spec_type * dict spec_type) in Q2.
  destruct (section_ cb "SPEC-TYPES" n shared_spec_type_body no_objects h1) as [h2 [[b2 p2]|e]]; [|rewrite Q2; reflexivity].
  destruct Q2 as (F2 & N2 & ->). unfold seen_both at 1.
  destruct (section_ cb "SPECIFICATIONS" n specification_body [] h2) as [h3 [[b3 sps]|e]]; [|reflexivity].
  destruct (section_ cb "SPEC-RELATIONS" n spec_relation_body ([], [], []) h3) as [h4 [[b4 [[srs parents] exns]]|e]]; [|reflexivity].
  pose proof (section_sim (seen_both object_kind) (fresh object_kind) cb "SPEC-OBJECTS" n _ _ no_objects h4 object_sim (fresh_none _)) as Q5.
  change (seen_both object_kind no_objects) with (([], []) : list spec_object * dict spec_object) in Q5.
  destruct (section_ cb "SPEC-OBJECTS" n shared_spec_object_body no_objects h4) as [h5 [[b5 p5]|e]]; [|rewrite Q5; reflexivity].
  destruct Q5 as (F5 & N5 & ->). unfold seen_both at 1.
  destruct (section_ cb "SPEC-RELATION-GROUPS" n relation_group_body [] h5) as [h6 [[b6 rgs]|e]]; [|reflexivity].
  unfold agrees, parts_fresh. cbn. auto 10.
Qed.
Lemma empty_parsed ni hd c te : c = None \/ c = Some None ->
  just_parsed (SharedBundle ni hd c te no_objects no_objects no_objects [] false []).
Proof. intros _. unfold just_parsed. cbn. auto 10 using fresh_none. Qed.
Lemma parse_agrees cb s h : agrees view just_parsed (shared_parse cb s h) (parse_from_string cb s h).
Proof.
  unfold shared_parse, parse_from_string. destruct s as [|c0 s]; [reflexivity|]. destruct (lxml_parse (c0 :: s)) as [[decl root]|]; [|reflexivity].
  unfold shared_parse_reqif, parse_reqif. unfold mbind at 1 2. unfold lift at 1 3. destruct (strip_if_namespaced root) as [nons|e]; [|reflexivity].
  destruct (negb (tag_is "REQ-IF" nons)); [reflexivity|]. destruct (children nons) as [|k0 ks].
  - split; [apply empty_parsed; auto|reflexivity].
  - unfold shared_parse_body. unfold mbind at 1 3. unfold lift.
    match goal with |- context [match ?m with Ok a => _ | Raise e => _ end] => destruct m as [hdr|e] end; [|reflexivity].
    unfold mbind at 2. destruct (find_child "CORE-CONTENT" nons) as [cc|]; [|split; [apply empty_parsed; auto|reflexivity]].
    destruct (find_child "REQ-IF-CONTENT" cc) as [rc|]; [|split; [apply empty_parsed; auto|reflexivity]].
    unfold mbind. pose proof (content_agrees cb rc h) as Q. unfold agrees in Q. destruct (shared_parse_content cb rc h) as [h1 [x|e]]; [|rewrite Q; reflexivity].
    destruct Q as [Q ->]. unfold parts_seen. unfold ret. split; [|reflexivity]. exact Q.
Qed.

(** ** Handled bundles *)
Definition place_ok {I C} (k : kind I C) (present : bool) (p : place I C) : Prop :=
  sound k p /\ (present = false -> p_list p = []).
Lemma fresh_ok {I C} (k : kind I C) present p : fresh k p -> (present = false -> p = no_objects) -> place_ok k present p.
Proof. intros [vs ->] N. split; [apply made_sound|]. intros E. rewrite (N E). reflexivity. Qed.
Lemma step_ok {I C} (k : kind I C) present p p' : step k present p p' -> place_ok k present p -> place_ok k present p'.
Proof.
  intros H [S N]. split; [exact (step_sound k present p p' H S)|]. intros E. specialize (N E). destruct H as [r f H|r v|r v p' H|c H]; try exact N; [|congruence].
  unfold append_item in H. destruct (nth_error (p_cells p) r) as [[c [rs|] m]|]; try discriminate. match type of H with Ok ?x = _ => assert (p' = x) by congruence end. subst p'. exact N.
Qed.
Lemma handled_ok b : handled b ->
  place_ok data_kind (has_list hc_data_types b) (hb_data_types b) /\ place_ok type_kind (has_list hc_spec_types b) (hb_spec_types b)
  /\ place_ok object_kind (has_list hc_spec_objects b) (hb_spec_objects b).
Proof.
  induction 1 as [cb s h h' b H|b p _ IH H|b p _ IH H|b p _ IH H].
  - pose proof (parse_agrees cb s h) as Q. rewrite H in Q. destruct Q as [(F1 & F2 & F3 & N1 & N2 & N3) _]. auto using fresh_ok.
  - destruct IH as (I1 & I2 & I3). split; [|split; [exact I2|exact I3]]. exact (step_ok _ _ _ _ H I1).
  - destruct IH as (I1 & I2 & I3). split; [exact I1|split; [|exact I3]]. exact (step_ok _ _ _ _ H I2).
  - destruct IH as (I1 & I2 & I3). split; [exact I1|split; [exact I2|]]. exact (step_ok _ _ _ _ H I3).
Qed.
Lemma edits_impl {I C} (k : kind I C) p r l1 o l2 (Q R : place I C -> list C -> C -> Prop) :
  (forall p' l o', l = l1 ++ o' :: l2 -> Q p' l o' -> R p' l o') -> edits k p r l1 o l2 Q -> edits k p r l1 o l2 R.
Proof.
  intros H (E1 & E0 & E2 & E3). split; [|split; [exact E0|split]].
  - intros f Hf. apply H; [reflexivity|]. exact (E1 f Hf).
  - intros j ra Hj. destruct (E2 j ra Hj) as (a1 & a & a2 & X & Y & Z). exists a1, a, a2. split; [exact X|]. split; [exact Y|]. intros a' o'. apply H; [reflexivity|]. exact (Z a').
  - intros a. specialize (E3 a). destruct (k_items k o) as [l|]; [|exact E3]. destruct E3 as (p' & X & Y). exists p'. split; [exact X|]. intros o'. apply H; [reflexivity|]. exact Y.
Qed.
Lemma present_of {I C} (k : kind I C) b f p j r : place_ok k (has_list f b) p -> nth_error (p_list p) j = Some r ->
  exists c, hb_core_content b = Some (Some c) /\ f c = true.
Proof.
  intros [_ N] H. unfold has_list in N. destruct (hb_core_content b) as [[c|]|].
  - exists c. split; [reflexivity|]. destruct (f c); [reflexivity|]. rewrite N in H by reflexivity. destruct j; discriminate.
  - rewrite N in H by reflexivity. destruct j; discriminate.
  - rewrite N in H by reflexivity. destruct j; discriminate.
Qed.

(** Parsing with a memory gives what parsing gives in the rest of the model. *)
Theorem C76_same_document :
  forall cb s h, parse_from_string cb s h
    = (fst (shared_parse cb s h), let! b := snd (shared_parse cb s h) in Ok (view b)).
Proof.
  intros cb s h. pose proof (parse_agrees cb s h) as Q. unfold agrees in Q. destruct (shared_parse cb s h) as [h' [b|e]]; [|exact Q]. destruct Q as [_ Q]. exact Q.
Qed.
Print Assumptions C76_same_document.

(** The [j]-th object of a list, edited in place: the list changes in that place
    and the lookup under the keys that lead to the object; nothing else changes. *)
Theorem C76_spec_objects :
  forall b j r, handled b -> nth_error (p_list (hb_spec_objects b)) j = Some r ->
    exists c l1 o l2, b_core_content (view b) = Some (Some c) /\ rc_spec_objects c = Some (l1 ++ o :: l2) /\ length l1 = j
      /\ edits object_shape (hb_spec_objects b) r l1 o l2
           (fun p' l o' => view (on_spec_objects b p') = spec_objects_now (view b) c l (keys_of (p_dict (hb_spec_objects b)) r) o').
Proof.
  intros b j r H Hj. destruct (handled_ok b H) as (_ & _ & [S N]). destruct (present_of object_kind b hc_spec_objects _ j r (conj S N) Hj) as (c & Ec & Hc).
  destruct (edits_of object_kind _ r j object_lawful S Hj) as (l1 & o & l2 & E1 & E2 & _ & E3). exists (view_content b c), l1, o, l2.
  split; [unfold view; cbn; rewrite Ec; reflexivity|]. split; [cbn; rewrite Hc, E1; reflexivity|]. split; [exact E2|].
  refine (edits_impl _ _ _ _ _ _ _ _ _ E3). intros p' l o' _ [V1 V2]. unfold spec_objects_now, put_lookup, put_spec_objects, put_content, view, view_content. cbn.
  rewrite Ec. cbn. rewrite Hc, V1, V2. reflexivity.
Qed.
Theorem C76_spec_types :
  forall b j r, handled b -> nth_error (p_list (hb_spec_types b)) j = Some r ->
    exists c l1 o l2, b_core_content (view b) = Some (Some c) /\ rc_spec_types c = Some (l1 ++ o :: l2) /\ length l1 = j
      /\ edits type_shape (hb_spec_types b) r l1 o l2
           (fun p' l o' => view (on_spec_types b p') = spec_types_now (view b) c l (keys_of (p_dict (hb_spec_types b)) r) o').
Proof.
  intros b j r H Hj. destruct (handled_ok b H) as (_ & [S N] & _). destruct (present_of type_kind b hc_spec_types _ j r (conj S N) Hj) as (c & Ec & Hc).
  destruct (edits_of type_kind _ r j type_lawful S Hj) as (l1 & o & l2 & E1 & E2 & _ & E3). exists (view_content b c), l1, o, l2.
  split; [unfold view; cbn; rewrite Ec; reflexivity|]. split; [cbn; rewrite Hc, E1; reflexivity|]. split; [exact E2|].
  refine (edits_impl _ _ _ _ _ _ _ _ _ E3). intros p' l o' _ [V1 V2]. unfold spec_types_now, put_lookup, put_spec_types, put_content, view, view_content. cbn.
  rewrite Ec. cbn. rewrite Hc, V1, V2. reflexivity.
Qed.
Theorem C76_data_types :
  forall b j r, handled b -> nth_error (p_list (hb_data_types b)) j = Some r ->
    exists c l1 o l2, b_core_content (view b) = Some (Some c) /\ rc_data_types c = Some (l1 ++ o :: l2) /\ length l1 = j
      /\ edits data_shape (hb_data_types b) r l1 o l2
           (fun p' l o' => view (on_data_types b p') = data_types_now (view b) c l (keys_of (p_dict (hb_data_types b)) r) o').
Proof.
  intros b j r H Hj. destruct (handled_ok b H) as ([S N] & _ & _). destruct (present_of data_kind b hc_data_types _ j r (conj S N) Hj) as (c & Ec & Hc).
  destruct (edits_of data_kind _ r j data_lawful S Hj) as (l1 & o & l2 & E1 & E2 & _ & E3). exists (view_content b c), l1, o, l2.
  split; [unfold view; cbn; rewrite Ec; reflexivity|]. split; [cbn; rewrite Hc, E1; reflexivity|]. split; [exact E2|].
  refine (edits_impl _ _ _ _ _ _ _ _ _ E3). intros p' l o' _ [V1 V2]. unfold data_types_now, put_lookup, put_data_types, put_content, view, view_content. cbn.
  rewrite Ec. cbn. rewrite Hc, V1, V2. reflexivity.
Qed.
Print Assumptions C76_spec_objects.
Print Assumptions C76_spec_types.
Print Assumptions C76_data_types.

Lemma finds_ok {I C} (k : kind I C) p : lawful k -> sound k p -> finds k p (dict_index (view_dict k p)) (view_list k p).
Proof.
  intros L S. split; [|split].
  - intros key r H. split; [exact (found_keys k p key r S H)|]. destruct (found_in_list k p key r S H) as (j & Hj).
    destruct (edits_of k p r j L S Hj) as (l1 & o & l2 & E1 & E2 & E3 & _). exists l1, o, l2. split; [exact E1|]. split; [rewrite E2; exact Hj|].
    rewrite (found_seen k p key S), H. cbn. rewrite E3. reflexivity.
  - intros key e H. rewrite (found_seen k p key S), H. reflexivity.
  - intros r d ra H. exact (item_in k p r d ra S H).
Qed.
Theorem C76_found_objects_are_in_the_lists :
  forall b, handled b ->
    finds data_shape (hb_data_types b) (get_data_type_by_ref (b_lookup (view b))) (data_types_of (view b))
    /\ finds type_shape (hb_spec_types b) (get_spec_type_by_ref (b_lookup (view b))) (spec_types_of (view b))
    /\ finds object_shape (hb_spec_objects b) (get_spec_object_by_ref (b_lookup (view b))) (spec_objects_of (view b)).
Proof.
  intros b H. destruct (handled_ok b H) as ([S1 N1] & [S2 N2] & [S3 N3]).
  assert (E1 : data_types_of (view b) = view_list data_kind (hb_data_types b)).
  { unfold data_types_of, b_list, bundle_content, view, has_list in *. cbn. unfold view_list. destruct (hb_core_content b) as [[c|]|]; cbn; [|rewrite N1 by reflexivity; reflexivity|rewrite N1 by reflexivity; reflexivity].
    destruct (hc_data_types c); cbn; [reflexivity|rewrite N1 by reflexivity; reflexivity]. }
  assert (E2 : spec_types_of (view b) = view_list type_kind (hb_spec_types b)).
  { unfold spec_types_of, b_list, bundle_content, view, has_list in *. cbn. unfold view_list. destruct (hb_core_content b) as [[c|]|]; cbn; [|rewrite N2 by reflexivity; reflexivity|rewrite N2 by reflexivity; reflexivity].
    destruct (hc_spec_types c); cbn; [reflexivity|rewrite N2 by reflexivity; reflexivity]. }
  assert (E3 : spec_objects_of (view b) = view_list object_kind (hb_spec_objects b)).
  { unfold spec_objects_of, b_list, bundle_content, view, has_list in *. cbn. unfold view_list. destruct (hb_core_content b) as [[c|]|]; cbn; [|rewrite N3 by reflexivity; reflexivity|rewrite N3 by reflexivity; reflexivity].
    destruct (hc_spec_objects c); cbn; [reflexivity|rewrite N3 by reflexivity; reflexivity]. }
  rewrite E1, E2, E3. split; [|split]; apply finds_ok; auto using data_lawful, type_lawful, object_lawful.
Qed.
Print Assumptions C76_found_objects_are_in_the_lists.

Lemma finds_last_fresh {I C} (k : kind I C) p : lawful k -> fresh k p -> finds_last k p (view_list k p).
Proof.
  intros L [vs ->]. rewrite (proj1 (made_view k vs L)).
  assert (J : forall j r o, nth_error (p_list (made k vs)) j = Some r -> nth_error vs j = Some o -> r = j).
  { intros j r o Hj Ho. rewrite (proj2 (made_count k vs)) in Hj. assert (Q : j < length vs) by (apply nth_error_Some; congruence). apply nth_error_nth with (d := 0) in Hj. rewrite seq_nth in Hj by exact Q. lia. }
  split; [|split; [|split]].
  - intros key r H. destruct (made_find k vs key r H) as (l1 & o & l2 & E & Er & K). exists l1, o, l2. split; [exact E|]. split; [|exact K].
    rewrite (proj2 (made_count k vs)), E. rewrite Er, app_length, seq_app. cbn [length plus].
    rewrite nth_error_app2 by (rewrite seq_length; lia). rewrite seq_length, Er, Nat.sub_diag. reflexivity.
  - intros j r o d ra Hj Ho H. rewrite (J j r o Hj Ho) in *. exact (made_item k vs j o d ra Ho H).
  - intros o H. exact (made_find_all k vs o H).
  - intros j r o items a Hj Ho Hm Hi Ha. rewrite (J j r o Hj Ho). exact (made_item_all k vs j o items a Ho Hm Hi Ha).
Qed.
Theorem C76_found_objects_are_the_last :
  forall cb s h h' b, shared_parse cb s h = (h', Ok b) ->
    finds_last data_shape (hb_data_types b) (data_types_of (view b))
    /\ finds_last type_shape (hb_spec_types b) (spec_types_of (view b))
    /\ finds_last object_shape (hb_spec_objects b) (spec_objects_of (view b)).
Proof.
  intros cb s h h' b H. pose proof (parse_agrees cb s h) as Q. rewrite H in Q. destruct Q as [(F1 & F2 & F3 & N1 & N2 & N3) _].
  assert (E1 : data_types_of (view b) = view_list data_kind (hb_data_types b)).
  { unfold data_types_of, b_list, bundle_content, view, has_list in *. cbn. destruct (hb_core_content b) as [[c|]|]; cbn; [|rewrite N1 by reflexivity; reflexivity|rewrite N1 by reflexivity; reflexivity].
    destruct (hc_data_types c); cbn; [reflexivity|rewrite N1 by reflexivity; reflexivity]. }
  assert (E2 : spec_types_of (view b) = view_list type_kind (hb_spec_types b)).
  { unfold spec_types_of, b_list, bundle_content, view, has_list in *. cbn. destruct (hb_core_content b) as [[c|]|]; cbn; [|rewrite N2 by reflexivity; reflexivity|rewrite N2 by reflexivity; reflexivity].
    destruct (hc_spec_types c); cbn; [reflexivity|rewrite N2 by reflexivity; reflexivity]. }
  assert (E3 : spec_objects_of (view b) = view_list object_kind (hb_spec_objects b)).
  { unfold spec_objects_of, b_list, bundle_content, view, has_list in *. cbn. destruct (hb_core_content b) as [[c|]|]; cbn; [|rewrite N3 by reflexivity; reflexivity|rewrite N3 by reflexivity; reflexivity].
    destruct (hc_spec_objects c); cbn; [reflexivity|rewrite N3 by reflexivity; reflexivity]. }
  rewrite E1, E2, E3. split; [|split]; apply finds_last_fresh; auto using data_lawful, type_lawful, object_lawful.
Qed.
Print Assumptions C76_found_objects_are_the_last.

(** ** What is written after an edit in place *)
Lemma local_saved {I C} (k : kind I C) p l1 o l2 r (on : place I C -> shared_bundle) write put t (b : bundle) (Q : place I C -> list C -> C -> Prop) :
  edits k p r l1 o l2 Q -> local unparse_string write (fun xs => put (l1 ++ xs ++ l2)) -> put (l1 ++ [o] ++ l2) = b -> unparse_string b = Ok t ->
  (forall p' l o', Q p' l o' -> unparse_string (view (on p')) = unparse_string (put l)) ->
  exists pre x post, write o = Ok x /\ t = pre ++ x ++ post
    /\ edits k p r l1 o l2 (fun p' _ o' => unparse_string (view (on p')) = let! x' := write o' in Ok (pre ++ x' ++ post)).
Proof.
  intros E HL Hb Ht HQ. destruct (HL [o] t) as (pre & post & xt & W & Et & H1 & H2); [rewrite Hb; exact Ht|].
  inversion W as [|? x ? xs Wx Ws]; subst. inversion Ws; subst. exists pre, x, post. split; [exact Wx|]. split; [cbn; rewrite app_nil_r; reflexivity|].
  refine (edits_impl _ _ _ _ _ _ _ _ _ E). intros p' l o' -> HQ'. rewrite (HQ _ _ _ HQ'). destruct (write o') as [x'|e] eqn:Eo; cbn [bind].
  - specialize (H1 [o'] [x']). cbn [concat app] in H1. rewrite app_nil_r in H1. apply H1. constructor; [exact Eo|constructor].
  - exact (H2 [] [] o' [] e (Forall2_nil _) Eo).
Qed.
Lemma lookup_not_written b lk : unparse_string (put_lookup b lk) = unparse_string b.
Proof. destruct b. apply C53_lookup_and_errors_are_not_written. Qed.
Theorem C76_edits_are_saved :
  forall b t, handled b -> unparse_string (view b) = Ok t ->
    saved data_shape (hb_data_types b) (data_types_of (view b)) (on_data_types b) (fun d => Ok (unparse_data_type d)) t
    /\ saved type_shape (hb_spec_types b) (spec_types_of (view b)) (on_spec_types b) unparse_spec_type t
    /\ saved object_shape (hb_spec_objects b) (spec_objects_of (view b)) (on_spec_objects b) unparse_spec_object t.
Proof.
  intros b t H Ht. split; [|split]; intros j r Hj.
  - destruct (C76_data_types b j r H Hj) as (c & l1 & o & l2 & Ec & El & Ej & E).
    destruct (local_saved data_kind (hb_data_types b) l1 o l2 r (on_data_types b) (fun d => Ok (unparse_data_type d)) (put_data_types (view b) c) t (view b) _ E
      (proj1 (C53_edits_are_local (view b) c) l1 l2)) with (2 := Ht) as (pre & x & post & W & Et & E').
    + unfold put_data_types, put_content. destruct (view b); cbn in *. subst. destruct c; cbn in *. subst. reflexivity.
    + intros p' l o' ->. apply lookup_not_written.
    + exists l1, o, l2, pre, x, post. split; [unfold data_types_of, b_list, bundle_content; rewrite Ec; cbn; rewrite El; reflexivity|]. auto.
  - destruct (C76_spec_types b j r H Hj) as (c & l1 & o & l2 & Ec & El & Ej & E).
    destruct (local_saved type_kind (hb_spec_types b) l1 o l2 r (on_spec_types b) unparse_spec_type (put_spec_types (view b) c) t (view b) _ E
      (proj1 (proj2 (C53_edits_are_local (view b) c)) l1 l2)) with (2 := Ht) as (pre & x & post & W & Et & E').
    + unfold put_spec_types, put_content. destruct (view b); cbn in *. subst. destruct c; cbn in *. subst. reflexivity.
    + intros p' l o' ->. apply lookup_not_written.
    + exists l1, o, l2, pre, x, post. split; [unfold spec_types_of, b_list, bundle_content; rewrite Ec; cbn; rewrite El; reflexivity|]. auto.
  - destruct (C76_spec_objects b j r H Hj) as (c & l1 & o & l2 & Ec & El & Ej & E).
    destruct (local_saved object_kind (hb_spec_objects b) l1 o l2 r (on_spec_objects b) unparse_spec_object (put_spec_objects (view b) c) t (view b) _ E
      (proj1 (proj2 (proj2 (C53_edits_are_local (view b) c))) l1 l2)) with (2 := Ht) as (pre & x & post & W & Et & E').
    + unfold put_spec_objects, put_content. destruct (view b); cbn in *. subst. destruct c; cbn in *. subst. reflexivity.
    + intros p' l o' ->. apply lookup_not_written.
    + exists l1, o, l2, pre, x, post. split; [unfold spec_objects_of, b_list, bundle_content; rewrite Ec; cbn; rewrite El; reflexivity|]. auto.
Qed.
Print Assumptions C76_edits_are_saved.
(** An object appended to a list is the last of the list; the lookup does not know it. *)
Theorem C76_appending :
  forall b, handled b ->
    (forall o, has_list hc_spec_objects b = true ->
       let b' := on_spec_objects b (append_object object_kind (hb_spec_objects b) o) in
       spec_objects_of (view b') = spec_objects_of (view b) ++ [o] /\ b_lookup (view b') = b_lookup (view b))
    /\ (forall t, has_list hc_spec_types b = true ->
       let b' := on_spec_types b (append_object type_kind (hb_spec_types b) t) in
       spec_types_of (view b') = spec_types_of (view b) ++ [t] /\ b_lookup (view b') = b_lookup (view b))
    /\ (forall d, has_list hc_data_types b = true ->
       let b' := on_data_types b (append_object data_kind (hb_data_types b) d) in
       data_types_of (view b') = data_types_of (view b) ++ [d] /\ b_lookup (view b') = b_lookup (view b)).
Proof.
  intros b H. destruct (handled_ok b H) as ([S1 N1] & [S2 N2] & [S3 N3]). split; [|split]; intros o Hp b'.
  - destruct (append_object_view object_kind (hb_spec_objects b) o object_lawful S3) as [V1 V2].
    unfold b', has_list, spec_objects_of, b_list, bundle_content, view, view_content in *.
    cbn [on_spec_objects hb_core_content hb_data_types hb_spec_types hb_spec_objects hb_namespace_info hb_header hb_tool_extensions hb_parents hb_parents_default hb_exceptions b_core_content b_lookup].
    destruct (hb_core_content b) as [[c|]|]; try discriminate. cbn [option_map rc_spec_objects]. rewrite Hp, V1, V2. split; reflexivity.
  - destruct (append_object_view type_kind (hb_spec_types b) o type_lawful S2) as [V1 V2].
    unfold b', has_list, spec_types_of, b_list, bundle_content, view, view_content in *.
    cbn [on_spec_types hb_core_content hb_data_types hb_spec_types hb_spec_objects hb_namespace_info hb_header hb_tool_extensions hb_parents hb_parents_default hb_exceptions b_core_content b_lookup].
    destruct (hb_core_content b) as [[c|]|]; try discriminate. cbn [option_map rc_spec_types]. rewrite Hp, V1, V2. split; reflexivity.
  - destruct (append_object_view data_kind (hb_data_types b) o data_lawful S1) as [V1 V2].
    unfold b', has_list, data_types_of, b_list, bundle_content, view, view_content in *.
    cbn [on_data_types hb_core_content hb_data_types hb_spec_types hb_spec_objects hb_namespace_info hb_header hb_tool_extensions hb_parents hb_parents_default hb_exceptions b_core_content b_lookup].
    destruct (hb_core_content b) as [[c|]|]; try discriminate. cbn [option_map rc_data_types]. rewrite Hp, V1, V2. split; reflexivity.
Qed.
Print Assumptions C76_appending.

(** ** A document *)
Definition shared_document : str :=
  "<REQ-IF><CORE-CONTENT><REQ-IF-CONTENT>"
  ++ "<DATATYPES><DATATYPE-DEFINITION-ENUMERATION IDENTIFIER=""e""><SPECIFIED-VALUES>"
  ++ "<ENUM-VALUE IDENTIFIER=""v1""><PROPERTIES><EMBEDDED-VALUE KEY=""1"" OTHER-CONTENT=""""/></PROPERTIES></ENUM-VALUE>"
  ++ "<ENUM-VALUE IDENTIFIER=""v2""><PROPERTIES><EMBEDDED-VALUE KEY=""2"" OTHER-CONTENT=""""/></PROPERTIES></ENUM-VALUE>"
  ++ "</SPECIFIED-VALUES></DATATYPE-DEFINITION-ENUMERATION></DATATYPES>"
  ++ "<SPEC-OBJECTS>"
  ++ "<SPEC-OBJECT IDENTIFIER=""a""><TYPE><SPEC-OBJECT-TYPE-REF>t</SPEC-OBJECT-TYPE-REF></TYPE><VALUES>"
  ++ "<ATTRIBUTE-VALUE-STRING THE-VALUE=""one""><DEFINITION><ATTRIBUTE-DEFINITION-STRING-REF>d</ATTRIBUTE-DEFINITION-STRING-REF></DEFINITION></ATTRIBUTE-VALUE-STRING>"
  ++ "</VALUES></SPEC-OBJECT>"
  ++ "<SPEC-OBJECT IDENTIFIER=""b""><TYPE><SPEC-OBJECT-TYPE-REF>t</SPEC-OBJECT-TYPE-REF></TYPE><VALUES>"
  ++ "<ATTRIBUTE-VALUE-STRING THE-VALUE=""two""><DEFINITION><ATTRIBUTE-DEFINITION-STRING-REF>d</ATTRIBUTE-DEFINITION-STRING-REF></DEFINITION></ATTRIBUTE-VALUE-STRING>"
  ++ "</VALUES></SPEC-OBJECT>"
  ++ "</SPEC-OBJECTS></REQ-IF-CONTENT></CORE-CONTENT></REQ-IF>".
Definition no_bundle : shared_bundle := SharedBundle (namespace_info_empty None None) None None false no_objects no_objects no_objects [] false [].
Definition shared_doc : shared_bundle := Eval vm_compute in
  match snd (shared_parse None shared_document []) with Ok b => b | Raise _ => no_bundle end.
Lemma shared_doc_parsed : shared_parse None shared_document [] = ([], Ok shared_doc).
Proof. vm_compute. reflexivity. Qed.
Lemma shared_doc_handled : handled shared_doc.
Proof. exact (handled_parsed _ _ _ _ _ shared_doc_parsed). Qed.
(** attribute.value = "new" *)
Definition new_value (a : spec_attr) : spec_attr :=
  SpecAttr (sa_type a) (sa_definition_ref a) (VStr "new") (sa_value_stripped_xhtml a) (sa_xml_node a).
(** obj.identifier = "c" *)
Definition renamed (o : spec_object) : spec_object :=
  SpecObject "c" (so_attributes o) (so_spec_object_type o) (so_description o) (so_last_change o) (so_long_name o) (so_xml_node o).
Lemma renamed_own : own_fields object_kind renamed.
Proof. split; [reflexivity|]. intros c [x|]; reflexivity. Qed.
Definition text_of (b : shared_bundle) : str := match unparse_string (view b) with Ok t => t | Raise _ => [] end.
(** bundle.get_spec_object_by_ref("b").attribute_map["d"].value = "new" *)
Example C76_example :
  let p := hb_spec_objects shared_doc in
  find_ref p (Some "b") = Ok 1 /\ item_ref p 1 (Some "d") = Ok 1
  /\ find_ref (hb_data_types shared_doc) (Some "e") = Ok 0 /\ item_ref (hb_data_types shared_doc) 0 (Some "v2") = Ok 1
  /\ exists a, nth_error (p_items p) 1 = Some a
     /\ contains "THE-VALUE=""two""" (text_of shared_doc) = true
     /\ contains "THE-VALUE=""new""" (text_of (on_spec_objects shared_doc (edit_item p 1 (new_value a)))) = true
     /\ contains "THE-VALUE=""two""" (text_of (on_spec_objects shared_doc (edit_item p 1 (new_value a)))) = false
     /\ contains "THE-VALUE=""one""" (text_of (on_spec_objects shared_doc (edit_item p 1 (new_value a)))) = true.
Proof.
  intros p. split; [vm_compute; reflexivity|]. split; [vm_compute; reflexivity|]. split; [vm_compute; reflexivity|]. split; [vm_compute; reflexivity|].
  destruct (nth_error (p_items p) 1) as [a|] eqn:E; [|vm_compute in E; discriminate]. exists a. split; [reflexivity|].
  assert (Q : match nth_error (p_items p) 1 with
    | Some a => contains "THE-VALUE=""two""" (text_of shared_doc) = true
     /\ contains "THE-VALUE=""new""" (text_of (on_spec_objects shared_doc (edit_item p 1 (new_value a)))) = true
     /\ contains "THE-VALUE=""two""" (text_of (on_spec_objects shared_doc (edit_item p 1 (new_value a)))) = false
     /\ contains "THE-VALUE=""one""" (text_of (on_spec_objects shared_doc (edit_item p 1 (new_value a)))) = true
    | None => False end) by (vm_compute; auto).
  rewrite E in Q. exact Q.
Qed.
(** The lookup does not follow the fields it is keyed by: an object whose
    identifier was changed is found under the old one only. *)
Theorem C76_lookup_follows_identifiers_refuted :
  exists b r o, handled b /\ find_ref (hb_spec_objects b) (Some "b") = Ok r
    /\ let b' := on_spec_objects b (edit_own (hb_spec_objects b) r renamed) in
       handled b'
       /\ get_spec_object_by_ref (b_lookup (view b')) (Some "b") = Ok o /\ so_identifier o = "c"
       /\ get_spec_object_by_ref (b_lookup (view b')) (Some "c") = Raise EKeyError
       /\ contains "<SPEC-OBJECT IDENTIFIER=""c""" (text_of b') = true.
Proof.
  set (b' := on_spec_objects shared_doc (edit_own (hb_spec_objects shared_doc) 1 renamed)).
  destruct (get_spec_object_by_ref (b_lookup (view b')) (Some "b")) as [o|] eqn:E; [|vm_compute in E; discriminate].
  exists shared_doc, 1, o. split; [exact shared_doc_handled|]. split; [vm_compute; reflexivity|]. intros b0. change b0 with b'. clear b0.
  split; [apply handled_spec_objects; [exact shared_doc_handled|]; constructor; exact renamed_own|].
  split; [exact E|]. split; [|split; vm_compute; reflexivity].
  assert (Q : match get_spec_object_by_ref (b_lookup (view b')) (Some "b") with Ok o => so_identifier o | _ => [] end = "c") by (vm_compute; reflexivity).
  rewrite E in Q. exact Q.
Qed.
Print Assumptions C76_lookup_follows_identifiers_refuted.
(** Nor does an object's map follow its list: an attribute appended to
    [attributes] is written, but not in [attribute_map]. *)
Theorem C76_map_follows_appends_refuted :
  exists b r a p', handled b /\ find_ref (hb_spec_objects b) (Some "b") = Ok r /\ sa_definition_ref a = Some "d2"
    /\ append_item (hb_spec_objects b) r a = Ok p' /\ handled (on_spec_objects b p')
    /\ contains "THE-VALUE=""added""" (text_of (on_spec_objects b p')) = true
    /\ item_ref p' r (Some "d2") = Raise EKeyError.
Proof.
  set (a := SpecAttr AT_STRING (Some "d2") (VStr "added") None None).
  exists shared_doc, 1, a. destruct (append_item (hb_spec_objects shared_doc) 1 a) as [p'|] eqn:E; [|vm_compute in E; discriminate].
  exists p'. split; [exact shared_doc_handled|]. split; [vm_compute; reflexivity|]. split; [reflexivity|]. split; [reflexivity|].
  split; [apply handled_spec_objects; [exact shared_doc_handled|]; exact (step_append_item _ _ _ _ _ _ E)|].
  assert (Q : match append_item (hb_spec_objects shared_doc) 1 a with
    | Ok p' => contains "THE-VALUE=""added""" (text_of (on_spec_objects shared_doc p')) = true /\ item_ref p' 1 (Some "d2") = Raise EKeyError
    | _ => False end) by (vm_compute; auto).
  rewrite E in Q. exact Q.
Qed.
Print Assumptions C76_map_follows_appends_refuted.
