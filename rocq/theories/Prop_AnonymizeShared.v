(** Prop_AnonymizeShared.v -- C71: anonymizing the objects of a parsed document in place *)
From Verif Require Import Base Xml Lxml Py DictProofs Models DataType SpecObj Hierarchy SpecTypes Header Progress Parser
  BundleModel Unparser SpecLookup SpecEdit Alias SpecAlias AliasProofs Prop_Edit Prop_Alias
  AnonymizeObjects AnonymizeShared SpecAnonymizeShared SpecObjectTexts Prop_AnonymizeObjects CleanProofs.

Lemma covered_attribute_eq a : anonymize_attribute a = covered_attribute a.
Proof. unfold anonymize_attribute, covered_attribute. destruct a as [[] r v x n]; reflexivity. Qed.

(** ** The memory afterwards *)
Notation objects := (place spec_attr spec_object).
Definition same_shape (p p' : objects) : Prop := p_cells p' = p_cells p /\ p_list p' = p_list p /\ p_dict p' = p_dict p.
Definition touches (t : list ref) (p p' : objects) : Prop :=
  same_shape p p'
  /\ forall i, nth_error (p_items p') i = if in_dec Nat.eq_dec i t then option_map anonymize_attribute (nth_error (p_items p) i) else nth_error (p_items p) i.
Lemma touches_none p : touches [] p p.
Proof. split; [repeat split|]. intros i. destruct (in_dec Nat.eq_dec i []) as [[]|_]; reflexivity. Qed.
Lemma touches_app t t' p p' p'' : touches t p p' -> touches t' p' p'' -> touches (t ++ t') p p''.
Proof.
  intros [(A1 & A2 & A3) A] [(B1 & B2 & B3) B]. split; [repeat split; congruence|]. intros i. rewrite B, A.
  destruct (in_dec Nat.eq_dec i t) as [H|H], (in_dec Nat.eq_dec i t') as [H'|H'], (in_dec Nat.eq_dec i (t ++ t')) as [K|K];
    rewrite in_app_iff in K; try tauto. destruct (nth_error (p_items p) i) as [a|]; [|reflexivity]. cbn [option_map]. f_equal. apply attribute_again.
Qed.
Lemma touches_at p ra : touches [ra] p (anonymize_attribute_at p ra).
Proof.
  unfold anonymize_attribute_at. destruct (nth_error (p_items p) ra) as [a|] eqn:E.
  - split; [repeat split|]. intros i. cbn [edit_item p_items]. rewrite nth_upd. destruct (Nat.eqb_spec i ra) as [->|N].
    + destruct (in_dec Nat.eq_dec ra [ra]) as [K|K]; [|exfalso; apply K; left; reflexivity]. rewrite E. reflexivity.
    + destruct (in_dec Nat.eq_dec i [ra]) as [[->|[]]|H]; [contradiction|reflexivity].
  - split; [repeat split|]. intros i. destruct (in_dec Nat.eq_dec i [ra]) as [[<-|[]]|_]; [rewrite E; reflexivity|reflexivity].
Qed.
Lemma touches_attributes t : forall p, touches t p (fold_left anonymize_attribute_at t p).
Proof.
  induction t as [|ra t IH]; intros p; [apply touches_none|]. cbn [fold_left]. exact (touches_app [ra] t _ _ _ (touches_at p ra) (IH _)).
Qed.
Definition all_refs (p : objects) (rs : list ref) : list ref := flat_map (attribute_refs p) rs.
Lemma same_refs p p' r : same_shape p p' -> attribute_refs p' r = attribute_refs p r.
Proof. intros (E & _). unfold attribute_refs. rewrite E. reflexivity. Qed.
Lemma touches_objects rs : forall p, touches (all_refs p rs) p (anonymize_objects_at p rs).
Proof.
  unfold anonymize_objects_at, all_refs. induction rs as [|r rs IH]; intros p; [apply touches_none|]. cbn [fold_left flat_map].
  pose proof (touches_attributes (attribute_refs p r) p) as T. refine (touches_app _ _ _ _ _ T _).
  replace (flat_map (attribute_refs p) rs) with (flat_map (attribute_refs (fold_left anonymize_attribute_at (attribute_refs p r) p)) rs); [apply IH|].
  apply flat_map_ext. intros q. apply same_refs, T.
Qed.

Lemma pick_map {A} (h h' : list A) (f : A -> A) ids : (forall i, In i ids -> nth_error h' i = option_map f (nth_error h i)) ->
  pick h' ids = map f (pick h ids).
Proof.
  induction ids as [|i ids IH]; intros H; [reflexivity|]. unfold pick in *. cbn [flat_map]. rewrite map_app, IH by (intros j Hj; apply H; right; exact Hj).
  rewrite (H i) by (left; reflexivity). destruct (nth_error h i); reflexivity.
Qed.
Lemma covered_put o l : covered (with_attributes o l) = with_attributes o (map anonymize_attribute l).
Proof. unfold covered, with_attributes. cbn. f_equal. apply map_ext. intros a. symmetry. apply covered_attribute_eq. Qed.
Lemma refs_cell p r x : nth_error (p_cells p) r = Some x -> attribute_refs p r = refs_of x.
Proof. intros E. unfold attribute_refs, refs_of. rewrite E. reflexivity. Qed.
Lemma seen_after p rs r : sound object_kind p ->
  seen object_kind (anonymize_objects_at p rs) r
    = if in_dec Nat.eq_dec r rs then option_map covered (seen object_kind p r) else seen object_kind p r.
Proof.
  intros S. destruct (touches_objects rs p) as [(E1 & E2 & E3) T]. unfold seen. rewrite E1. destruct (nth_error (p_cells p) r) as [x|] eqn:E; [|destruct (in_dec Nat.eq_dec r rs); reflexivity].
  cbn [option_map].
  assert (F : fits object_kind x) by (exact (proj1 (Forall_forall _ _) (s_cells _ _ S) x (nth_error_In _ _ E))).
  destruct x as [own [ids|] m]; [|exfalso; destruct F as [F _]; cbn in F; discriminate (proj1 F eq_refl)].
  unfold view_cell. cbn [c_own c_items option_map object_kind k_put].
  assert (R : attribute_refs p r = ids) by (rewrite (refs_cell _ _ _ E); reflexivity).
  destruct (in_dec Nat.eq_dec r rs) as [H|H].
  - rewrite covered_put. do 2 f_equal. apply pick_map. intros i Hi. rewrite T.
    destruct (in_dec Nat.eq_dec i (all_refs p rs)) as [_|K]; [reflexivity|]. exfalso. apply K. apply in_flat_map. exists r. rewrite R. auto.
  - do 2 f_equal. rewrite <- (map_id (pick (p_items p) ids)). apply pick_map. intros i Hi. rewrite T.
    destruct (in_dec Nat.eq_dec i (all_refs p rs)) as [K|_]; [|destruct (nth_error (p_items p) i); reflexivity]. exfalso.
    apply in_flat_map in K. destruct K as (q & Hq & Ki). unfold attribute_refs in Ki. destruct (nth_error (p_cells p) q) as [y|] eqn:Ey; [|contradiction].
    apply (nodup_flat_map refs_of (p_cells p) r q _ y i (s_items _ _ S) E Ey); [intros ->; contradiction|exact Hi|exact Ki].
Qed.

(** ** The document afterwards *)
Lemma attribute_steps t : forall b, handled b -> handled (on_spec_objects b (fold_left anonymize_attribute_at t (hb_spec_objects b))).
Proof.
  induction t as [|ra t IH]; intros b H; [destruct b; exact H|]. cbn [fold_left].
  assert (H2 : handled (on_spec_objects b (anonymize_attribute_at (hb_spec_objects b) ra))).
  { unfold anonymize_attribute_at. destruct (nth_error (p_items (hb_spec_objects b)) ra) as [a|]; [|destruct b; exact H].
    apply handled_spec_objects; [exact H|]. apply step_item. }
  exact (IH _ H2).
Qed.
Lemma object_steps rs : forall b, handled b -> handled (anonymize_in_place b rs).
Proof.
  unfold anonymize_in_place, anonymize_objects_at. induction rs as [|r rs IH]; intros b H; [destruct b; exact H|]. cbn [fold_left].
  exact (IH _ (attribute_steps (attribute_refs (hb_spec_objects b) r) b H)).
Qed.
Lemma objects_listed b : handled b -> spec_objects_of (view b) = view_list object_kind (hb_spec_objects b).
Proof.
  intros H. destruct (handled_ok b H) as (_ & _ & [S N]).
  unfold spec_objects_of, b_list, bundle_content, view, has_list in *. cbn. unfold view_list. destruct (hb_core_content b) as [[c|]|]; cbn; [|rewrite N by reflexivity; reflexivity|rewrite N by reflexivity; reflexivity].
  destruct (hc_spec_objects c); cbn; [reflexivity|rewrite N by reflexivity; reflexivity].
Qed.
Lemma seen_some p r : sound object_kind p -> In r (p_list p) -> exists o, seen object_kind p r = Some o.
Proof.
  intros S H. assert (Q : r < length (p_cells p)) by exact (proj1 (Forall_forall _ _) (s_list_in _ _ S) r H). apply nth_error_Some in Q.
  unfold seen. destruct (nth_error (p_cells p) r) as [x|]; [eexists; reflexivity|congruence].
Qed.
Lemma listed_at p j r : sound object_kind p -> nth_error (p_list p) j = Some r ->
  nth_error (view_list object_kind p) j = seen object_kind p r.
Proof.
  intros S. rewrite view_list_seen. assert (A : forall r, In r (p_list p) -> exists o, seen object_kind p r = Some o) by (intros q; apply seen_some, S).
  revert j. induction (p_list p) as [|q l IH]; intros [|j] H; try discriminate; cbn [flat_map].
  - cbn in H. assert (q = r) by congruence. subst. destruct (A r (or_introl eq_refl)) as [o ->]. reflexivity.
  - destruct (A q (or_introl eq_refl)) as [o ->]. cbn. apply IH; [intros x Hx; apply A; right; exact Hx|exact H].
Qed.

(** Any of the objects, in any order, repeatedly, however they were found: those
    objects are covered in the list and in the lookup, the others are untouched. *)
Theorem C71_some_objects_in_place :
  forall b rs, handled b ->
    let p := hb_spec_objects b in let b' := anonymize_in_place b rs in
    handled b'
    /\ length (spec_objects_of (view b')) = length (spec_objects_of (view b))
    /\ (forall j r o, nth_error (p_list p) j = Some r -> nth_error (spec_objects_of (view b)) j = Some o ->
          (In r rs -> nth_error (spec_objects_of (view b')) j = Some (covered o))
          /\ (~ In r rs -> nth_error (spec_objects_of (view b')) j = Some o))
    /\ (forall key r o, find_ref p key = Ok r -> get_spec_object_by_ref (b_lookup (view b)) key = Ok o ->
          (In r rs -> get_spec_object_by_ref (b_lookup (view b')) key = Ok (covered o))
          /\ (~ In r rs -> get_spec_object_by_ref (b_lookup (view b')) key = Ok o)).
Proof.
  intros b rs H p b'. assert (H' : handled b') by (apply object_steps, H). split; [exact H'|].
  rewrite (objects_listed _ H), (objects_listed _ H'). destruct (handled_ok b H) as (_ & _ & [S _]). destruct (handled_ok b' H') as (_ & _ & [S' _]).
  destruct (touches_objects rs p) as [(E1 & E2 & E3) _].
  change (hb_spec_objects b') with (anonymize_objects_at p rs) in *. fold p. fold p in S. split; [|split].
  - unfold view_list. rewrite !map_length, E1, E2. reflexivity.
  - intros j r o Hj Ho. rewrite (listed_at p j r S Hj) in Ho. rewrite (listed_at _ j r S') by (rewrite E2; exact Hj).
    rewrite (seen_after p rs r S), Ho. destruct (in_dec Nat.eq_dec r rs); split; intros; try contradiction; reflexivity.
  - intros key r o Hf Ho. change (get_spec_object_by_ref (b_lookup (view b)) key) with (dict_index (view_dict object_kind p) key) in Ho.
    change (get_spec_object_by_ref (b_lookup (view b')) key) with (dict_index (view_dict object_kind (anonymize_objects_at p rs)) key).
    rewrite (found_seen object_kind p key S), Hf in Ho. cbn [bind] in Ho.
    assert (Hf' : find_ref (anonymize_objects_at p rs) key = Ok r) by (unfold find_ref in *; rewrite E3; exact Hf).
    rewrite (found_seen object_kind _ key S'), Hf'. cbn [bind].
    rewrite (seen_after p rs r S). destruct (seen object_kind p r) as [x|]; [|discriminate]. apply Ok_inj in Ho. subst x.
    destruct (in_dec Nat.eq_dec r rs); split; intros; try contradiction; reflexivity.
Qed.
Print Assumptions C71_some_objects_in_place.

Lemma flat_map_map {A B D} (f : B -> list D) (g : A -> B) l : flat_map f (map g l) = flat_map (fun x => f (g x)) l.
Proof. induction l as [|x l IH]; [reflexivity|]. cbn. rewrite IH. reflexivity. Qed.
Lemma flat_map_same {A B} (f g : A -> list B) l : (forall x, In x l -> f x = g x) -> flat_map f l = flat_map g l.
Proof. induction l as [|x l IH]; intros H; [reflexivity|]. cbn. rewrite (H x) by (left; reflexivity). rewrite IH; [reflexivity|]. intros y Hy. apply H. right. exact Hy. Qed.
Lemma map_flat_map {A B D} (f : B -> D) (g : A -> list B) l : map f (flat_map g l) = flat_map (fun x => map f (g x)) l.
Proof. induction l as [|x l IH]; [reflexivity|]. cbn. rewrite map_app, IH. reflexivity. Qed.

(** All the objects of the document: it is the document with all its objects
    covered, through whatever reference one looks at them. *)
Theorem C71_objects_in_place :
  forall b, handled b -> view (anonymize_in_place b (p_list (hb_spec_objects b))) = covered_bundle (view b).
Proof.
  intros b H. destruct (handled_ok b H) as (_ & _ & [S _]). set (p := hb_spec_objects b) in *. destruct (touches_objects (p_list p) p) as [(E1 & E2 & E3) _].
  assert (Q : forall r, In r (p_list p) -> seen object_kind (anonymize_objects_at p (p_list p)) r = option_map covered (seen object_kind p r)).
  { intros r Hr. rewrite (seen_after p _ r S). destruct (in_dec Nat.eq_dec r (p_list p)); [reflexivity|contradiction]. }
  assert (V1 : view_list object_kind (anonymize_objects_at p (p_list p)) = map covered (view_list object_kind p)).
  { rewrite !view_list_seen, E2, map_flat_map. apply flat_map_same. intros r Hr. rewrite (Q r Hr). destruct (seen object_kind p r); reflexivity. }
  assert (V2 : view_dict object_kind (anonymize_objects_at p (p_list p)) = map (fun e => (fst e, covered (snd e))) (view_dict object_kind p)).
  { rewrite !view_dict_seen, E3, map_flat_map. apply flat_map_same. intros [key r] He. unfold entry. cbn [fst snd].
    rewrite (Q r) by exact (s_dict_in _ _ S key r He). destruct (seen object_kind p r); reflexivity. }
  unfold view, covered_bundle, anonymize_in_place. fold p.
  cbn [on_spec_objects hb_core_content hb_data_types hb_spec_types hb_spec_objects hb_namespace_info hb_header hb_tool_extensions hb_parents hb_parents_default hb_exceptions
       b_namespace_info b_header b_core_content b_tool_extensions b_lookup b_exceptions lk_data_types lk_spec_types lk_spec_objects lk_parents lk_parents_default].
  rewrite V2. fold p. f_equal. destruct (hb_core_content b) as [[c|]|]; try reflexivity. cbn [option_map]. unfold view_content, covered_content. cbn. fold p. rewrite V1.
  destruct (hc_spec_objects c); reflexivity.
Qed.
Print Assumptions C71_objects_in_place.

(** The objects of the document can be found after it as before, in the same
    places, with the same identifiers. *)
Theorem C71_lookup_in_place :
  forall b key, handled b ->
    let b' := anonymize_in_place b (p_list (hb_spec_objects b)) in
    get_spec_object_by_ref (b_lookup (view b')) key = let! o := get_spec_object_by_ref (b_lookup (view b)) key in Ok (covered o).
Proof.
  intros b key H b'. unfold b'. rewrite C71_objects_in_place by exact H. unfold get_spec_object_by_ref, covered_bundle. cbn [b_lookup lk_spec_objects]. unfold dict_index.
  induction (lk_spec_objects (b_lookup (view b))) as [|[q o] d IH]; [reflexivity|]. cbn [map dict_get fst snd]. destruct (ostr_eqb key q); [reflexivity|exact IH].
Qed.
Print Assumptions C71_lookup_in_place.

(** Two documents that differ only in the texts of their objects are written alike
    afterwards: the texts cannot be seen in the file. *)
Lemma covered_put_objects b c l : b_core_content b = Some (Some c) -> rc_spec_objects c = Some l ->
  exists lk, covered_bundle b = put_lookup (put_spec_objects b c (anonymize_spec_objects l)) lk.
Proof.
  intros Ec El. eexists. unfold covered_bundle, put_lookup, put_spec_objects, put_content. rewrite Ec. cbn [option_map b_namespace_info b_header b_core_content b_tool_extensions b_exceptions].
  unfold covered_content. rewrite El. cbn [option_map]. do 6 f_equal. unfold anonymize_spec_objects. apply map_ext. intros o. unfold covered. f_equal. apply map_ext. intros a. symmetry. apply covered_attribute_eq.
Qed.
Lemma written_alike {A} (w : A -> result str) l l' xt : map w l = map w l' -> written w l xt -> written w l' xt.
Proof.
  intros E H. revert l' E. induction H as [|x t l xt Hx _ IH]; intros [|y l'] E; try discriminate; [constructor|]. cbn in E.
  assert (E1 : w x = w y) by congruence. assert (E2 : map w l = map w l') by congruence. constructor; [rewrite <- E1; exact Hx|apply IH, E2].
Qed.
Theorem C71_written_in_place :
  forall b b2 c l l2, handled b -> handled b2 ->
    b_core_content (view b) = Some (Some c) -> rc_spec_objects c = Some l ->
    put_lookup (view b2) (b_lookup (view b)) = put_spec_objects (view b) c l2 ->
    Forall2 same_object_but_texts l l2 ->
    forall t, unparse_string (view (anonymize_in_place b (p_list (hb_spec_objects b)))) = Ok t
              <-> unparse_string (view (anonymize_in_place b2 (p_list (hb_spec_objects b2)))) = Ok t.
Proof.
  intros b b2 c l l2 H H2 Ec El E F t. rewrite !C71_objects_in_place by assumption.
  destruct (covered_put_objects _ _ _ Ec El) as [lk ->]. rewrite lookup_not_written.
  assert (Q : exists c2 lk2, b_core_content (view b2) = Some (Some c2) /\ rc_spec_objects c2 = Some l2
                /\ forall x, put_lookup (put_spec_objects (view b2) c2 x) lk2 = put_spec_objects (view b) c x).
  { destruct (view b2) as [i h cc te lk2 ex], (view b) as [i' h' cc' te' lk' ex']. unfold put_lookup, put_spec_objects, put_content in *.
    cbn [b_namespace_info b_header b_core_content b_tool_extensions b_exceptions b_lookup] in *.
    assert (K : cc = Some (Some (Content (rc_data_types c) (rc_spec_types c) (Some l2) (rc_spec_relations c) (rc_specifications c) (rc_spec_relation_groups c)))) by congruence.
    assert (i = i' /\ h = h' /\ te = te' /\ ex = ex') as (-> & -> & -> & ->) by (repeat split; congruence).
    eexists _, _. split; [exact K|]. split; [reflexivity|]. intros x. cbn [rc_data_types rc_spec_types rc_spec_relations rc_specifications rc_spec_relation_groups]. reflexivity. }
  destruct Q as (c2 & lk2 & Ec2 & El2 & P). destruct (covered_put_objects _ _ _ Ec2 El2) as [lk3 ->]. rewrite lookup_not_written.
  rewrite <- (lookup_not_written (put_spec_objects (view b2) c2 _) lk2), P.
  pose proof (C71_written_objects_hide_texts l l2 F) as W.
  pose proof (proj1 (proj2 (proj2 (C53_edits_are_local (view b) c))) [] []) as L. unfold local in L. cbn [app] in L.
  assert (G : forall x y, map unparse_spec_object x = map unparse_spec_object y ->
    unparse_string (put_spec_objects (view b) c x) = Ok t -> unparse_string (put_spec_objects (view b) c y) = Ok t).
  { intros x y Exy HT. specialize (L x t). rewrite app_nil_r in L. destruct (L HT) as (pre & post & xt & Wx & -> & H1 & _).
    specialize (H1 y xt (written_alike _ _ _ _ Exy Wx)). rewrite app_nil_r in H1. exact H1. }
  split; apply G; [exact W|symmetry; exact W].
Qed.
Print Assumptions C71_written_in_place.

(** ** The document of Prop_Alias.v *)
(** [_anonymize_spec_objects([bundle.get_spec_object_by_ref("b")])] *)
Example C71_example_in_place :
  let p := hb_spec_objects shared_doc in
  find_ref p (Some "b") = Ok 1
  /\ contains "THE-VALUE=""two""" (text_of shared_doc) = true
  /\ contains "THE-VALUE=""two""" (text_of (anonymize_in_place shared_doc [1])) = false
  /\ contains "THE-VALUE=""Anonymized""" (text_of (anonymize_in_place shared_doc [1])) = true
  /\ contains "THE-VALUE=""one""" (text_of (anonymize_in_place shared_doc [1])) = true
  /\ contains "THE-VALUE=""one""" (text_of (anonymize_in_place shared_doc (p_list p))) = false.
Proof. repeat split; vm_compute; reflexivity. Qed.
(** The same document with other texts *)
Definition other_texts : shared_bundle := anonymize_in_place shared_doc (p_list (hb_spec_objects shared_doc)).
Example C71_example_written :
  handled shared_doc /\ handled other_texts
  /\ exists c l l2, b_core_content (view shared_doc) = Some (Some c) /\ rc_spec_objects c = Some l
       /\ put_lookup (view other_texts) (b_lookup (view shared_doc)) = put_spec_objects (view shared_doc) c l2
       /\ Forall2 same_object_but_texts l l2 /\ l <> l2.
Proof.
  split; [exact shared_doc_handled|]. split; [exact (object_steps _ _ shared_doc_handled)|].
  destruct (bundle_content (view shared_doc)) as [c|] eqn:E; [|vm_compute in E; discriminate].
  eexists _, _, _. split; [vm_compute; reflexivity|]. split; [vm_compute; reflexivity|]. split; [vm_compute; reflexivity|]. split; [|intros K; discriminate].
  repeat (apply Forall2_cons || apply Forall2_nil); unfold same_object_but_texts, same_but_text, free_text; cbn; repeat split; auto;
    repeat (apply Forall2_cons || apply Forall2_nil); cbn; auto.
Qed.
