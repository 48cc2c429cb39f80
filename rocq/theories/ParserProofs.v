(** ParserProofs.v -- what a successful parse says about the bundle *)
From Verif Require Import Base Xml Utf8 Lxml Py LxmlStr Models AttrDef DataType Header AttrValue SpecObj
  Hierarchy SpecTypes Progress Parser Unparser BundleModel SpecTraversal SpecProgress SpecLookup
  DictProofs ProgressProofs TraversalProofs.

(** ** Each section's loop, as a map over its children *)
Lemma fold_data_types items l0 d0 :
  foldM data_type_body items (l0, d0) =
  let! l := mapM parse_data_type items in
  Ok (l0 ++ l, fill (fun x => Some (dt_id x)) (fun x => x) l d0).
Proof.
  revert l0 d0. induction items as [|n items IH]; intros l0 d0.
  - cbn. rewrite app_nil_r. reflexivity.
  - cbn [foldM mapM]. unfold data_type_body at 1. destruct (parse_data_type n) as [x|e]; [|reflexivity].
    cbn [bind fst snd]. rewrite IH. destruct (mapM parse_data_type items) as [l|e]; [|reflexivity].
    cbn [bind]. rewrite <- app_assoc. reflexivity.
Qed.
Lemma fold_spec_types items l0 d0 :
  foldM spec_type_body items (l0, d0) =
  let! l := mapM parse_spec_type items in
  Ok (l0 ++ catSomes l, fill (fun x => Some (st_identifier x)) (fun x => x) (catSomes l) d0).
Proof.
  revert l0 d0. induction items as [|n items IH]; intros l0 d0.
  - cbn. rewrite app_nil_r. reflexivity.
  - cbn [foldM mapM]. unfold spec_type_body at 1. destruct (parse_spec_type n) as [[x|]|e]; [| |reflexivity].
    + cbn [bind fst snd]. rewrite IH. destruct (mapM parse_spec_type items) as [l|e]; [|reflexivity].
      cbn [bind]. rewrite <- app_assoc. reflexivity.
    + cbn [bind]. rewrite IH. destruct (mapM parse_spec_type items) as [l|e]; reflexivity.
Qed.
Lemma fold_specifications items l0 :
  foldM specification_body items l0 = let! l := mapM parse_specification items in Ok (l0 ++ l).
Proof.
  revert l0. induction items as [|n items IH]; intros l0.
  - cbn. rewrite app_nil_r. reflexivity.
  - cbn [foldM mapM]. unfold specification_body at 1. destruct (parse_specification n) as [x|e]; [|reflexivity].
    cbn [bind]. rewrite IH. destruct (mapM parse_specification items) as [l|e]; [|reflexivity].
    cbn [bind]. rewrite <- app_assoc. reflexivity.
Qed.
Lemma fold_relation_groups items l0 :
  foldM relation_group_body items l0 = let! l := mapM parse_relation_group items in Ok (l0 ++ l).
Proof.
  revert l0. induction items as [|n items IH]; intros l0.
  - cbn. rewrite app_nil_r. reflexivity.
  - cbn [foldM mapM]. unfold relation_group_body at 1. destruct (parse_relation_group n) as [x|e]; [|reflexivity].
    cbn [bind]. rewrite IH. destruct (mapM parse_relation_group items) as [l|e]; [|reflexivity].
    cbn [bind]. rewrite <- app_assoc. reflexivity.
Qed.
Definition object_item (n : node) : result (option spec_object) :=
  if is_comment n then Ok None else let! o := parse_spec_object n in Ok (Some o).
Lemma fold_spec_objects items l0 d0 :
  foldM spec_object_body items (l0, d0) =
  let! l := mapM object_item items in
  Ok (l0 ++ catSomes l, fill (fun x => Some (so_identifier x)) (fun x => x) (catSomes l) d0).
Proof.
  revert l0 d0. induction items as [|n items IH]; intros l0 d0.
  - cbn. rewrite app_nil_r. reflexivity.
  - cbn [foldM mapM]. unfold spec_object_body at 1, object_item at 1.
    destruct (is_comment n).
    + cbn [bind]. rewrite IH. destruct (mapM object_item items) as [l|e]; reflexivity.
    + destruct (parse_spec_object n) as [x|e]; [|reflexivity].
      cbn [bind fst snd]. rewrite IH. destruct (mapM object_item items) as [l|e]; [|reflexivity].
      cbn [bind]. rewrite <- app_assoc. reflexivity.
Qed.
(** a relation element gives a relation or a recoverable error *)
Definition relation_item (n : node) : result (spec_relation + exn) :=
  match parse_spec_relation n with
  | Ok r => Ok (inl r)
  | Raise (EMissingTag x t) => let! _ := stringify_node false x in Ok (inr (EMissingTag x t))
  | Raise e => Raise e
  end.
Fixpoint lefts {A B} (l : list (A + B)) : list A :=
  match l with [] => [] | inl a :: l' => a :: lefts l' | inr _ :: l' => lefts l' end.
Fixpoint rights {A B} (l : list (A + B)) : list B :=
  match l with [] => [] | inl _ :: l' => rights l' | inr b :: l' => b :: rights l' end.
Definition fill_parents (l : list spec_relation) (d : dict (list (option str))) :=
  fold_left (fun d r => parents_append d (sr_source r) (sr_target r)) l d.
Lemma fold_spec_relations items l0 p0 x0 :
  foldM spec_relation_body items (l0, p0, x0) =
  let! l := mapM relation_item items in
  Ok (l0 ++ lefts l, fill_parents (lefts l) p0, x0 ++ rights l).
Proof.
  revert l0 p0 x0. induction items as [|n items IH]; intros l0 p0 x0.
  - cbn. rewrite !app_nil_r. reflexivity.
  - cbn [foldM mapM]. unfold spec_relation_body at 1, relation_item at 1.
    destruct (parse_spec_relation n) as [r|e].
    + cbn [bind]. rewrite IH. destruct (mapM relation_item items) as [l|e]; [|reflexivity].
      cbn [bind lefts rights]. rewrite <- app_assoc. reflexivity.
    + destruct e; try reflexivity.
      destruct (stringify_node false xml_node) as [u|e]; [|reflexivity].
      cbn [bind]. rewrite IH. destruct (mapM relation_item items) as [l|e]; [|reflexivity].
      cbn [bind lefts rights]. rewrite <- !app_assoc. reflexivity.
Qed.

(** ** The parents dictionary *)
Lemma fill_parents_get l d k :
  dict_get (fill_parents l d) k =
  match dict_get d k, map sr_target (filter (fun r => ostr_eqb (sr_source r) k) l) with
  | None, [] => None
  | None, ts => Some ts
  | Some v, ts => Some (v ++ ts)
  end.
Proof.
  revert d. induction l as [|r l IH]; intros d.
  - cbn. destruct (dict_get d k); [rewrite app_nil_r|]; reflexivity.
  - cbn [fill_parents fold_left filter]. unfold fill_parents in IH. rewrite IH. clear IH.
    unfold parents_append. rewrite dict_get_set.
    destruct (ostr_eqb_spec k (sr_source r)) as [->|N].
    + rewrite ostr_eqb_refl. cbn [map].
      destruct (dict_get d (sr_source r)) as [v|]; [rewrite <- app_assoc|]; reflexivity.
    + destruct (ostr_eqb_spec (sr_source r) k) as [E|_]; [congruence|]. reflexivity.
Qed.

(** ** Content *)
Definition sec_facts {A} (n : node) (t : str) (o : option (list A)) (P : list node -> list A -> Prop)
  : Prop :=
  match find_child t n with
  | None => o = None
  | Some x => exists l, o = Some l /\ P (children x) l
  end.

Record content_facts (n : node) (c : content) (lk : lookup) (xs : list exn) : Prop := {
  cf_tag : tag_is "REQ-IF-CONTENT" n = true;
  cf_dt : sec_facts n "DATATYPES" (rc_data_types c) (fun k l => mapM parse_data_type k = Ok l);
  cf_st : sec_facts n "SPEC-TYPES" (rc_spec_types c)
            (fun k l => exists ol, mapM parse_spec_type k = Ok ol /\ l = catSomes ol);
  cf_sp : sec_facts n "SPECIFICATIONS" (rc_specifications c) (fun k l => mapM parse_specification k = Ok l);
  cf_sr : exists ol,
     (match find_child "SPEC-RELATIONS" n with
      | None => rc_spec_relations c = None /\ ol = []
      | Some x => rc_spec_relations c = Some (lefts ol) /\ mapM relation_item (children x) = Ok ol
      end)
     /\ xs = rights ol;
  cf_so : sec_facts n "SPEC-OBJECTS" (rc_spec_objects c)
            (fun k l => exists ol, mapM object_item k = Ok ol /\ l = catSomes ol);
  cf_rg : sec_facts n "SPEC-RELATION-GROUPS" (rc_spec_relation_groups c)
            (fun k l => mapM parse_relation_group k = Ok l);
  cf_lk : lk = Lookup
     (fill (fun x => Some (dt_id x)) (fun x => x) (olist (rc_data_types c)) [])
     (fill (fun x => Some (st_identifier x)) (fun x => x) (olist (rc_spec_types c)) [])
     (fill (fun x => Some (so_identifier x)) (fun x => x) (olist (rc_spec_objects c)) [])
     (fill_parents (olist (rc_spec_relations c)) []) true }.

Lemma pure_content_facts n c lk xs :
  pure_content n = Ok (c, lk, xs) -> content_facts n c lk xs.
Proof.
  unfold pure_content. intros H.
  destruct (tag_is "REQ-IF-CONTENT" n) eqn:ET; [|discriminate]. cbn [py_assert bind] in H.
  unfold pure_section in H.
  rewrite ?fold_data_types in H.
  (* each section in turn *)
  assert (S1 : forall (k : bool * (list data_type * dict data_type) -> result (content * lookup * list exn)),
    bind (match find_child "DATATYPES" n with
          | Some x => let! s := foldM data_type_body (children x) ([], []) in Ok (true, s)
          | None => Ok (false, ([], [])) end) k = Ok (c, lk, xs) ->
    exists o, sec_facts n "DATATYPES" o (fun k l => mapM parse_data_type k = Ok l)
      /\ k (match o with Some _ => true | None => false end,
            (olist o, fill (fun x => Some (dt_id x)) (fun x => x) (olist o) [])) = Ok (c, lk, xs)).
  { intros k Hk. unfold sec_facts. destruct (find_child "DATATYPES" n) as [x|].
    - rewrite fold_data_types in Hk. destruct (mapM parse_data_type (children x)) as [l|e]; [|discriminate].
      cbn [bind app] in Hk. exists (Some l). split; [exists l; auto|exact Hk].
    - exists None. split; [reflexivity|exact Hk]. }
  assert (S2 : forall (k : bool * (list spec_type * dict spec_type) -> result (content * lookup * list exn)),
    bind (match find_child "SPEC-TYPES" n with
          | Some x => let! s := foldM spec_type_body (children x) ([], []) in Ok (true, s)
          | None => Ok (false, ([], [])) end) k = Ok (c, lk, xs) ->
    exists o, sec_facts n "SPEC-TYPES" o (fun k l => exists ol, mapM parse_spec_type k = Ok ol /\ l = catSomes ol)
      /\ k (match o with Some _ => true | None => false end,
            (olist o, fill (fun x => Some (st_identifier x)) (fun x => x) (olist o) [])) = Ok (c, lk, xs)).
  { intros k Hk. unfold sec_facts. destruct (find_child "SPEC-TYPES" n) as [x|].
    - rewrite fold_spec_types in Hk. destruct (mapM parse_spec_type (children x)) as [l|e]; [|discriminate].
      cbn [bind app] in Hk. exists (Some (catSomes l)). split; [exists (catSomes l); eauto|exact Hk].
    - exists None. split; [reflexivity|exact Hk]. }
  assert (S3 : forall (k : bool * (list specification) -> result (content * lookup * list exn)),
    bind (match find_child "SPECIFICATIONS" n with
          | Some x => let! s := foldM specification_body (children x) [] in Ok (true, s)
          | None => Ok (false, []) end) k = Ok (c, lk, xs) ->
    exists o, sec_facts n "SPECIFICATIONS" o (fun k l => mapM parse_specification k = Ok l)
      /\ k (match o with Some _ => true | None => false end, olist o) = Ok (c, lk, xs)).
  { intros k Hk. unfold sec_facts. destruct (find_child "SPECIFICATIONS" n) as [x|].
    - rewrite fold_specifications in Hk. destruct (mapM parse_specification (children x)) as [l|e]; [|discriminate].
      cbn [bind app] in Hk. exists (Some l). split; [exists l; auto|exact Hk].
    - exists None. split; [reflexivity|exact Hk]. }
  assert (S4 : forall (k : bool * relation_state -> result (content * lookup * list exn)),
    bind (match find_child "SPEC-RELATIONS" n with
          | Some x => let! s := foldM spec_relation_body (children x) ([], [], []) in Ok (true, s)
          | None => Ok (false, ([], [], [])) end) k = Ok (c, lk, xs) ->
    exists o ol,
      (match find_child "SPEC-RELATIONS" n with
      | None => o = None /\ ol = []
      | Some x => o = Some (lefts ol) /\ mapM relation_item (children x) = Ok ol
      end)
      /\ k (match o with Some _ => true | None => false end,
            (olist o, fill_parents (olist o) [], rights ol)) = Ok (c, lk, xs)).
  { intros k Hk. destruct (find_child "SPEC-RELATIONS" n) as [x|].
    - rewrite fold_spec_relations in Hk. destruct (mapM relation_item (children x)) as [l|e]; [|discriminate].
      cbn [bind app] in Hk. exists (Some (lefts l)), l. split; [auto|exact Hk].
    - exists None, []. split; [auto|exact Hk]. }
  assert (S5 : forall (k : bool * (list spec_object * dict spec_object) -> result (content * lookup * list exn)),
    bind (match find_child "SPEC-OBJECTS" n with
          | Some x => let! s := foldM spec_object_body (children x) ([], []) in Ok (true, s)
          | None => Ok (false, ([], [])) end) k = Ok (c, lk, xs) ->
    exists o, sec_facts n "SPEC-OBJECTS" o (fun k l => exists ol, mapM object_item k = Ok ol /\ l = catSomes ol)
      /\ k (match o with Some _ => true | None => false end,
            (olist o, fill (fun x => Some (so_identifier x)) (fun x => x) (olist o) [])) = Ok (c, lk, xs)).
  { intros k Hk. unfold sec_facts. destruct (find_child "SPEC-OBJECTS" n) as [x|].
    - rewrite fold_spec_objects in Hk. destruct (mapM object_item (children x)) as [l|e]; [|discriminate].
      cbn [bind app] in Hk. exists (Some (catSomes l)). split; [exists (catSomes l); eauto|exact Hk].
    - exists None. split; [reflexivity|exact Hk]. }
  assert (S6 : forall (k : bool * (list relation_group) -> result (content * lookup * list exn)),
    bind (match find_child "SPEC-RELATION-GROUPS" n with
          | Some x => let! s := foldM relation_group_body (children x) [] in Ok (true, s)
          | None => Ok (false, []) end) k = Ok (c, lk, xs) ->
    exists o, sec_facts n "SPEC-RELATION-GROUPS" o (fun k l => mapM parse_relation_group k = Ok l)
      /\ k (match o with Some _ => true | None => false end, olist o) = Ok (c, lk, xs)).
  { intros k Hk. unfold sec_facts. destruct (find_child "SPEC-RELATION-GROUPS" n) as [x|].
    - rewrite fold_relation_groups in Hk. destruct (mapM parse_relation_group (children x)) as [l|e]; [|discriminate].
      cbn [bind app] in Hk. exists (Some l). split; [exists l; auto|exact Hk].
    - exists None. split; [reflexivity|exact Hk]. }
  apply S1 in H. destruct H as (o1 & F1 & H). cbv beta iota in H.
  apply S2 in H. destruct H as (o2 & F2 & H). cbv beta iota in H.
  apply S3 in H. destruct H as (o3 & F3 & H). cbv beta iota in H.
  apply S4 in H. destruct H as (o4 & ol & F4 & H). cbv beta iota in H.
  apply S5 in H. destruct H as (o5 & F5 & H). cbv beta iota in H.
  apply S6 in H. destruct H as (o6 & F6 & H). cbv beta iota in H.
  assert (W : forall A (o : option (list A)), when_ (match o with Some _ => true | None => false end) (olist o) = o)
    by (intros A [l|]; reflexivity).
  rewrite !W in H. injection H as <- <- <-.
  constructor; cbn; auto. exists ol. auto.
Qed.

(** ** The bundle *)
Lemma parse_string_content s b :
  parse_string s = Ok b ->
  match document_content s with
  | Some rc => exists c, b_core_content b = Some (Some c)
                         /\ content_facts rc c (b_lookup b) (b_exceptions b)
  | None => (b_core_content b = None \/ b_core_content b = Some None)
            /\ b_lookup b = lookup_empty /\ b_exceptions b = []
  end.
Proof.
  rewrite (proj2 (string_traced s)). unfold pure_string, document_content.
  destruct s as [|x s]; [discriminate|]. destruct (lxml_parse (x :: s)) as [[decl root]|]; [|discriminate].
  unfold pure_reqif. destruct (strip_if_namespaced root) as [r|e]; [|discriminate]. cbn [bind].
  destruct (tag_is "REQ-IF" r); [|discriminate]. cbn [negb].
  destruct (children r) as [|k0 ks] eqn:EK.
  { intros H. injection H as <-. destruct (find_child "CORE-CONTENT" r) as [cc|] eqn:EC.
    - exfalso. apply (find_child_children _ _ _ EC EK).
    - cbn. auto. }
  intros H.
  destruct (match find_child "THE-HEADER" r with
            | Some h => let! x0 := parse_header h in Ok (Some x0) | None => Ok None end) as [hd|e]; [|discriminate].
  cbn [bind] in H. destruct (find_child "CORE-CONTENT" r) as [cc|].
  - destruct (find_child "REQ-IF-CONTENT" cc) as [rc|].
    + destruct (pure_content rc) as [[[ct lk] xs]|e] eqn:EP; [|discriminate].
      cbn in H. injection H as <-. exists ct. split; [reflexivity|]. apply pure_content_facts, EP.
    + cbn in H. injection H as <-. cbn. auto.
  - cbn in H. injection H as <-. cbn. auto.
Qed.
Lemma parse_cb_string cb s h h' b :
  parse_from_string cb s h = (h', Ok b) -> parse_string s = Ok b.
Proof.
  intros H. destruct (proj1 (string_traced s)) as (evs & rest & _ & _ & HN & HS).
  change (parse_string s) with (pure (fun cb => parse_from_string cb s)).
  destruct cb as [c|].
  - rewrite HS in H. clear -H. revert h H. generalize (pure (fun cb => parse_from_string cb s)).
    induction evs as [|e evs IH]; intros r h H; cbn in H; [congruence|].
    destruct (c h e); [discriminate|]. eapply IH, H.
  - rewrite HN in H. congruence.
Qed.

Lemma parse_lookup s b :
  parse_string s = Ok b ->
  lk_data_types (b_lookup b) = fill (fun x => Some (dt_id x)) (fun x => x) (b_list rc_data_types b) []
  /\ lk_spec_types (b_lookup b) = fill (fun x => Some (st_identifier x)) (fun x => x) (b_list rc_spec_types b) []
  /\ lk_spec_objects (b_lookup b) = fill (fun x => Some (so_identifier x)) (fun x => x) (b_list rc_spec_objects b) []
  /\ lk_parents (b_lookup b) = fill_parents (b_list rc_spec_relations b) []
  /\ lk_parents_default (b_lookup b) = match bundle_content b with Some _ => true | None => false end.
Proof.
  intros H. apply parse_string_content in H. unfold b_list, bundle_content.
  destruct (document_content s) as [rc|].
  - destruct H as (c & -> & F). rewrite (cf_lk _ _ _ _ F). cbn. auto.
  - destruct H as ([-> | ->] & -> & _); cbn; auto.
Qed.

(** ** Levels *)
Lemma mapM_children_mapM {B} (f : node -> result B) l :
  mapM_children f l = mapM f (filter (fun k => negb (is_chr k)) l).
Proof.
  induction l as [|k l IH]; [reflexivity|]. destruct k; cbn; rewrite <- ?IH; reflexivity.
Qed.
Lemma mapM_children_Forall {B} (f : node -> result B) (P : node -> Prop) (Q : B -> Prop) l l' :
  (forall k x, P k -> f k = Ok x -> Q x) -> Forall P l ->
  mapM_children f l = Ok l' -> Forall Q l'.
Proof.
  intros HPQ HF. rewrite mapM_children_mapM. intros H. apply mapM_Ok in H.
  assert (HF' : Forall P (filter (fun k => negb (is_chr k)) l)).
  { apply Forall_forall. intros x Hx. apply filter_In in Hx. rewrite Forall_forall in HF. apply HF, Hx. }
  clear HF. induction H as [|x y l1 l2 Hxy _ IH]; [constructor|]. inversion HF'; subst.
  constructor; [eapply HPQ; eauto|]. auto.
Qed.
Lemma node_ind' (P : node -> Prop) :
  (forall c, P (Chr c)) -> (forall s, P (Cmt s)) -> (forall s, P (Pin s)) ->
  (forall ns l d i a k, Forall P k -> P (El ns l d i a k)) -> forall n, P n.
Proof.
  intros H1 H2 H3 H4. fix F 1. intros [c|ns l d i a k|s|s]; [apply H1| |apply H2|apply H3].
  apply H4. induction k as [|x k IH]; constructor; [apply F|exact IH].
Qed.
(** Strong induction: the property of all proper descendants *)
Fixpoint nsize (n : node) : nat :=
  match n with El _ _ _ _ _ k => S (list_sum (map nsize k)) | _ => 1 end.
Lemma nsize_in k l : In k l -> nsize k <= list_sum (map nsize l).
Proof.
  induction l as [|x l IH]; [intros []|]. cbn [map list_sum fold_right]. unfold list_sum in *.
  cbn [fold_right]. intros [->|H]; [lia|]. specialize (IH H). lia.
Qed.
Lemma node_strong_ind (P : node -> Prop) :
  (forall n, (forall m, nsize m < nsize n -> P m) -> P n) -> forall n, P n.
Proof.
  intros IH n. remember (nsize n) as s eqn:E. assert (L : nsize n <= s) by lia. clear E.
  revert n L. induction s as [|s IHs]; intros n L; apply IH; intros m Hm; [lia|]. apply IHs. lia.
Qed.

Lemma parse_hier_leveled n : forall level h, parse_hier level n = Ok h -> leveled level h.
Proof.
  induction n as [n IH] using node_strong_ind. intros level h H.
  destruct n as [c|ns l d i a kids|s|s]; cbn [parse_hier] in H; try discriminate.
  set (nd := El ns l d i a kids) in *.
  destruct (py_assert _); [|discriminate]. cbn [bind] in H.
  destruct (or_not_impl _); [|discriminate]. cbn [bind] in H.
  destruct (find_req "OBJECT" nd); [|discriminate]. cbn [bind] in H.
  destruct (find_req "SPEC-OBJECT-REF" _); [|discriminate]. cbn [bind] in H.
  match goal with H : bind (?g kids) _ = Ok h |- _ => set (go := g) in * end.
  assert (Hgo : forall ks, incl ks kids -> forall ch, go ks = Ok ch ->
            match ch with Some hs => Forall (leveled (S level)) hs | None => True end).
  { induction ks as [|k ks IHk]; intros Hin ch Hc.
    - cbn in Hc. injection Hc as <-. exact I.
    - assert (Hks : incl ks kids) by (intros x Hx; apply Hin; right; exact Hx).
      destruct k as [c|ns' l' d' i' a' kk|s|s]; cbn in Hc; fold go in Hc; try (apply (IHk Hks _ Hc)).
      destruct (str_eqb _ _) in Hc; [|apply (IHk Hks _ Hc)].
      destruct (mapM_children (parse_hier (S level)) kk) as [hs|e] eqn:EM; [|discriminate].
      cbn in Hc. injection Hc as <-.
      eapply (mapM_children_Forall _ (fun m => nsize m < nsize nd)); [|  |exact EM].
      + intros m x Hm Hx. eapply IH; eauto.
      + apply Forall_forall. intros m Hm.
        assert (H1 : nsize m <= list_sum (map nsize kk)) by (apply nsize_in, Hm).
        assert (H2 : nsize (El ns' l' d' i' a' kk) <= list_sum (map nsize kids))
          by (apply nsize_in, Hin; left; reflexivity).
        cbn [nsize] in H2. unfold nd. cbn [nsize]. lia. }
  destruct (go kids) as [ch|e] eqn:EG; [|discriminate]. cbn [bind] in H. injection H as <-.
  specialize (Hgo kids (incl_refl _) ch EG). apply leveled_eq. cbn [h_level h_kids h_children].
  split; [reflexivity|]. unfold h_kids. cbn [h_children]. destruct ch; [exact Hgo|constructor].
Qed.
Lemma parse_specification_leveled n sp :
  parse_specification n = Ok sp -> Forall (leveled 1) (olist (sp_children sp)).
Proof.
  unfold parse_specification. intros H.
  destruct (tag_contains _ _) as [[|]|]; try discriminate. cbn [bind py_assert] in H.
  destruct (or_not_impl _); [|discriminate]. cbn [bind] in H.
  destruct (last_child "CHILDREN" n) as [c|].
  - destruct (mapM (parse_hier 1) (children c)) as [hs|e] eqn:EM; [|discriminate]. cbn [bind] in H.
    destruct (parse_attribute_values _); [|discriminate]. cbn [bind] in H. injection H as <-. cbn.
    apply mapM_Ok in EM. clear -EM. induction EM as [|x y l l' H _ IH]; constructor; auto.
    eapply parse_hier_leveled, H.
  - cbn [bind] in H. destruct (parse_attribute_values _); [|discriminate]. cbn [bind] in H.
    injection H as <-. constructor.
Qed.
