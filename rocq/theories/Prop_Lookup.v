(** Prop_Lookup.v -- C11, C12, C13, C14: lookups and maps *)
From Verif Require Import Base Xml Utf8 Lxml Py LxmlStr Models AttrDef SpecTypes Progress Parser
  BundleModel SpecTraversal SpecProgress SpecLookup SpecIdentifiers DictProofs ParserProofs.

(** ** C11 *)
Lemma index_last {A} (key : A -> str) l r a :
  dict_index (fill (fun x => Some (key x)) (fun x => x) l []) (Some r) = Ok a <-> is_last_with key l r a.
Proof.
  unfold dict_index.
  assert (E : is_last_with key l r a <-> is_last_with (fun x => Some (key x)) l (Some r) a).
  { split; intros (l1 & l2 & H1 & H2 & H3); exists l1, l2; (split; [exact H1|]).
    - split; [congruence|]. intros x Hx Hk. injection Hk as Hk. apply (H3 x Hx Hk).
    - split; [congruence|]. intros x Hx Hk. apply (H3 x Hx). congruence. }
  rewrite E, <- fill_last. destruct (dict_get _ _); split; congruence.
Qed.
Lemma index_missing {A} (key : A -> str) l r e :
  dict_index (fill (fun x => Some (key x)) (fun x => x) l []) (Some r) = Raise e
  <-> e = EKeyError /\ ~ In r (map key l).
Proof.
  unfold dict_index. pose proof (fill_none (fun x => Some (key x)) (fun x : A => x) l (Some r)) as F.
  rewrite in_map_iff. destruct (dict_get _ _) as [v|].
  - split; [discriminate|]. intros [_ H]. exfalso. assert (N : Some v = None); [|discriminate].
    apply F. intros x Hx Hk. apply H. exists x. split; [congruence|exact Hx].
  - split; [|intros [-> _]; reflexivity]. intros H. injection H as <-. split; [reflexivity|].
    intros (x & Hk & Hx). apply (proj1 F eq_refl x Hx). congruence.
Qed.

Theorem C11_spec_object_lookup_finds_last :
  forall s b r o, parse_string s = Ok b ->
    (get_spec_object_by_ref (b_lookup b) (Some r) = Ok o
     <-> is_last_with so_identifier (spec_objects_of b) r o).
Proof.
  intros s b r o H. destruct (parse_lookup s b H) as (_ & _ & E & _).
  unfold get_spec_object_by_ref. rewrite E. apply index_last.
Qed.
Theorem C11_spec_object_lookup_fails_only_if_absent :
  forall s b r e, parse_string s = Ok b ->
    (get_spec_object_by_ref (b_lookup b) (Some r) = Raise e
     <-> e = EKeyError /\ ~ In r (map so_identifier (spec_objects_of b))).
Proof.
  intros s b r o H. destruct (parse_lookup s b H) as (_ & _ & E & _).
  unfold get_spec_object_by_ref. rewrite E. apply index_missing.
Qed.
Theorem C11_spec_object_exists :
  forall s b r, parse_string s = Ok b ->
    (spec_object_exists (b_lookup b) (Some r) = true
     <-> In r (map so_identifier (spec_objects_of b))).
Proof.
  intros s b r H. destruct (parse_lookup s b H) as (_ & _ & E & _).
  unfold spec_object_exists. rewrite E, fill_mem, in_map_iff.
  split; intros (x & H1 & H2); exists x; first [split; [congruence|exact H1] | split; [exact H2|congruence]].
Qed.
Theorem C11_data_type_lookup :
  forall s b r, parse_string s = Ok b ->
    (forall d, get_data_type_by_ref (b_lookup b) (Some r) = Ok d
               <-> is_last_with data_type_identifier (data_types_of b) r d)
    /\ (forall e, get_data_type_by_ref (b_lookup b) (Some r) = Raise e
                  <-> e = EKeyError /\ ~ In r (map data_type_identifier (data_types_of b))).
Proof.
  intros s b r H. change data_type_identifier with dt_id. destruct (parse_lookup s b H) as (E & _).
  unfold get_data_type_by_ref. rewrite E. split; intros; [apply index_last|apply index_missing].
Qed.
Theorem C11_spec_type_lookup :
  forall s b r, parse_string s = Ok b ->
    (forall d, get_spec_type_by_ref (b_lookup b) (Some r) = Ok d
               <-> is_last_with spec_type_identifier (spec_types_of b) r d)
    /\ (forall e, get_spec_type_by_ref (b_lookup b) (Some r) = Raise e
                  <-> e = EKeyError /\ ~ In r (map spec_type_identifier (spec_types_of b))).
Proof.
  intros s b r H. change spec_type_identifier with st_identifier. destruct (parse_lookup s b H) as (_ & E & _).
  unfold get_spec_type_by_ref. rewrite E. split; intros; [apply index_last|apply index_missing].
Qed.

(** ** C12: any session of queries *)
Inductive query := QParents (r : option str) | QObject (r : option str) | QExists (r : option str)
                 | QDataType (r : option str) | QSpecType (r : option str).
Inductive answer := AParents (a : result (list (option str))) | AObject (a : result spec_object)
                  | AExists (a : bool) | ADataType (a : result data_type)
                  | ASpecType (a : result spec_type).
Definition ask (l : lookup) (q : query) : lookup * answer :=
  match q with
  | QParents r => let (l', a) := get_spec_object_parents l r in (l', AParents a)
  | QObject r => (l, AObject (get_spec_object_by_ref l r))
  | QExists r => (l, AExists (spec_object_exists l r))
  | QDataType r => (l, ADataType (get_data_type_by_ref l r))
  | QSpecType r => (l, ASpecType (get_spec_type_by_ref l r))
  end.
Fixpoint session (l : lookup) (qs : list query) : list answer :=
  match qs with
  | [] => []
  | q :: qs' => let (l', a) := ask l q in a :: session l' qs'
  end.

(** Every parents query is answered with the targets of the relations that have
    this source; every other query is answered as on the fresh lookup. *)
Theorem C12_parents_lookup_in_any_session :
  forall s b c qs, parse_string s = Ok b -> bundle_content b = Some c ->
    session (b_lookup b) qs =
    map (fun q => match q with
                  | QParents r => AParents (Ok (targets_from r (relations_of b)))
                  | _ => snd (ask (b_lookup b) q)
                  end) qs.
Proof.
  intros s b c qs H HC. destruct (parse_lookup s b H) as (_ & _ & _ & EP & ED).
  rewrite HC in ED. set (lk0 := b_lookup b) in *.
  assert (G : forall r, match dict_get (lk_parents lk0) r with Some v => v | None => [] end
                        = targets_from r (relations_of b)).
  { intros r. rewrite EP, fill_parents_get. cbn [dict_get]. unfold targets_from, relations_of.
    destruct (map _ _); reflexivity. }
  assert (I : forall l, lk_data_types l = lk_data_types lk0 -> lk_spec_types l = lk_spec_types lk0 ->
     lk_spec_objects l = lk_spec_objects lk0 -> lk_parents_default l = true ->
     (forall r, match dict_get (lk_parents l) r with Some v => v | None => [] end
                = targets_from r (relations_of b)) ->
     session l qs = map (fun q => match q with
                  | QParents r => AParents (Ok (targets_from r (relations_of b)))
                  | _ => snd (ask lk0 q) end) qs).
  { induction qs as [|q qs IH]; intros l H1 H2 H3 H4 H5; [reflexivity|].
    cbn [session map]. destruct q as [r|r|r|r|r]; cbn [ask snd].
    - unfold get_spec_object_parents. pose proof (H5 r) as Hr.
      destruct (dict_get (lk_parents l) r) as [v|] eqn:E.
      + rewrite Hr. f_equal. apply IH; assumption.
      + rewrite H4. rewrite <- Hr. f_equal. apply IH; cbn; auto.
        intros q. rewrite dict_get_set. destruct (ostr_eqb_spec q r) as [->|]; [exact Hr|apply H5].
    - unfold get_spec_object_by_ref at 1. rewrite H3. f_equal. apply IH; assumption.
    - unfold spec_object_exists at 1. rewrite H3. f_equal. apply IH; assumption.
    - unfold get_data_type_by_ref at 1. rewrite H1. f_equal. apply IH; assumption.
    - unfold get_spec_type_by_ref at 1. rewrite H2. f_equal. apply IH; assumption. }
  apply I; auto.
Qed.
(** Content is necessary: without it every parents query raises KeyError. *)
Theorem C12_without_content :
  forall s b r, parse_string s = Ok b -> bundle_content b = None ->
    get_spec_object_parents (b_lookup b) r = (b_lookup b, Raise EKeyError).
Proof.
  intros s b r H HC. destruct (parse_lookup s b H) as (_ & _ & _ & EP & ED). rewrite HC in ED.
  unfold get_spec_object_parents. rewrite ED, EP. unfold b_list. rewrite HC. reflexivity.
Qed.

(** ** C13 *)
Lemma first_type l r t :
  (fix go (l : list spec_type) : option spec_object_type :=
     match l with
     | [] => None
     | STObject t :: l' => if str_eqb (sot_identifier t) r then Some t else go l'
     | _ :: l' => go l'
     end) l = t
  <-> find (fun t => str_eqb (sot_identifier t) r) (object_types l) = t.
Proof.
  assert (E : (fix go (l : list spec_type) : option spec_object_type :=
     match l with
     | [] => None
     | STObject t :: l' => if str_eqb (sot_identifier t) r then Some t else go l'
     | _ :: l' => go l'
     end) l = find (fun t => str_eqb (sot_identifier t) r) (object_types l)).
  { induction l as [|[x|x|x|x] l IH]; cbn; try exact IH; [reflexivity|].
    destruct (str_eqb _ _); [reflexivity|exact IH]. }
  rewrite E. reflexivity.
Qed.
Lemma find_first_with {A} (key : A -> str) l r a :
  find (fun x => str_eqb (key x) r) l = Some a <-> is_first_with key l r a.
Proof.
  rewrite find_first. split; intros (l1 & l2 & H1 & H2 & H3); exists l1, l2.
  - split; [exact H1|]. split; [apply str_eqb_eq, H2|]. intros x Hx Ek.
    apply str_eqb_eq in Ek. rewrite (H3 x Hx) in Ek. discriminate.
  - split; [exact H1|]. split; [apply str_eqb_eq, H2|]. intros x Hx.
    destruct (str_eqb_spec (key x) r) as [Ek|]; [exfalso; apply (H3 x Hx Ek)|reflexivity].
Qed.
Lemma type_by_ref b r :
  get_spec_object_type_by_ref b r =
  find (fun t => str_eqb (sot_identifier t) r) (object_types (spec_types_of b)).
Proof.
  unfold get_spec_object_type_by_ref, spec_types_of, b_list, bundle_content.
  destruct (b_core_content b) as [[c|]|]; try reflexivity.
  destruct (rc_spec_types c) as [l|]; [|reflexivity]. cbn [olist]. apply first_type. reflexivity.
Qed.

Theorem C13_type_lookup_finds_first :
  forall b r t, get_spec_object_type_by_ref b r = Some t
    <-> is_first_with sot_identifier (object_types (spec_types_of b)) r t.
Proof. intros b r t. rewrite type_by_ref. apply find_first_with. Qed.
Theorem C13_type_lookup_none :
  forall b r, get_spec_object_type_by_ref b r = None
    <-> ~ In r (map sot_identifier (object_types (spec_types_of b))).
Proof.
  intros b r. rewrite type_by_ref, find_none, in_map_iff. split.
  - intros H (x & Hk & Hx). specialize (H x Hx). rewrite Hk, str_eqb_refl in H. discriminate.
  - intros H x Hx. destruct (str_eqb_spec (sot_identifier x) r) as [E|]; [|reflexivity].
    exfalso. apply H. exists x. auto.
Qed.
Lemma object_types_app a b : object_types (a ++ b) = object_types a ++ object_types b.
Proof. induction a as [|[x|x|x|x] a IH]; cbn; try exact IH; [reflexivity|]. rewrite IH. reflexivity. Qed.
Lemma object_types_In t l : In t (object_types l) <-> In (STObject t) l.
Proof.
  induction l as [|[x|x|x|x] l IH]; cbn; try tauto.
  - rewrite IH. split; intros [H|H]; auto; left; congruence.
  - rewrite IH. split; [auto|]. intros [H|H]; [discriminate|exact H].
  - rewrite IH. split; [auto|]. intros [H|H]; [discriminate|exact H].
  - rewrite IH. split; [auto|]. intros [H|H]; [discriminate|exact H].
Qed.
Lemma unique_key {A} (key : A -> str) l x y :
  NoDup (map key l) -> In x l -> In y l -> key x = key y -> x = y.
Proof.
  induction l as [|z l IH]; intros ND Hx Hy E; [destruct Hx|]. cbn in ND. inversion ND; subst.
  destruct Hx as [->|Hx], Hy as [->|Hy]; auto.
  - exfalso. apply H1. rewrite E. apply in_map, Hy.
  - exfalso. apply H1. rewrite <- E. apply in_map, Hx.
Qed.
Theorem C13_lookups_agree_on_unique_identifiers :
  forall s b r t, parse_string s = Ok b ->
    NoDup (map spec_type_identifier (spec_types_of b)) ->
    (get_spec_object_type_by_ref b r = Some t
     <-> get_spec_type_by_ref (b_lookup b) (Some r) = Ok (STObject t)).
Proof.
  intros s b r t H ND. change spec_type_identifier with st_identifier in ND. rewrite (proj1 (C11_spec_type_lookup s b r H)), type_by_ref. split.
  - intros F. apply find_some in F. destruct F as [F1 F2]. apply object_types_In in F1.
    apply str_eqb_eq in F2. destruct (in_split _ _ F1) as (l1 & l2 & E). exists l1, l2.
    split; [exact E|]. split; [exact F2|]. intros x Hx Hk.
    rewrite E, map_app in ND. cbn in ND. apply NoDup_remove_2 in ND. apply ND, in_or_app. right.
    rewrite F2, <- Hk. apply in_map, Hx.
  - intros (l1 & l2 & E & Hk & _). cbn in Hk.
    assert (Hin : In (STObject t) (spec_types_of b)) by (rewrite E; apply in_or_app; right; left; reflexivity).
    destruct (find _ _) as [t'|] eqn:F.
    + apply find_some in F. destruct F as [F1 F2]. apply object_types_In in F1. apply str_eqb_eq in F2.
      assert (X : STObject t' = STObject t); [|congruence].
      apply (unique_key st_identifier _ _ _ ND F1 Hin). cbn. congruence.
    + exfalso. apply (proj1 (DictProofs.find_none _ _)) with (x := t) in F; [|apply object_types_In, Hin].
      rewrite Hk, str_eqb_refl in F. discriminate.
Qed.
Definition dup_types : str :=
  "<REQ-IF><CORE-CONTENT><REQ-IF-CONTENT><SPEC-TYPES>" ++
  "<SPEC-OBJECT-TYPE IDENTIFIER=""t"" LONG-NAME=""one""/>" ++
  "<SPEC-OBJECT-TYPE IDENTIFIER=""t"" LONG-NAME=""two""/>" ++
  "</SPEC-TYPES></REQ-IF-CONTENT></CORE-CONTENT></REQ-IF>".
Theorem C13_lookups_disagree_on_duplicates_refuted :
  exists s b r t t', parse_string s = Ok b
    /\ get_spec_object_type_by_ref b r = Some t
    /\ get_spec_type_by_ref (b_lookup b) (Some r) = Ok (STObject t') /\ t <> t'.
Proof.
  exists dup_types. eexists. exists "t". eexists. eexists.
  split; [vm_compute; reflexivity|]. split; [vm_compute; reflexivity|].
  split; [vm_compute; reflexivity|]. discriminate.
Qed.

(** ** C14 *)
Lemma last_map {A} (key : A -> str) l r a :
  dict_get (fold_left (fun m x => dict_set m (Some (key x)) x) l []) (Some r) = Some a
  <-> is_last_with key l r a.
Proof.
  change (fold_left _ l []) with (fill (fun x => Some (key x)) (fun x => x) l []).
  pose proof (index_last key l r a) as H. unfold dict_index in H. rewrite <- H.
  destruct (dict_get _ _); split; congruence.
Qed.
Lemma mem_map {A} (key : A -> str) l r :
  dict_mem (fold_left (fun m x => dict_set m (Some (key x)) x) l []) r = true
  <-> exists i, r = Some i /\ In i (map key l).
Proof.
  change (fold_left _ l []) with (fill (fun x => Some (key x)) (fun x => x) l []).
  rewrite fill_mem. split.
  - intros (x & Hx & <-). exists (key x). split; [reflexivity|apply in_map, Hx].
  - intros (i & -> & H). apply in_map_iff in H. destruct H as (x & <- & Hx). exists x. auto.
Qed.
Theorem C14_spec_object_attribute_map :
  forall o d, 
    (forall a, dict_get (so_attribute_map o) d = Some a <-> is_last_with sa_definition_ref (so_attributes o) d a)
    /\ (dict_mem (so_attribute_map o) d = true <-> In d (map sa_definition_ref (so_attributes o))).
Proof.
  intros o d. split.
  - intros a. apply fill_last.
  - change (so_attribute_map o) with (fill sa_definition_ref (fun x => x) (so_attributes o) []).
    rewrite fill_mem, in_map_iff. split; intros (x & H1 & H2); exists x; auto.
Qed.
Theorem C14_spec_object_type_attribute_map :
  forall t r l, sot_attribute_definitions t = Some l ->
    (forall a, dict_get (sot_attribute_map t) (Some r) = Some a <-> is_last_with ad_identifier l r a)
    /\ (forall k, dict_mem (sot_attribute_map t) k = true <-> exists i, k = Some i /\ In i (map ad_identifier l)).
Proof.
  intros t r l E. unfold sot_attribute_map. rewrite E. split; intros; [apply last_map|apply mem_map].
Qed.
Theorem C14_spec_object_type_without_definitions :
  forall t k, sot_attribute_definitions t = None -> dict_mem (sot_attribute_map t) k = false.
Proof. intros t k E. unfold sot_attribute_map. rewrite E. reflexivity. Qed.
Theorem C14_enumeration_values_map :
  forall l r,
    (forall v, dict_get (values_map (Some l)) (Some r) = Some v <-> is_last_with ev_identifier l r v)
    /\ (forall k, dict_mem (values_map (Some l)) k = true <-> exists i, k = Some i /\ In i (map ev_identifier l)).
Proof. intros l r. split; intros; [apply last_map|apply mem_map]. Qed.

Lemma combine_app {A B} (a1 a2 : list A) (b1 b2 : list B) :
  length a1 = length b1 -> combine (a1 ++ a2) (b1 ++ b2) = combine a1 b1 ++ combine a2 b2.
Proof.
  revert b1. induction a1 as [|x a1 IH]; intros [|y b1] H; try discriminate; [reflexivity|].
  cbn. rewrite IH; [reflexivity|]. cbn in H. lia.
Qed.
Lemma fill_attribute_map_ok l m m' :
  fill_attribute_map l m = Ok m' ->
  exists lns, map ad_long_name l = map Some lns
    /\ m' = fill (fun p => Some (ad_identifier (fst p))) snd (combine l lns) m.
Proof.
  revert m. induction l as [|a l IH]; intros m H; cbn in H.
  - injection H as <-. exists []. auto.
  - destruct (ad_long_name a) as [ln|] eqn:E; [|discriminate]. destruct (IH _ H) as (lns & H1 & H2).
    exists (ln :: lns). cbn. rewrite E, H1. auto.
Qed.
(** A parsed SPECIFICATION-TYPE maps each attribute definition's identifier to
    the LONG-NAME of the last definition with that identifier. *)
Theorem C14_specification_type_map :
  forall n t l, parse_specification_type n = Ok t -> spt_spec_attributes t = Some l ->
    exists m, spt_spec_attribute_map t = Some m
      /\ (forall r ln, dict_get m (Some r) = Some ln
            <-> exists a, is_last_with ad_identifier l r a /\ ad_long_name a = Some ln)
      /\ (forall k, dict_mem m k = true <-> exists i, k = Some i /\ In i (map ad_identifier l)).
Proof.
  intros n t l H HL. unfold parse_specification_type in H.
  destruct (py_assert _); [|discriminate]. cbn [bind] in H.
  destruct (or_not_impl (attr_req "IDENTIFIER" n)); [|discriminate]. cbn [bind] in H.
  destruct (or_not_impl (attr_req "LAST-CHANGE" n)); [|discriminate]. cbn [bind] in H.
  destruct (parse_attribute_definitions n) as [ads|]; [|discriminate]. cbn [bind] in H.
  destruct (match ads with Some l => _ | None => _ end) as [m|] eqn:EM; [|discriminate].
  cbn [bind] in H. injection H as <-. cbn in HL. subst ads.
  apply fill_attribute_map_ok in EM. destruct EM as (lns & EL & ->).
  exists (fill (fun p => Some (ad_identifier (fst p))) snd (combine l lns) []). split; [reflexivity|].
  assert (G : forall l lns, map ad_long_name l = map Some lns ->
     forall r, option_map snd (find (fun p => ostr_eqb (Some (ad_identifier (fst p))) (Some r)) (rev (combine l lns)))
       = match find (fun a => str_eqb (ad_identifier a) r) (rev l) with
         | Some a => ad_long_name a | None => None end).
  { clear. induction l as [|a l IH] using rev_ind; intros lns E r.
    - destruct lns; [reflexivity|discriminate].
    - destruct lns as [|ln lns _] using rev_ind.
      + rewrite map_app in E. destruct (map ad_long_name l); discriminate.
      + rewrite !map_app in E. apply app_inj_tail in E. destruct E as [E1 E2].
        rewrite combine_app.
        * rewrite !rev_app_distr. cbn. destruct (str_eqb (ad_identifier a) r); [rewrite E2; reflexivity|].
          apply IH, E1.
        * rewrite <- (map_length ad_long_name), E1, map_length. reflexivity. }
  split.
  - intros r ln. rewrite fill_get, (G l lns EL r).
    assert (W : forall a, is_last_with ad_identifier l r a
              <-> find (fun a => str_eqb (ad_identifier a) r) (rev l) = Some a).
    { intros x0. rewrite find_last. split; intros (l1 & l2 & H1 & H2 & H3); exists l1, l2.
      - split; [exact H1|]. split; [apply str_eqb_eq, H2|]. intros x Hx.
        destruct (str_eqb_spec (ad_identifier x) r) as [Ek|]; [exfalso; apply (H3 x Hx Ek)|reflexivity].
      - split; [exact H1|]. split; [apply str_eqb_eq, H2|]. intros x Hx Ek.
        apply str_eqb_eq in Ek. rewrite (H3 x Hx) in Ek. discriminate. }
    destruct (find _ (rev l)) as [x1|].
    + split; [intros H; exists x1; split; [apply W; reflexivity|exact H]|].
      intros (a' & Ha & Hn). apply W in Ha. congruence.
    + split; [discriminate|]. intros (x1 & Ha & _). apply W in Ha. discriminate.
  - intros k. rewrite fill_mem.
    assert (LN : length l = length lns) by (rewrite <- (map_length ad_long_name), EL, map_length; reflexivity).
    split.
    + intros ([x1 ln] & Hin & <-). exists (ad_identifier x1). split; [reflexivity|].
      apply in_map. eapply in_combine_l, Hin.
    + intros (i & -> & Hi). apply in_map_iff in Hi. destruct Hi as (x1 & <- & Ha).
      clear -LN Ha. revert lns LN. induction l as [|x l IH]; intros [|ln lns] LN; try discriminate; [destruct Ha|].
      destruct Ha as [->|Ha].
      * exists (x1, ln). split; [left; reflexivity|reflexivity].
      * destruct (IH Ha lns) as (p & Hp & Ep); [cbn in LN; lia|]. exists p. split; [right; exact Hp|exact Ep].
Qed.

(** ** A document in which every lookup is exercised *)
Definition lookup_text : str :=
  "<REQ-IF><CORE-CONTENT><REQ-IF-CONTENT>" ++
  "<DATATYPES><DATATYPE-DEFINITION-DATE IDENTIFIER=""d1""/></DATATYPES>" ++
  "<SPEC-TYPES><SPEC-RELATION-TYPE IDENTIFIER=""rt"" LONG-NAME=""rel""/>" ++
  "<SPECIFICATION-TYPE IDENTIFIER=""st"" LAST-CHANGE=""x""><SPEC-ATTRIBUTES>" ++
  "<ATTRIBUTE-DEFINITION-DATE IDENTIFIER=""a1"" LONG-NAME=""A""><TYPE><DATATYPE-DEFINITION-DATE-REF>d1</DATATYPE-DEFINITION-DATE-REF></TYPE></ATTRIBUTE-DEFINITION-DATE>" ++
  "</SPEC-ATTRIBUTES></SPECIFICATION-TYPE>" ++
  "<SPEC-OBJECT-TYPE IDENTIFIER=""t1""/></SPEC-TYPES>" ++
  "<SPEC-OBJECTS>" ++
  "<SPEC-OBJECT IDENTIFIER=""o1"" LONG-NAME=""first""><TYPE><SPEC-OBJECT-TYPE-REF>t1</SPEC-OBJECT-TYPE-REF></TYPE></SPEC-OBJECT>" ++
  "<SPEC-OBJECT IDENTIFIER=""o2""><TYPE><SPEC-OBJECT-TYPE-REF>t1</SPEC-OBJECT-TYPE-REF></TYPE></SPEC-OBJECT>" ++
  "<SPEC-OBJECT IDENTIFIER=""o1"" LONG-NAME=""second""><TYPE><SPEC-OBJECT-TYPE-REF>t1</SPEC-OBJECT-TYPE-REF></TYPE></SPEC-OBJECT>" ++
  "</SPEC-OBJECTS>" ++
  "<SPEC-RELATIONS>" ++
  "<SPEC-RELATION IDENTIFIER=""r1""><TYPE><SPEC-RELATION-TYPE-REF>rt</SPEC-RELATION-TYPE-REF></TYPE><SOURCE><SPEC-OBJECT-REF>o1</SPEC-OBJECT-REF></SOURCE><TARGET><SPEC-OBJECT-REF>o2</SPEC-OBJECT-REF></TARGET></SPEC-RELATION>" ++
  "<SPEC-RELATION IDENTIFIER=""r2""><TYPE><SPEC-RELATION-TYPE-REF>rt</SPEC-RELATION-TYPE-REF></TYPE><SOURCE><SPEC-OBJECT-REF>o1</SPEC-OBJECT-REF></SOURCE><TARGET><SPEC-OBJECT-REF>o3</SPEC-OBJECT-REF></TARGET></SPEC-RELATION>" ++
  "</SPEC-RELATIONS>" ++
  "</REQ-IF-CONTENT></CORE-CONTENT></REQ-IF>".
Definition with_bundle {A} (s : str) (f : bundle -> A) : option A :=
  match parse_string s with Ok b => Some (f b) | Raise _ => None end.
Example C11_example :
  with_bundle lookup_text (fun b => (map so_identifier (spec_objects_of b),
     match get_spec_object_by_ref (b_lookup b) (Some "o1") with Ok o => so_long_name o | _ => None end,
     match get_spec_object_by_ref (b_lookup b) (Some "zz") with Raise EKeyError => true | _ => false end,
     spec_object_exists (b_lookup b) (Some "o2"), spec_object_exists (b_lookup b) (Some "zz")))
  = Some (["o1"; "o2"; "o1"], Some "second", true, true, false).
Proof. vm_compute. reflexivity. Qed.
Example C12_example :
  with_bundle lookup_text (fun b => session (b_lookup b)
     [QParents (Some "o1"); QParents (Some "zz"); QParents (Some "zz"); QParents (Some "o1"); QExists (Some "o2")])
  = Some [AParents (Ok [Some "o2"; Some "o3"]); AParents (Ok []); AParents (Ok []);
          AParents (Ok [Some "o2"; Some "o3"]); AExists true].
Proof. vm_compute. reflexivity. Qed.
Example C13_example :
  with_bundle lookup_text (fun b => (map st_identifier (spec_types_of b),
     get_spec_object_type_by_ref b "t1", get_spec_object_type_by_ref b "rt"))
  = Some (["rt"; "st"; "t1"], Some (SpecObjectType "t1" None None None None), None).
Proof. vm_compute. reflexivity. Qed.
Example C14_example :
  with_bundle lookup_text (fun b => match spec_types_of b with
     | [_; STSpecification t; _] => spt_spec_attribute_map t | _ => None end)
  = Some (Some [(Some "a1", "A")]).
Proof. vm_compute. reflexivity. Qed.
Example C14_example_duplicates :
  let a v := SpecAttr AT_STRING (Some "d") (VStr v) None None in
  dict_get (so_attribute_map (SpecObject "o" [a "1"; a "2"] (Some "t") None None None None)) (Some "d") = Some (a "2").
Proof. reflexivity. Qed.

Print Assumptions C11_spec_object_lookup_finds_last.
Print Assumptions C11_spec_object_lookup_fails_only_if_absent.
Print Assumptions C11_spec_object_exists.
Print Assumptions C11_data_type_lookup.
Print Assumptions C11_spec_type_lookup.
Print Assumptions C12_parents_lookup_in_any_session.
Print Assumptions C12_without_content.
Print Assumptions C13_type_lookup_finds_first.
Print Assumptions C13_type_lookup_none.
Print Assumptions C13_lookups_agree_on_unique_identifiers.
Print Assumptions C13_lookups_disagree_on_duplicates_refuted.
Print Assumptions C14_spec_object_attribute_map.
Print Assumptions C14_spec_object_type_attribute_map.
Print Assumptions C14_spec_object_type_without_definitions.
Print Assumptions C14_enumeration_values_map.
Print Assumptions C14_specification_type_map.
