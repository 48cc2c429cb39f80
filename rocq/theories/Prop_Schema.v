(** Prop_Schema.v -- C42, C43: ReqIFSchema *)
From Verif Require Import Base Py Models SpecLookup SpecIdentifiers SpecTraversal DictProofs Schema SpecSchema.

Definition types_ok (ts : list spec_object_type) : Prop :=
  forall t, In t ts -> sot_long_name t <> None /\ sot_attribute_definitions t <> None.
Definition last_opt {A} (p : A -> bool) (l : list A) (o : option A) : option A :=
  fold_left (fun o x => if p x then Some x else o) l o.
Definition heading_p (t : spec_object_type) : bool := ostr_eqb (sot_long_name t) (Some "Heading").
Definition chapter_p (a : attr_def) : bool := ostr_eqb (ad_long_name a) (Some "ReqIF.ChapterName").
Definition defs_of (ts : list spec_object_type) : list attr_def :=
  flat_map (fun t => olist (sot_attribute_definitions t)) ts.

Lemma scan_attributes l : forall s,
  fold_left scan_attribute l s =
  Scan (fill (fun a => Some (ad_identifier a)) (fun a => a) l (sn_attributes s)) (sn_names s) (sn_heading s)
       (last_opt chapter_p l (sn_chapter s)) (sn_polarion s).
Proof.
  induction l as [|a l IH]; intros s; [destruct s; reflexivity|]. cbn [fold_left]. rewrite IH. reflexivity.
Qed.
Lemma scan_types_ok l : forall s,
  types_ok (object_types l) ->
  exists s', scan_types s l = Ok s'
    /\ sn_attributes s' = fill (fun a => Some (ad_identifier a)) (fun a => a) (defs_of (object_types l)) (sn_attributes s)
    /\ sn_heading s' = last_opt heading_p (object_types l) (sn_heading s)
    /\ sn_chapter s' = last_opt chapter_p (defs_of (object_types l)) (sn_chapter s)
    /\ sn_polarion s' = existsb heading_p (object_types l) || sn_polarion s
    /\ sn_names s' = fill (fun t => Some (sot_identifier t)) (fun t => fmt (sot_long_name t)) (object_types l) (sn_names s).
Proof.
  induction l as [|[t|t|t|t] l IH]; intros s H; cbn [scan_types object_types] in *; try (apply IH; exact H).
  { exists s. repeat split. }
  destruct (H t) as [H1 H2]; [left; reflexivity|]. unfold scan_type.
  destruct (sot_long_name t) as [ln|] eqn:EL; [|congruence].
  destruct (sot_attribute_definitions t) as [ds|] eqn:ED; [|congruence]. cbn [bind]. rewrite scan_attributes.
  destruct (IH (Scan (fill (fun a => Some (ad_identifier a)) (fun a => a) ds (sn_attributes s))
      (dict_set (sn_names s) (Some (sot_identifier t)) ln) (if str_eqb ln "Heading" then Some t else sn_heading s)
      (last_opt chapter_p ds (sn_chapter s)) (if str_eqb ln "Heading" then true else sn_polarion s)))
    as (s' & E0 & E1 & E2 & E3 & E4 & E5).
  { intros x Hx. apply H. right. exact Hx. }
  exists s'. cbn [sn_attributes sn_heading sn_chapter sn_polarion sn_names] in *.
  split; [exact E0|]. unfold defs_of in *. cbn [flat_map]. rewrite ED. cbn [olist].
  split; [rewrite E1, fill_app; reflexivity|].
  split; [rewrite E2; unfold last_opt; cbn [fold_left]; unfold heading_p at 3; rewrite EL; reflexivity|].
  split; [rewrite E3; unfold last_opt; rewrite fold_left_app; reflexivity|].
  split; [rewrite E4; cbn [existsb]; unfold heading_p at 2; rewrite EL; cbn [ostr_eqb]; destruct (str_eqb ln "Heading"), (existsb heading_p (object_types l)); reflexivity|].
  rewrite E5. unfold fill. cbn [fold_left]. rewrite EL. reflexivity.
Qed.
Lemma scan_types_inv l : forall s s', scan_types s l = Ok s' -> types_ok (object_types l).
Proof.
  induction l as [|[t|t|t|t] l IH]; intros s s' H; cbn [scan_types object_types] in *; try (eapply IH; exact H).
  { intros x []. }
  unfold scan_type in H. destruct (sot_long_name t) as [ln|] eqn:EL; [|discriminate].
  destruct (sot_attribute_definitions t) as [ds|] eqn:ED; [|discriminate]. cbn [bind] in H.
  intros x [<-|Hx]; [rewrite EL, ED; split; discriminate|]. eapply IH; eassumption.
Qed.
Lemma scan_types_raise l : forall s e, scan_types s l = Raise e -> e = EAssertionError.
Proof.
  induction l as [|[t|t|t|t] l IH]; intros s e H; cbn [scan_types] in H; try (eapply IH; exact H); [discriminate|].
  unfold scan_type in H. destruct (sot_long_name t) as [ln|]; [|cbn in H; congruence].
  destruct (sot_attribute_definitions t) as [ds|]; [|cbn in H; congruence]. cbn [bind] in H. eapply IH; exact H.
Qed.
Theorem C42_construction_succeeds_iff_complete :
  forall b, (exists s, make_schema b = Ok s) <-> complete b.
Proof.
  intros b. unfold make_schema, complete. split.
  - intros (s & H). destruct (b_core_content b) as [[c|]|]; try discriminate.
    destruct (rc_spec_types c) as [ts|] eqn:ET; [|discriminate].
    destruct (scan_types _ ts) as [sn|] eqn:ES; [|discriminate]. cbn [bind] in H.
    destruct (rc_data_types c) as [ds|] eqn:ED; [|discriminate].
    exists c, ts, ds. repeat split; try assumption; apply (scan_types_inv _ _ _ ES); assumption.
  - intros (c & ts & ds & -> & -> & ED & H). destruct (scan_types_ok ts (Scan [] [] None None false) H) as (s' & -> & _).
    cbn [bind]. rewrite ED. eauto.
Qed.
Theorem C42_construction_fails_with_assertion :
  forall b e, make_schema b = Raise e -> e = EAssertionError.
Proof.
  intros b e. unfold make_schema. destruct (b_core_content b) as [[c|]|]; try congruence.
  destruct (rc_spec_types c) as [ts|]; [|congruence].
  destruct (scan_types _ ts) as [sn|x] eqn:ES; cbn [bind].
  - destruct (rc_data_types c); congruence.
  - intros H. injection H as <-. eapply scan_types_raise. exact ES.
Qed.
Lemma schema_fields b s : make_schema b = Ok s ->
  sc_spec_object_type_attributes s = fill (fun a => Some (ad_identifier a)) (fun a => a) (all_attribute_definitions b) []
  /\ sc_heading s = last_opt heading_p (object_types (spec_types_of b)) None
  /\ sc_chapter s = last_opt chapter_p (all_attribute_definitions b) None
  /\ sc_polarion s = existsb heading_p (object_types (spec_types_of b))
  /\ sc_spec_object_type_names s = fill (fun t => Some (sot_identifier t)) (fun t => fmt (sot_long_name t)) (object_types (spec_types_of b)) []
  /\ sc_data_type_definitions s = fill (fun d => Some (dt_id d)) (fun d => d) (data_types_of b) []
  /\ types_ok (object_types (spec_types_of b)).
Proof.
  unfold make_schema, all_attribute_definitions, spec_types_of, data_types_of, b_list, bundle_content. intros H.
  destruct (b_core_content b) as [[c|]|]; try discriminate.
  destruct (rc_spec_types c) as [ts|] eqn:ET; [|discriminate]. cbn [olist].
  destruct (scan_types _ ts) as [sn|] eqn:ES; [|discriminate]. cbn [bind] in H.
  destruct (rc_data_types c) as [ds|] eqn:ED; [|discriminate]. injection H as <-.
  pose proof (scan_types_inv _ _ _ ES) as TO.
  destruct (scan_types_ok ts (Scan [] [] None None false) TO) as (s' & E0 & E1 & E2 & E3 & E4 & E5).
  rewrite E0 in ES. injection ES as <-. cbn [sc_spec_object_type_attributes sc_heading sc_chapter sc_polarion sc_spec_object_type_names sc_data_type_definitions].
  cbn in E4. rewrite orb_false_r in E4. repeat split; try assumption; apply TO; assumption.
Qed.
Lemma last_opt_some {A} (p : A -> bool) l : forall o,
  match last_opt p l o with
  | Some x => (exists l1 l2, l = l1 ++ x :: l2 /\ p x = true /\ (forall y, In y l2 -> p y = false))
              \/ (o = Some x /\ forall y, In y l -> p y = false)
  | None => o = None /\ forall y, In y l -> p y = false
  end.
Proof.
  unfold last_opt. induction l as [|a l IH]; intros o; cbn [fold_left].
  { destruct o; [right|]; split; auto; intros y []. }
  specialize (IH (if p a then Some a else o)). destruct (fold_left _ l _) as [x|].
  - destruct IH as [(l1 & l2 & -> & H1 & H2)|[H1 H2]].
    + left. exists (a :: l1), l2. auto.
    + destruct (p a) eqn:E.
      * injection H1 as ->. left. exists [], l. auto.
      * right. split; [exact H1|]. intros y [<-|Hy]; auto.
  - destruct IH as [H1 H2]. destruct (p a) eqn:E; [discriminate|]. split; [exact H1|]. intros y [<-|Hy]; auto.
Qed.
Lemma last_opt_last {A} (key : A -> option str) k l x :
  last_opt (fun a => ostr_eqb (key a) k) l None = Some x <-> is_last_with key l k x.
Proof.
  pose proof (last_opt_some (fun a => ostr_eqb (key a) k) l None) as H. unfold is_last_with. split.
  - intros E. rewrite E in H. destruct H as [(l1 & l2 & -> & H1 & H2)|[H1 _]]; [|discriminate].
    exists l1, l2. split; [reflexivity|]. apply ostr_eqb_eq in H1. split; [exact H1|].
    intros y Hy E2. apply H2 in Hy. rewrite E2, ostr_eqb_refl in Hy. discriminate.
  - intros (l1 & l2 & -> & H1 & H2). unfold last_opt. rewrite fold_left_app. cbn [fold_left]. rewrite H1, ostr_eqb_refl.
    clear H. induction l2 as [|y l2 IH]; [reflexivity|]. cbn [fold_left].
    destruct (ostr_eqb (key y) k) eqn:E; [|apply IH; intros z Hz; apply H2; right; exact Hz].
    apply ostr_eqb_eq in E. exfalso. apply (H2 y); [left; reflexivity|exact E].
Qed.
Lemma last_opt_none {A} (key : A -> option str) k l :
  last_opt (fun a => ostr_eqb (key a) k) l None = None <-> (forall x, In x l -> key x <> k).
Proof.
  pose proof (last_opt_some (fun a => ostr_eqb (key a) k) l None) as H. split.
  - intros E. rewrite E in H. intros x Hx EX. apply (proj2 H) in Hx. rewrite EX, ostr_eqb_refl in Hx. discriminate.
  - intros HN. destruct (last_opt _ l None) as [x|]; [|reflexivity]. exfalso.
    destruct H as [(l1 & l2 & -> & H1 & H2)|[H1 _]]; [|discriminate]. apply ostr_eqb_eq in H1.
    apply (HN x); [apply in_or_app; right; left; reflexivity|exact H1].
Qed.
(** A Heading type decides; the last one counts. *)
Theorem C42_heading_type_decides :
  forall b s t o, make_schema b = Ok s ->
    is_last_with sot_long_name (object_types (spec_types_of b)) (Some "Heading") t ->
    is_spec_object_a_heading s o = true <-> so_spec_object_type o = Some (sot_identifier t).
Proof.
  intros b s t o H HL. destruct (schema_fields b s H) as (_ & EH & _). unfold is_spec_object_a_heading.
  apply (last_opt_last sot_long_name) in HL. unfold heading_p in EH. rewrite HL in EH. rewrite EH. apply ostr_eqb_eq.
Qed.
(** Without one, the last ReqIF.ChapterName attribute decides. *)
Theorem C42_chapter_name_decides :
  forall b s a o, make_schema b = Ok s ->
    (forall t, In t (object_types (spec_types_of b)) -> sot_long_name t <> Some "Heading") ->
    is_last_with ad_long_name (all_attribute_definitions b) (Some "ReqIF.ChapterName") a ->
    is_spec_object_a_heading s o = true <->
    exists v, In v (so_attributes o) /\ sa_definition_ref v = Some (ad_identifier a).
Proof.
  intros b s a o H HN HL. destruct (schema_fields b s H) as (_ & EH & EC & _). unfold is_spec_object_a_heading.
  apply (last_opt_none sot_long_name) in HN. unfold heading_p in EH. rewrite HN in EH. rewrite EH.
  apply (last_opt_last ad_long_name) in HL. unfold chapter_p in EC. rewrite HL in EC. rewrite EC.
  exact (fill_mem sa_definition_ref (fun x => x) (so_attributes o) (Some (ad_identifier a))).
Qed.
(** Otherwise nothing is a heading. *)
Theorem C42_no_heading_otherwise :
  forall b s o, make_schema b = Ok s ->
    (forall t, In t (object_types (spec_types_of b)) -> sot_long_name t <> Some "Heading") ->
    (forall a, In a (all_attribute_definitions b) -> ad_long_name a <> Some "ReqIF.ChapterName") ->
    is_spec_object_a_heading s o = false.
Proof.
  intros b s o H HN HC. destruct (schema_fields b s H) as (_ & EH & EC & _). unfold is_spec_object_a_heading.
  apply (last_opt_none sot_long_name) in HN. unfold heading_p in EH. rewrite HN in EH. rewrite EH.
  apply (last_opt_none ad_long_name) in HC. unfold chapter_p in EC. rewrite HC in EC. rewrite EC. reflexivity.
Qed.
(** The three tables and the schema kind. *)
Theorem C42_tables :
  forall b s, make_schema b = Ok s ->
    (forall i d, dict_get (sc_data_type_definitions s) (Some i) = Some d <-> is_last_with data_type_identifier (data_types_of b) i d)
    /\ (forall i n, dict_get (sc_spec_object_type_names s) (Some i) = Some n <->
          exists t, is_last_with sot_identifier (object_types (spec_types_of b)) i t /\ sot_long_name t = Some n)
    /\ (forall i a, dict_get (sc_spec_object_type_attributes s) (Some i) = Some a <->
          is_last_with ad_identifier (all_attribute_definitions b) i a)
    /\ (sc_polarion s = true <-> exists t, In t (object_types (spec_types_of b)) /\ sot_long_name t = Some "Heading").
Proof.
  change data_type_identifier with dt_id. intros b s H. destruct (schema_fields b s H) as (EA & _ & _ & EP & EN & ED & TO).
  assert (LW : forall (A : Type) (key : A -> str) l i x, is_last_with (fun a => Some (key a)) l (Some i) x <-> is_last_with key l i x).
  { intros A key l i x. unfold is_last_with. split; intros (l1 & l2 & -> & H1 & H2); exists l1, l2; split; try reflexivity;
      (split; [congruence|]); intros y Hy E; apply (H2 y Hy); congruence. }
  split; [|split; [|split]].
  - intros i d. rewrite ED, fill_last. apply LW.
  - intros i n. rewrite EN, fill_get.
    assert (X : forall t, find (fun t => ostr_eqb (Some (sot_identifier t)) (Some i)) (rev (object_types (spec_types_of b))) = Some t
                 <-> is_last_with sot_identifier (object_types (spec_types_of b)) i t).
    { intros t. rewrite <- LW, <- fill_last, fill_get.
      destruct (find _ (rev (object_types (spec_types_of b)))); cbn; split; congruence. }
    destruct (find _ (rev (object_types (spec_types_of b)))) as [t|] eqn:F; cbn [option_map].
    + pose proof (proj1 (X t) eq_refl) as HL. split.
      * intros E. injection E as <-. exists t. split; [exact HL|]. destruct HL as (l1 & l2 & EL & _).
        destruct (TO t) as [HT _]; [rewrite EL; apply in_or_app; right; left; reflexivity|].
        destruct (sot_long_name t); [reflexivity|congruence].
      * intros (t' & HL' & E). apply X in HL'. injection HL' as <-. rewrite E. reflexivity.
    + split; [discriminate|]. intros (t' & HL' & _). apply X in HL'. discriminate.
  - intros i a. rewrite EA, fill_last. apply LW.
  - rewrite EP. rewrite existsb_exists. unfold heading_p. split; intros (t & H1 & H2); exists t; split; try exact H1; apply ostr_eqb_eq; exact H2.
Qed.

(** ** C43 *)
Lemma unique_fields_snoc x l : forall seen,
  unique_fields seen (l ++ [x]) =
  unique_fields seen l ++ (if ostr_mem (ad_long_name x) (seen ++ map ad_long_name l) then [] else [(ad_long_name x, at_name (ad_type x))]).
Proof.
  assert (MEM : forall k (s1 s2 : list (option str)), (forall z, In z s1 <-> In z s2) -> ostr_mem k s1 = ostr_mem k s2).
  { intros k s1 s2 E. destruct (ostr_mem k s1) eqn:E1, (ostr_mem k s2) eqn:E2; try reflexivity; exfalso.
    - apply ostr_mem_In, E, ostr_mem_In in E1. congruence.
    - apply ostr_mem_In, E, ostr_mem_In in E2. congruence. }
  induction l as [|a l IH]; intros seen; cbn [app unique_fields map].
  - rewrite app_nil_r. destruct (ostr_mem (ad_long_name x) seen); reflexivity.
  - destruct (ostr_mem (ad_long_name a) seen) eqn:E.
    + rewrite IH. f_equal. rewrite (MEM _ (seen ++ map ad_long_name l) (seen ++ ad_long_name a :: map ad_long_name l)); [reflexivity|].
      apply ostr_mem_In in E. intros z. rewrite !in_app_iff. cbn. intuition (subst; auto).
    + cbn [app]. f_equal. rewrite IH. f_equal.
      rewrite (MEM _ ((ad_long_name a :: seen) ++ map ad_long_name l) (seen ++ ad_long_name a :: map ad_long_name l)); [reflexivity|].
      intros z. cbn [app]. rewrite !in_app_iff. cbn. rewrite !in_app_iff. tauto.
Qed.
Lemma unique_fields_spec l :
  distinct_in_order (map ad_long_name l) (map fst (unique_fields [] l))
  /\ forall n t, In (n, t) (unique_fields [] l) -> exists a, is_first_with ad_long_name l n a /\ t = at_name (ad_type a).
Proof.
  induction l as [|x l [IH1 IH2]] using rev_ind; [split; [constructor|intros ? ? []]|].
  rewrite unique_fields_snoc, map_app. cbn [app map].
  assert (IN : forall n a, is_first_with ad_long_name l n a -> is_first_with ad_long_name (l ++ [x]) n a).
  { intros n a (l1 & l2 & -> & H1 & H2). exists l1, (l2 ++ [x]). rewrite <- app_assoc. auto. }
  destruct (ostr_mem (ad_long_name x) (map ad_long_name l)) eqn:E.
  - rewrite app_nil_r. split.
    + apply dio_old; [exact IH1|]. apply ostr_mem_In, E.
    + intros n t H. destruct (IH2 n t H) as (a & H1 & H2). eauto.
  - assert (N : ~ In (ad_long_name x) (map ad_long_name l)) by (intros H; apply ostr_mem_In in H; congruence).
    rewrite map_app. cbn [map fst]. split.
    + apply dio_new; assumption.
    + intros n t H. apply in_app_or in H. destruct H as [H|[H|[]]].
      * destruct (IH2 n t H) as (a & H1 & H2). eauto.
      * injection H as <- <-. exists x. split; [|reflexivity]. exists l, []. split; [reflexivity|]. split; [reflexivity|].
        intros y Hy EY. apply N. rewrite <- EY. apply in_map, Hy.
Qed.
Lemma NoDup_app_snoc {A} (l : list A) x : NoDup l -> ~ In x l -> NoDup (l ++ [x]).
Proof.
  intros H N. apply NoDup_rev in H. rewrite <- (rev_involutive (l ++ [x])). apply NoDup_rev. rewrite rev_app_distr. cbn.
  constructor; [|exact H]. intros X. apply N, in_rev, X.
Qed.
Lemma distinct_map_inv {A B} (f : A -> B) : (forall x y, f x = f y -> x = y) ->
  forall l out, distinct_in_order (map f l) (map f out) -> distinct_in_order l out.
Proof.
  intros INJ l out H. remember (map f l) as l' eqn:EL. remember (map f out) as out' eqn:EO.
  revert l out EL EO. induction H as [|l' out' x H IH N|l' out' x H IH I]; intros l out EL EO.
  - destruct l; [|discriminate]. destruct out; [|discriminate]. constructor.
  - destruct l as [|a l _] using rev_ind; [destruct l'; discriminate|]. rewrite map_app in EL. cbn in EL. apply app_inj_tail in EL.
    destruct EL as [-> ->]. destruct out as [|c out _] using rev_ind; [destruct out'; discriminate|]. rewrite map_app in EO. cbn in EO.
    apply app_inj_tail in EO. destruct EO as [-> EX]. apply INJ in EX. subst c. apply dio_new; [apply IH; reflexivity|].
    intros X. apply N. apply in_map, X.
  - destruct l as [|a l _] using rev_ind; [destruct l'; discriminate|]. rewrite map_app in EL. cbn in EL. apply app_inj_tail in EL.
    destruct EL as [-> ->]. apply dio_old; [apply IH; [reflexivity|exact EO]|]. apply in_map_iff in I. destruct I as (y & EY & HY).
    apply INJ in EY. subst. exact HY.
Qed.
Lemma first_uses_In (l : list (option str)) k : In k (first_uses ostr_eqb [] l) <-> In k l.
Proof.
  assert (G : forall l seen, In k (first_uses ostr_eqb seen l) <-> In k l /\ ~ In k seen).
  { clear l. induction l as [|x l IH]; intros seen; cbn; [tauto|]. destruct (existsb (ostr_eqb x) seen) eqn:E.
    - rewrite IH. apply (ostr_mem_In x seen) in E. split; [tauto|]. intros [[->|H] N]; [contradiction|auto].
    - assert (N : ~ In x seen) by (intros H; apply (ostr_mem_In x seen) in H; unfold ostr_mem in H; congruence).
      cbn. rewrite IH, in_app_iff. cbn. split.
      + intros [->|[H1 H2]]; [auto|]. split; [auto|]. tauto.
      + intros [[->|H] H2]; [auto|]. destruct (ostr_eqb k x) eqn:EX; [apply ostr_eqb_eq in EX; auto|].
        right. split; [exact H|]. intros [H3|[->|[]]]; [auto|]. rewrite ostr_eqb_refl in EX. discriminate. }
  rewrite G. cbn. tauto.
Qed.
Lemma fill_values_spec l :
  distinct_in_order (map ad_identifier l) (map ad_identifier (dict_values (fill (fun a => Some (ad_identifier a)) (fun a => a) l [])))
  /\ (forall a, In a (dict_values (fill (fun a => Some (ad_identifier a)) (fun a => a) l [])) -> is_last_with ad_identifier l (ad_identifier a) a).
Proof.
  set (K := fun a : attr_def => Some (ad_identifier a)).
  assert (KEYS : forall l, map (fun a => Some (ad_identifier a)) (dict_values (fill K (fun a => a) l [])) = dict_keys (fill K (fun a => a) l [])
                 /\ NoDup (dict_keys (fill K (fun a => a) l []))).
  { clear l. intros l. assert (G : forall l d, map K (dict_values d) = dict_keys d -> NoDup (dict_keys d) ->
       map K (dict_values (fill K (fun a => a) l d)) = dict_keys (fill K (fun a => a) l d) /\ NoDup (dict_keys (fill K (fun a => a) l d))).
    { clear l. induction l as [|x l IH]; intros d H1 H2; [auto|].
      change (fill K (fun a => a) (x :: l) d) with (fill K (fun a => a) l (dict_set d (K x) x)). apply IH.
      - clear IH H2. unfold dict_values, dict_keys in *. induction d as [|[k v] d IHd]; [reflexivity|]. cbn in H1. injection H1 as H1a H1b.
        cbn [dict_set]. destruct (ostr_eqb (K x) k) eqn:E.
        + apply ostr_eqb_eq in E. cbn. congruence.
        + cbn. rewrite IHd by exact H1b. congruence.
      - rewrite dict_keys_set. destruct (ostr_mem (K x) (dict_keys d)) eqn:E; [exact H2|].
        apply NoDup_app_snoc; [exact H2|]. intros H. apply ostr_mem_In in H. congruence. }
    apply G; [reflexivity|constructor]. }
  split.
  - apply (distinct_map_inv Some); [congruence|]. rewrite !map_map. rewrite (proj1 (KEYS l)).
    clear KEYS. induction l as [|x l IH] using rev_ind; [constructor|].
    rewrite map_app, fill_app. cbn [map]. unfold fill at 1. cbn [fold_left]. rewrite dict_keys_set.
    fold (K x). assert (MK : forall k, ostr_mem k (dict_keys (fill K (fun a => a) l [])) = true <-> In k (map K l)).
    { intros k. rewrite ostr_mem_In, fill_keys. cbn [dict_keys map app]. apply first_uses_In. }
    destruct (ostr_mem (K x) (dict_keys (fill K (fun a => a) l []))) eqn:E.
    + apply dio_old; [exact IH|]. apply MK, E.
    + apply dio_new; [exact IH|]. intros H. apply MK in H. congruence.
  - intros a H. destruct (KEYS l) as [K1 K2]. apply in_map_iff in H. destruct H as ([k v] & EV & H). cbn in EV. subst v.
    assert (EK : k = K a).
    { unfold dict_values, dict_keys in K1. rewrite map_map in K1. clear K2. induction (fill K (fun a => a) l []) as [|[k' v'] d IH]; [destruct H|].
      cbn in K1. injection K1 as E1 E2. destruct H as [H|H]; [injection H as -> ->; symmetry; exact E1|auto]. }
    subst k. assert (G : dict_get (fill K (fun a => a) l []) (K a) = Some a).
    { clear K1. induction (fill K (fun a => a) l []) as [|[k' v'] d IH]; [destruct H|]. cbn [dict_get]. destruct H as [H|H].
      - injection H as -> ->. rewrite ostr_eqb_refl. reflexivity.
      - inversion K2; subst. destruct (ostr_eqb (K a) k') eqn:E; [|auto]. apply ostr_eqb_eq in E. exfalso. apply H2. rewrite <- E.
        apply in_map_iff. exists (K a, a). auto. }
    apply fill_last in G. destruct G as (l1 & l2 & -> & H1 & H2). exists l1, l2. split; [reflexivity|]. split; [reflexivity|].
    intros y Hy E. apply (H2 y Hy). unfold K. congruence.
Qed.

(** Each name is yielded once, in order of first appearance among the collected
    definitions, with the type of its first definition.  Collected are, per
    identifier in order of first appearance, the last definition. *)
Theorem C43_unique_field_names :
  forall b s, make_schema b = Ok s ->
    exists defs,
      distinct_in_order (map ad_identifier (all_attribute_definitions b)) (map ad_identifier defs)
      /\ (forall a, In a defs -> is_last_with ad_identifier (all_attribute_definitions b) (ad_identifier a) a)
      /\ distinct_in_order (map ad_long_name defs) (map fst (iterate_unique_field_names s))
      /\ (forall n t, In (n, t) (iterate_unique_field_names s) ->
            exists a, is_first_with ad_long_name defs n a /\ t = at_name (ad_type a)).
Proof.
  intros b s H. destruct (schema_fields b s H) as (EA & _). unfold iterate_unique_field_names. rewrite EA.
  eexists. split; [apply (proj1 (fill_values_spec (all_attribute_definitions b)))|].
  split; [apply (proj2 (fill_values_spec (all_attribute_definitions b)))|]. apply unique_fields_spec.
Qed.
Lemma distinct_id {A} (l out : list A) : distinct_in_order l out -> NoDup l -> out = l.
Proof.
  induction 1 as [|l out x H IH N|l out x H IH I]; intros ND; [reflexivity| |].
  - f_equal. apply IH. apply NoDup_remove_1 in ND. rewrite app_nil_r in ND. exact ND.
  - exfalso. apply NoDup_remove_2 in ND. rewrite app_nil_r in ND. contradiction.
Qed.
Lemma distinct_nodup {A} (l out : list A) : distinct_in_order l out -> NoDup out /\ (forall x, In x out <-> In x l).
Proof.
  induction 1 as [|l out x H [IH1 IH2] N|l out x H [IH1 IH2] I].
  - split; [constructor|tauto].
  - split; [apply NoDup_app_snoc; [exact IH1|rewrite IH2; exact N]|]. intros y. rewrite !in_app_iff, IH2. reflexivity.
  - split; [exact IH1|]. intros y. rewrite in_app_iff, IH2. cbn. split; [auto|]. intros [H1|[->|[]]]; auto.
Qed.
(** With distinct identifiers every definition counts. *)
Theorem C43_unique_field_names_distinct_identifiers :
  forall b s, make_schema b = Ok s -> NoDup (map ad_identifier (all_attribute_definitions b)) ->
    distinct_in_order (map ad_long_name (all_attribute_definitions b)) (map fst (iterate_unique_field_names s))
    /\ NoDup (map fst (iterate_unique_field_names s))
    /\ (forall n, In n (map fst (iterate_unique_field_names s)) <-> exists a, In a (all_attribute_definitions b) /\ ad_long_name a = n).
Proof.
  intros b s H ND. destruct (C43_unique_field_names b s H) as (defs & H1 & H2 & H3 & _).
  apply distinct_id in H1; [|exact ND].
  assert (E : defs = all_attribute_definitions b).
  { clear H3. assert (HI : forall a, In a defs -> In a (all_attribute_definitions b)).
    { intros a Ha. destruct (H2 a Ha) as (l1 & l2 & -> & _). apply in_or_app. right. left. reflexivity. }
    clear H2 H. revert HI H1 ND. generalize (all_attribute_definitions b) as l. 
    assert (G : forall l1 l2 : list attr_def, (forall a, In a l1 -> In a l2) -> map ad_identifier l1 = map ad_identifier l2 ->
        NoDup (map ad_identifier l2) -> l1 = l2).
    { induction l1 as [|x l1 IH]; intros [|y l2] HI E ND'; try discriminate; [reflexivity|].
      cbn in E. injection E as E1 E2. cbn in ND'. inversion ND'; subst.
      assert (x = y). { destruct (HI x (or_introl eq_refl)) as [->|HX]; [reflexivity|]. exfalso. apply H1. rewrite <- E1. apply in_map, HX. }
      subst y. f_equal. apply IH; [|exact E2|assumption]. intros a Ha. destruct (HI a (or_intror Ha)) as [->|HX]; [|exact HX].
      exfalso. apply H1. rewrite <- E2. apply in_map, Ha. }
    intros l HI E ND'. apply G; assumption. }
  subst defs. split; [exact H3|]. destruct (distinct_nodup _ _ H3) as [N1 N2]. split; [exact N1|].
  intros n. rewrite N2, in_map_iff. split; intros (a & A1 & A2); eauto.
Qed.

(** ** Concrete cases *)
Definition ex_def (i n : str) (t : attr_type) : attr_def := AttrDef t i None None None None (Some n) None None DVNone None.
Definition ex_types (heading : str) : list spec_type :=
  [STObject (SpecObjectType "T1" None None (Some "Requirement")
     (Some [ex_def "A1" "ReqIF.ChapterName" AT_XHTML; ex_def "A2" "Text" AT_STRING]));
   STRelation (SpecRelationType "R1" None None None true None);
   STObject (SpecObjectType "T2" None None (Some heading)
     (Some [ex_def "A3" "Text" AT_XHTML; ex_def "A4" "ReqIF.ChapterName" AT_STRING]))].
Definition ex_bundle (heading : str) : bundle :=
  Bundle namespace_info_default None
    (Some (Some (Content (Some []) (Some (ex_types heading)) None None None None))) false lookup_empty [].
Definition ex_object (t a : str) : spec_object :=
  SpecObject "O" [SpecAttr AT_STRING (Some a) (VStr "v") None None] (Some t) None None None None.
Definition headings (b : bundle) : option (list bool) :=
  match make_schema b with
  | Ok s => Some (map (is_spec_object_a_heading s) [ex_object "T1" "A1"; ex_object "T1" "A4"; ex_object "T2" "A2"])
  | Raise _ => None
  end.
Example C42_example :
  headings (ex_bundle "Heading") = Some [false; false; true] /\ headings (ex_bundle "Other") = Some [false; true; false]
  /\ complete (ex_bundle "Heading").
Proof.
  split; [vm_compute; reflexivity|]. split; [vm_compute; reflexivity|]. apply C42_construction_succeeds_iff_complete.
  eexists. vm_compute. reflexivity.
Qed.
Example C43_example :
  match make_schema (ex_bundle "Heading") with
  | Ok s => iterate_unique_field_names s = [(Some "ReqIF.ChapterName", "XHTML"); (Some "Text", "STRING")]
  | Raise _ => False
  end.
Proof. vm_compute. reflexivity. Qed.

Print Assumptions C42_construction_succeeds_iff_complete.
Print Assumptions C42_construction_fails_with_assertion.
Print Assumptions C42_heading_type_decides.
Print Assumptions C42_chapter_name_decides.
Print Assumptions C42_no_heading_otherwise.
Print Assumptions C42_tables.
Print Assumptions C43_unique_field_names.
Print Assumptions C43_unique_field_names_distinct_identifiers.
