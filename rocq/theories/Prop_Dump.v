(** Prop_Dump.v -- C48: what the dump command puts on its page *)
From Verif Require Import Base Xml Utf8 Lxml Py LxmlStr Models Progress Parser BundleModel SpecTraversal
  SpecLookup DictProofs ParserProofs TraversalProofs Prop_Lookup SpecValidate Dump SpecDump.

Lemma Ok_inj {A} (x y : A) : Ok x = Ok y -> x = y.
Proof. congruence. Qed.
Section Dump.
Variable repr_list : list (option str) -> str.

Lemma tables_list k g b :
  hierarchy_tables repr_list k g b =
  let! ts := mapM (hierarchy_table repr_list b) (consume k g) in Ok (concat ts).
Proof.
  revert g. induction k as [|k IH]; intros g; [reflexivity|]. cbn.
  destruct (gen_next g) as [[h g']|]; [|reflexivity]. cbn. rewrite IH.
  destruct (hierarchy_table repr_list b h); [|reflexivity]. cbn.
  destruct (mapM _ _); reflexivity.
Qed.
Definition section_of (b : bundle) (sp : specification) : result str :=
  let! ts := mapM (hierarchy_table repr_list b) (fpreorder (olist (sp_children sp))) in
  Ok (t21 ++ fmt (sp_long_name sp) ++ t22 ++ concat ts ++ t31).
Lemma sections_list b pre l :
  bundle_specifications b = Some (pre ++ l) ->
  specification_sections repr_list l (length pre) b =
  let! ss := mapM (section_of b) l in Ok (concat ss).
Proof.
  revert pre. induction l as [|sp l IH]; intros pre H; [reflexivity|]. cbn [specification_sections].
  unfold iterate_specification_hierarchy. rewrite H.
  rewrite nth_error_app2, Nat.sub_diag by lia. cbn [nth_error bind].
  rewrite tables_list, consume_preorder. cbn [resume g_yielded g_deque].
  fold (olist (sp_children sp)).
  rewrite firstn_all2 by (rewrite length_fpreorder; lia).
  replace (S (length pre)) with (length (pre ++ [sp])) by (rewrite app_length; cbn; lia).
  rewrite (IH (pre ++ [sp])) by (rewrite <- app_assoc; exact H).
  cbn [mapM]. unfold section_of at 2.
  destruct (mapM (hierarchy_table repr_list b) _); [|reflexivity]. cbn [bind].
  destruct (mapM (section_of b) l); [|reflexivity]. cbn [bind concat].
  repeat rewrite <- app_assoc. reflexivity.
Qed.
Lemma flat_map_map {A B C} (f : B -> list C) (g : A -> B) l : flat_map f (map g l) = flat_map (fun x => f (g x)) l.
Proof. induction l as [|x l IH]; [reflexivity|]. cbn. rewrite IH. reflexivity. Qed.
Lemma table_show s b h : parse_string s = Ok b -> forall t,
  hierarchy_table repr_list b h = Ok t <-> exists o, target b h o /\ t = show_table (table_of repr_list o).
Proof.
  intros P t. unfold hierarchy_table, get_spec_object_by_ref, dict_index.
  destruct (parse_lookup s b P) as (_ & _ & E & _). rewrite E. unfold target. fold (spec_objects_of b).
  assert (R : forall o, t23 ++ t24 ++ fmt (so_spec_object_type o) ++ t25 ++ so_identifier o ++ t26
      ++ concat (map (attribute_row repr_list) (so_attributes o)) ++ t30 = show_table (table_of repr_list o)).
  { intros o. unfold show_table, table_of. cbn [tb_type tb_identifier tb_values].
    rewrite flat_map_map, flat_map_concat_map. reflexivity. }
  destruct (dict_get _ (h_spec_object h)) as [o|] eqn:D; cbn [bind].
  - split.
    + intros H. apply Ok_inj in H. subst. exists o. split; [apply fill_last, D|apply R].
    + intros (o' & T & ->). apply fill_last in T. rewrite T in D. injection D as ->. f_equal. apply R.
  - split; [discriminate|]. intros (o & T & _). apply fill_last in T. congruence.
Qed.
Lemma Forall2_ex {A B C} (R : A -> B -> Prop) (f : B -> C) l l' :
  Forall2 (fun x y => exists z, R x z /\ y = f z) l l' <-> exists zs, Forall2 R l zs /\ l' = map f zs.
Proof.
  split.
  - induction 1 as [|x y l l' (z & H1 & H2) _ (zs & H3 & H4)].
    + exists []. split; constructor.
    + exists (z :: zs). split; [constructor; auto|]. cbn. congruence.
  - intros (zs & H & ->). induction H; constructor; eauto.
Qed.
Lemma Forall2_iff {A B} (R S : A -> B -> Prop) l l' :
  (forall x y, R x y <-> S x y) -> Forall2 R l l' <-> Forall2 S l l'.
Proof. intros H. split; induction 1; constructor; auto; apply H; assumption. Qed.
Lemma section_show s b sp : parse_string s = Ok b -> forall t,
  section_of b sp = Ok t <-> exists x, shows_specification repr_list b sp x /\ t = show_specification x.
Proof.
  intros P t. unfold section_of.
  assert (M : forall ts, mapM (hierarchy_table repr_list b) (fpreorder (olist (sp_children sp))) = Ok ts <->
    exists os, Forall2 (target b) (fpreorder (olist (sp_children sp))) os
      /\ ts = map (fun o => show_table (table_of repr_list o)) os).
  { intros ts. rewrite mapM_Ok.
    rewrite (Forall2_iff _ (fun h y => exists o, target b h o /\ y = show_table (table_of repr_list o))).
    - apply Forall2_ex.
    - intros h y. apply (table_show s b h P). }
  split.
  - destruct (mapM _ _) as [ts|]; [|discriminate]. cbn [bind]. intros H. apply Ok_inj in H. subst.
    destruct (proj1 (M ts) eq_refl) as (os & F & ->).
    exists (fmt (sp_long_name sp), map (table_of repr_list) os). split.
    + exists (fpreorder (olist (sp_children sp))), os. split; [apply fpreorder_document_order|]. split; [exact F|reflexivity].
    + unfold show_specification. cbn [fst snd]. rewrite flat_map_map, flat_map_concat_map. reflexivity.
  - intros (x & (nodes & os & D & F & ->) & ->).
    rewrite (document_order_unique _ _ _ D (fpreorder_document_order _)) in F.
    rewrite (proj2 (M (map (fun o => show_table (table_of repr_list o)) os))) by (exists os; auto).
    cbn [bind]. unfold show_specification. cbn [fst snd]. rewrite flat_map_map, flat_map_concat_map. reflexivity.
Qed.

(** The page written for a parsed document shows exactly: the header's title and
    creation time, the identifiers of the data types and of the spec types, and
    for every specification one table per node in document order, with the
    SPEC-OBJECT the node refers to and its values in order.  The command fails if
    there is no such page. *)
Theorem C48_page_shows_the_document :
  forall s b html, parse_string s = Ok b ->
    (dump_html repr_list b = Ok html <-> exists p, shows repr_list b p /\ html = show_page p).
Proof.
  intros s b html P. unfold dump_html, render, shows, if_content.
  destruct (b_core_content b) as [[c|]|] eqn:EC; cbn [bind].
  2:{ split.
      - intros H. apply Ok_inj in H. subst.
        exists (Page (option_map (fun h => (fmt (hd_title h), fmt (hd_creation_time h))) (b_header b)) (Some None)).
        split; [split; reflexivity|]. unfold show_page. cbn [pg_header pg_content].
        destruct (b_header b); cbn [option_map]; repeat rewrite <- app_assoc; reflexivity.
      - intros ([ph pc] & (E1 & E2) & ->). cbn [pg_header pg_content] in *. subst. unfold show_page.
        cbn [pg_header pg_content]. f_equal.
        destruct (b_header b); cbn [option_map]; repeat rewrite <- app_assoc; reflexivity. }
  2:{ split.
      - intros H. apply Ok_inj in H. subst.
        exists (Page (option_map (fun h => (fmt (hd_title h), fmt (hd_creation_time h))) (b_header b)) None).
        split; [split; reflexivity|]. unfold show_page. cbn [pg_header pg_content].
        destruct (b_header b); cbn [option_map]; repeat rewrite <- app_assoc; reflexivity.
      - intros ([ph pc] & (E1 & E2) & ->). cbn [pg_header pg_content] in *. subst. unfold show_page.
        cbn [pg_header pg_content]. f_equal.
        destruct (b_header b); cbn [option_map]; repeat rewrite <- app_assoc; reflexivity. }
  destruct (rc_data_types c) as [ds|] eqn:ED; cbn [for_in].
  2:{ split; [discriminate|]. intros (p & (_ & (ds & ss & sps & l & X & _)) & _). discriminate. }
  rewrite mapM_pure. cbn [bind].
  destruct (rc_spec_types c) as [ss|] eqn:ES; cbn [for_in].
  2:{ split; [discriminate|]. intros (p & (_ & (ds' & ss & sps & l & _ & X & _)) & _). discriminate. }
  rewrite mapM_pure. cbn [bind].
  destruct (rc_specifications c) as [sps|] eqn:EP.
  2:{ split; [discriminate|]. intros (p & (_ & (ds' & ss' & sps & l & _ & _ & X & _)) & _). discriminate. }
  assert (BS : bundle_specifications b = Some ([] ++ sps)).
  { unfold bundle_specifications. rewrite EC. exact EP. }
  rewrite (sections_list b [] sps BS : specification_sections repr_list sps 0 b = _).
  assert (SHOW : forall xs, mapM (section_of b) sps = Ok xs <->
     exists l, Forall2 (shows_specification repr_list b) sps l /\ xs = map show_specification l).
  { intros xs. rewrite mapM_Ok.
    rewrite (Forall2_iff _ (fun sp y => exists o, shows_specification repr_list b sp o /\ y = show_specification o)).
    - apply Forall2_ex.
    - intros sp y. apply (section_show s b sp P). }
  assert (PAGE : forall l,
     (t0 ++ match b_header b with
            | None => []
            | Some h => t1 ++ fmt (hd_title h) ++ t2 ++ fmt (hd_creation_time h) ++ t3 end
        ++ t4 ++ (t5 ++ t6 ++ concat (map (fun d => t7 ++ dt_id d ++ t8) ds) ++ t9 ++ t10)
        ++ t11 ++ (t12 ++ t13 ++ concat (map (fun d => t14 ++ st_identifier d ++ t15) ss) ++ t16 ++ t17)
        ++ t18 ++ (t19 ++ t20 ++ concat (map show_specification l) ++ t32 ++ t33) ++ t34) ++ nl
     = show_page (Page (option_map (fun h => (fmt (hd_title h), fmt (hd_creation_time h))) (b_header b))
                       (Some (Some (map dt_id ds, map st_identifier ss, l))))).
  { intros l. unfold show_page. cbn [pg_header pg_content]. rewrite !flat_map_map, <- !flat_map_concat_map.
    destruct (b_header b); cbn [option_map]; repeat rewrite <- app_assoc; reflexivity. }
  split.
  - destruct (mapM (section_of b) sps) as [xs|]; [|discriminate]. cbn [bind]. intros H. apply Ok_inj in H. subst.
    destruct (proj1 (SHOW xs) eq_refl) as (l & F & ->).
    eexists. split; [|apply PAGE]. split; [reflexivity|]. exists ds, ss, sps, l. auto.
  - intros ([ph pc] & (E1 & (ds' & ss' & sps' & l & X1 & X2 & X3 & F & E2)) & ->).
    cbn [pg_header pg_content] in *. injection X1 as <-. injection X2 as <-. injection X3 as <-. subst ph pc.
    rewrite (proj2 (SHOW (map show_specification l))) by (exists l; auto). cbn [bind].
    f_equal. apply PAGE.
Qed.
End Dump.

(** A document whose validation finds no dangling node, and whose three lists are
    there, can be dumped. *)
Theorem C48_dump_succeeds :
  forall repr_list s b c nodes, parse_string s = Ok b -> b_core_content b = Some (Some c) ->
    rc_data_types c <> None -> rc_spec_types c <> None -> rc_specifications c <> None ->
    all_nodes b nodes ->
    (forall h, In h nodes -> exists o, In o (spec_objects_of b) /\ h_spec_object h = Some (so_identifier o)) ->
    exists html, dump_html repr_list b = Ok html.
Proof.
  intros repr_list s b c nodes P EC HD HS HP (parts & AN & ->) R.
  destruct (rc_data_types c) as [ds|] eqn:ED; [|congruence].
  destruct (rc_spec_types c) as [ss|] eqn:ES; [|congruence].
  destruct (rc_specifications c) as [sps|] eqn:EP; [|congruence].
  assert (SP : specifications_of b = sps).
  { unfold specifications_of, b_list, bundle_content. rewrite EC. rewrite EP. reflexivity. }
  rewrite SP in AN.
  assert (T : forall h, In h (concat parts) -> exists o, target b h o).
  { intros h Hh. destruct (R h Hh) as (o & Ho & E). unfold target. rewrite E.
    destruct (dict_get (fill (fun x => Some (so_identifier x)) (fun x => x) (spec_objects_of b) [])
                (Some (so_identifier o))) as [o'|] eqn:D.
    - exists o'. apply fill_last, D.
    - pose proof (proj1 (fill_none _ _ _ _) D o Ho) as N. exfalso. apply N. reflexivity. }
  assert (L : exists l, Forall2 (shows_specification repr_list b) sps l).
  { clear - AN T. revert T. induction AN as [|sp ns sps parts D _ IH]; intros T; [exists []; constructor|].
    destruct IH as (l & F). { intros h Hh. apply T. cbn. apply in_or_app. auto. }
    assert (O : exists os, Forall2 (target b) ns os).
    { assert (T' : forall h, In h ns -> exists o, target b h o) by (intros h Hh; apply T; cbn; apply in_or_app; auto).
      clear - T'. induction ns as [|h ns IH]; [exists []; constructor|].
      destruct (T' h (or_introl eq_refl)) as (o & Ho). destruct IH as (os & F); [intros; apply T'; right; auto|].
      exists (o :: os). constructor; auto. }
    destruct O as (os & FO). exists ((fmt (sp_long_name sp), map (table_of repr_list) os) :: l).
    constructor; [|exact F]. exists ns, os. auto. }
  destruct L as (l & F).
  exists (show_page (Page (option_map (fun h => (fmt (hd_title h), fmt (hd_creation_time h))) (b_header b))
                       (Some (Some (map dt_id ds, map st_identifier ss, l))))).
  apply (C48_page_shows_the_document repr_list s b _ P). eexists. split; [|reflexivity].
  split; [reflexivity|]. rewrite EC. exists ds, ss, sps, l. auto.
Qed.
(** Apart from that it fails: with TypeError if a list is missing, with KeyError at
    the first dangling node. *)
Theorem C48_failures :
  forall repr_list s b e, parse_string s = Ok b -> dump_html repr_list b = Raise e ->
    exists c, b_core_content b = Some (Some c) /\
    (e = ETypeError /\ (rc_data_types c = None \/ rc_spec_types c = None \/ rc_specifications c = None)
     \/ e = EKeyError /\ exists nodes h, all_nodes b nodes /\ In h nodes
          /\ forall o, In o (spec_objects_of b) -> h_spec_object h <> Some (so_identifier o)).
Proof.
  intros repr_list s b e P. unfold dump_html, render, if_content.
  destruct (b_core_content b) as [[c|]|] eqn:EC; cbn [bind]; try discriminate.
  intros H. exists c. split; [reflexivity|].
  destruct (rc_data_types c) as [ds|] eqn:ED; cbn [for_in bind] in H.
  2:{ injection H as <-. auto. }
  rewrite mapM_pure in H. cbn [bind] in H.
  destruct (rc_spec_types c) as [ss|] eqn:ES; cbn [for_in bind] in H.
  2:{ injection H as <-. auto. }
  rewrite mapM_pure in H. cbn [bind] in H.
  destruct (rc_specifications c) as [sps|] eqn:EP; cbn [bind] in H.
  2:{ injection H as <-. auto. }
  right.
  assert (BS : bundle_specifications b = Some ([] ++ sps)).
  { unfold bundle_specifications. rewrite EC. exact EP. }
  assert (SP : specifications_of b = sps).
  { unfold specifications_of, b_list, bundle_content. rewrite EC. rewrite EP. reflexivity. }
  rewrite (sections_list repr_list b [] sps BS : specification_sections repr_list sps 0 b = _) in H.
  destruct (mapM (section_of repr_list b) sps) as [xs|x] eqn:M; cbn [bind] in H; [discriminate|].
  injection H as <-.
  assert (TR : forall h y, hierarchy_table repr_list b h = Raise y ->
     y = EKeyError /\ forall o, In o (spec_objects_of b) -> h_spec_object h <> Some (so_identifier o)).
  { intros h y. unfold hierarchy_table, get_spec_object_by_ref, dict_index.
    destruct (parse_lookup s b P) as (_ & _ & E & _). rewrite E. fold (spec_objects_of b).
    destruct (dict_get _ (h_spec_object h)) as [o|] eqn:D; cbn [bind]; [discriminate|].
    intros Hy. injection Hy as <-. split; [reflexivity|]. intros o Ho Q.
    apply (proj1 (fill_none _ _ _ _) D o Ho). congruence. }
  assert (X : x = EKeyError /\ exists sp h, In sp sps /\ In h (fpreorder (olist (sp_children sp)))
     /\ forall o, In o (spec_objects_of b) -> h_spec_object h <> Some (so_identifier o)).
  { destruct (mapM_Raise _ _ _ M) as (sp & Hsp & E). unfold section_of in E.
    destruct (mapM (hierarchy_table repr_list b) _) as [ts|y] eqn:M2; cbn [bind] in E; [discriminate|].
    injection E as ->. destruct (mapM_Raise _ _ _ M2) as (h & Hh & E).
    destruct (TR h x E) as (-> & Q). split; [reflexivity|]. eauto. }
  destruct X as (-> & sp & h & Hsp & Hh & Q). split; [reflexivity|].
  exists (concat (map (fun sp => fpreorder (olist (sp_children sp))) sps)), h. split.
  - eexists; split; [|reflexivity]. rewrite SP. clear. induction sps; constructor; auto.
    apply fpreorder_document_order.
  - split; [|exact Q]. apply in_concat. eexists. split; [apply in_map, Hsp|exact Hh].
Qed.

Definition one_object (value : str) : str :=
  "<REQ-IF><CORE-CONTENT><REQ-IF-CONTENT><DATATYPES/><SPEC-TYPES/>"
  ++ "<SPEC-OBJECTS><SPEC-OBJECT IDENTIFIER=""o""><TYPE><SPEC-OBJECT-TYPE-REF>t</SPEC-OBJECT-TYPE-REF></TYPE>"
  ++ "<VALUES><ATTRIBUTE-VALUE-STRING THE-VALUE=""" ++ value ++ """><DEFINITION><ATTRIBUTE-DEFINITION-STRING-REF>d</ATTRIBUTE-DEFINITION-STRING-REF></DEFINITION></ATTRIBUTE-VALUE-STRING></VALUES>"
  ++ "</SPEC-OBJECT></SPEC-OBJECTS>"
  ++ "<SPECIFICATIONS><SPECIFICATION IDENTIFIER=""s"" LONG-NAME=""S"">"
  ++ "<CHILDREN><SPEC-HIERARCHY IDENTIFIER=""h""><OBJECT><SPEC-OBJECT-REF>o</SPEC-OBJECT-REF></OBJECT></SPEC-HIERARCHY></CHILDREN>"
  ++ "</SPECIFICATION></SPECIFICATIONS></REQ-IF-CONTENT></CORE-CONTENT></REQ-IF>".
Definition dump_text (s : str) : result str :=
  let! b := parse_string s in dump_html (fun _ => []) b.
(** Values are put on the page as they are: markup in a value becomes markup of
    the page. *)
Theorem C48_values_are_escaped_refuted :
  exists s html, dump_text s = Ok html /\ contains "<script>" html = true.
Proof.
  exists (one_object "&lt;script>"). eexists. split; [vm_compute; reflexivity|vm_compute; reflexivity].
Qed.
(** A document with a specification section but without DATATYPES is valid for the
    parser and cannot be dumped. *)
Theorem C48_missing_section_refuted :
  exists s b, parse_string s = Ok b /\ dump_html (fun _ => []) b = Raise ETypeError.
Proof.
  exists "<REQ-IF><CORE-CONTENT><REQ-IF-CONTENT></REQ-IF-CONTENT></CORE-CONTENT></REQ-IF>".
  eexists. split; vm_compute; reflexivity.
Qed.
Example C48_example :
  (match dump_text (one_object "hello") with
   | Ok html => contains (t21 ++ "S" ++ t22 ++ t23 ++ t24 ++ "t" ++ t25 ++ "o" ++ t26
                          ++ t27 ++ "d" ++ t28 ++ "hello" ++ t29 ++ t30 ++ t31) html
   | Raise _ => false
   end) = true.
Proof. vm_compute. reflexivity. Qed.

Print Assumptions C48_page_shows_the_document.
Print Assumptions C48_dump_succeeds.
Print Assumptions C48_failures.
Print Assumptions C48_values_are_escaped_refuted.
Print Assumptions C48_missing_section_refuted.
