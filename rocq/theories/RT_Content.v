(** RT_Content.v -- the round trip of a whole REQ-IF-CONTENT *)
From Verif Require Import Base Xml Lxml Py LxmlStr Models AttrDef DataType Header AttrValue SpecObj Hierarchy
  SpecTypes Progress Parser Unparser BundleModel XmlProofs DictProofs SpecEscape EscapeProofs SpecPrint SpecXhtml
  SpecDocument SpecTraversal SpecProgress SpecLookup ProgressProofs ParserProofs
  Frag RT RT_Header RT_DataType RT_AttrDef RT_SpecTypes RT_Values RT_Objects RT_Hier RT_Xhtml.

Definition olist {A} (o : option A) : list A := match o with Some x => [x] | None => [] end.
(** one section: its nodes and the objects in it *)
Section Sec.
Variables (p u : str) (ctx : nsmap -> Prop).
Definition sec_rt {X} (t : str) (unp : X -> result str) (parse : node -> result X) (erase normal : X -> X)
  (use : X -> bool) (o : option (list X)) : Prop :=
  exists f, good p u f /\ pure_unparse_section t unp o = Ok (f_str f) /\ f_use f = existsb use (items o) /\
    forall m, ctx m -> exists on o',
      elements (f_n f m) = olist on /\ (forall n, on = Some n -> tag_is t n = true /\ forall t', str_eqb t t' = false -> tag_is t' n = false)
      /\ match on, o' with
         | None, None => True
         | Some n, Some l => mapM parse (children n) = Ok l
         | _, _ => False end
      /\ map_list erase o' = map_list normal o
      /\ pure_unparse_section t unp o' = pure_unparse_section t unp o.
Lemma sec_section {X} t unp parse erase normal use (o : option (list X)) :
  okname t = true ->
  (forall x, In x (items o) -> rt p u ctx unp parse erase normal use x) ->
  sec_rt t unp parse erase normal use o.
Proof.
  intros HT H. destruct o as [l|].
  - cbn [items] in H. assert (HR : rts p u ctx unp parse erase normal use l) by (apply rt_list, Forall_forall, H).
    destruct HR as (f & F1 & F2 & F3 & F4).
    destruct (mapM unp l) as [parts|e] eqn:EP; [|discriminate]. cbn [bind] in F2. apply Ok_inj in F2.
    exists (fws "      " +++ fel t [] (fws nl +++ f +++ fws "      ") +++ fws nl).
    split; [|split; [|split]].
    + apply good_app; [apply good_ws; reflexivity|]. apply good_app; [|apply good_ws; reflexivity].
      apply good_el; [exact HT|split; [reflexivity|constructor]|]. apply good_app; [apply good_ws; reflexivity|].
      apply good_app; [exact F1|apply good_ws; reflexivity].
    + cbn [pure_unparse_section]. rewrite EP. cbn [bind fapp fel fws ftxt f_str]. change (render_attrs []) with (@nil N). rewrite app_nil_l, F2. f_equal. strs.
    + cbn [fapp fel fws ftxt f_use]. rewrite F3. cbn [orb items]. rewrite !orb_false_r. reflexivity.
    + intros m Hm. destruct (F4 m Hm) as (l' & A1 & A2 & A3).
      exists (Some (el t [] (fws nl +++ f +++ fws "      ") m)), (Some l'). split; [|split; [|split; [|split]]].
      * cbn [fapp fel fws ftxt f_n]. rewrite !elements_app, !elements_chr, elements_el. reflexivity.
      * intros n E. injection E as <-. split; [rewrite tag_is_el; apply str_eqb_refl|]. intros t' Ht. rewrite tag_is_el. exact Ht.
      * rewrite children_el. cbn [fapp fws ftxt f_n]. rewrite !elements_app, !elements_chr, app_nil_r. exact A1.
      * cbn [map_list option_map]. rewrite A2. reflexivity.
      * cbn [pure_unparse_section]. rewrite A3, EP. reflexivity.
  - exists fnil. split; [apply good_nil|]. split; [reflexivity|]. split; [reflexivity|]. intros m _. exists None, None.
    repeat split; discriminate.
Qed.
End Sec.

Lemma find_list_app t a b : find_list t (a ++ b) = match find_list t a with Some n => Some n | None => find_list t b end.
Proof. unfold find_list. induction a as [|x a IH]; [reflexivity|]. cbn [app find]. destruct (tag_is t x); [reflexivity|exact IH]. Qed.
Definition tagged (t : str) (on : option node) : Prop :=
  forall n, on = Some n -> tag_is t n = true /\ forall t', str_eqb t t' = false -> tag_is t' n = false.
Lemma find_same t on : tagged t on -> find_list t (olist on) = on.
Proof. intros H. destruct on as [n|]; [|reflexivity]. unfold find_list. cbn [olist find]. destruct (H n eq_refl) as [-> _]. reflexivity. Qed.
Lemma find_other t t' on : tagged t on -> str_eqb t t' = false -> find_list t' (olist on) = None.
Proof. intros H E. destruct on as [n|]; [|reflexivity]. unfold find_list. cbn [olist find]. destruct (H n eq_refl) as [_ ->]; [reflexivity|exact E]. Qed.

Lemma mapM_impl {A B C} (f : A -> result B) (g : A -> result C) (h : B -> C) l :
  (forall x y, f x = Ok y -> g x = Ok (h y)) -> forall ys, mapM f l = Ok ys -> mapM g l = Ok (map h ys).
Proof.
  intros H. induction l as [|x l IH]; intros ys E; cbn [mapM] in *; fold (mapM f) (mapM g) in *.
  - apply Ok_inj in E. subst ys. reflexivity.
  - destruct (f x) as [y|e] eqn:EF; cbn [bind] in *; [|discriminate]. rewrite (H _ _ EF). cbn [bind].
    destruct (mapM f l) as [zs|e]; cbn [bind] in *; [|discriminate]. apply Ok_inj in E. subst ys.
    rewrite (IH zs eq_refl). reflexivity.
Qed.
Lemma object_item_ok n o : parse_spec_object n = Ok o -> object_item n = Ok (Some o).
Proof.
  unfold object_item. destruct (is_comment n) eqn:E; [|intros ->; reflexivity].
  destruct n; discriminate.
Qed.
Lemma relation_item_ok n r : parse_spec_relation n = Ok r -> relation_item n = Ok (inl r).
Proof. unfold relation_item. intros ->. reflexivity. Qed.
Lemma lefts_inl {A B} (l : list A) : lefts (map (@inl A B) l) = l.
Proof. induction l as [|x l IH]; [reflexivity|]. cbn. rewrite IH. reflexivity. Qed.
Lemma rights_inl {A B} (l : list A) : rights (map (@inl A B) l) = [].
Proof. induction l as [|x l IH]; [reflexivity|exact IH]. Qed.

Lemma existsb_flat {A B} (f : B -> bool) (g : A -> list B) l : existsb f (flat_map g l) = existsb (fun x => existsb f (g x)) l.
Proof. induction l as [|x l IH]; [reflexivity|]. cbn [flat_map existsb]. rewrite existsb_app, IH. reflexivity. Qed.
Lemma existsb_false {A} (l : list A) : existsb (fun _ => false) l = false.
Proof. induction l as [|x l IH]; [reflexivity|exact IH]. Qed.
Lemma existsb_ext {A} (f g : A -> bool) l : (forall x, f x = g x) -> existsb f l = existsb g l.
Proof. intros H. induction l as [|x l IH]; [reflexivity|]. cbn. rewrite H, IH. reflexivity. Qed.
Lemma sa_use_eq a : existsb lt_in (value_xhtml a) = sa_use lt_in a.
Proof. unfold value_xhtml, sa_use. destruct (sa_type a); try reflexivity. destruct (sa_value a); [cbn; apply orb_false_r|reflexivity]. Qed.
Lemma ad_use_eq a : existsb lt_in (default_xhtml a) = ad_use lt_in a.
Proof. unfold default_xhtml, ad_use. destruct (ad_type a); try reflexivity. destruct (ad_default_value a); try reflexivity. cbn. apply orb_false_r. Qed.
Lemma st_use_eq t : existsb lt_in (flat_map default_xhtml (type_definitions t)) = st_use lt_in t.
Proof.
  rewrite existsb_flat, (existsb_ext _ (ad_use lt_in)) by apply ad_use_eq. unfold type_definitions, st_use, ads_use, st_ads.
  destruct t; cbn [items]; match goal with |- existsb _ (items ?o) = _ => destruct o; reflexivity end.
Qed.
Lemma so_use_eq o : existsb lt_in (flat_map value_xhtml (so_attributes o)) = so_use lt_in o.
Proof. rewrite existsb_flat, (existsb_ext _ (sa_use lt_in)) by apply sa_use_eq. reflexivity. Qed.
Lemma sp_use_eq s : existsb lt_in (flat_map value_xhtml (items (sp_values s))) = sp_use lt_in s.
Proof. rewrite existsb_flat, (existsb_ext _ (sa_use lt_in)) by apply sa_use_eq. unfold sp_use. destruct (sp_values s); reflexivity. Qed.
Lemma sr_use_eq r : existsb lt_in (flat_map value_xhtml (match sr_values_attribute r with Some a => [a] | None => [] end)) = sr_use lt_in r.
Proof. rewrite existsb_flat, (existsb_ext _ (sa_use lt_in)) by apply sa_use_eq. unfold sr_use. destruct (sr_values_attribute r); [cbn; apply orb_false_r|reflexivity]. Qed.
Lemma flat_map_flat_map {A B C} (f : B -> list C) (g : A -> list B) l : flat_map f (flat_map g l) = flat_map (fun x => flat_map f (g x)) l.
Proof. induction l as [|x l IH]; [reflexivity|]. cbn [flat_map]. rewrite flat_map_app, IH. reflexivity. Qed.
Definition content_use (c : content) : bool := existsb lt_in (content_xhtml c).
Lemma content_use_eq c : content_use c =
  existsb (st_use lt_in) (items (rc_spec_types c)) || (existsb (so_use lt_in) (items (rc_spec_objects c))
  || (existsb (sr_use lt_in) (items (rc_spec_relations c)) || existsb (sp_use lt_in) (items (rc_specifications c)))).
Proof.
  unfold content_use, content_xhtml. rewrite !flat_map_flat_map, !existsb_app, !existsb_flat.
  rewrite (existsb_ext _ _ _ st_use_eq), (existsb_ext _ _ _ so_use_eq), (existsb_ext _ _ _ sr_use_eq), (existsb_ext _ _ _ sp_use_eq). reflexivity.
Qed.

Section Content.
Variables (p u : str) (ctx : nsmap -> Prop) (V D : str -> Prop) (strip_ : str -> str).
Hypothesis DX : forall v, D v -> exists f, good p u f /\ f_str f = v /\ f_use f = lt_in v
  /\ forall m, ctx m -> stringify_namespaced_children (el "THE-VALUE" [] f m) None = Ok v.
Hypothesis VX : forall v, V v -> exists f, good p u f /\ f_str f = v /\ f_use f = lt_in v
  /\ forall m, ctx m -> xhtml_pair (el "THE-VALUE" [] f m) = Ok (v, strip_ v).

Lemma each_items {A} (P : A -> Prop) o : each P o -> forall x, In x (items o) -> P x.
Proof. intros H x Hx. destruct o as [l|]; [|destruct Hx]. cbn in *. rewrite Forall_forall in H. apply H, Hx. Qed.

Lemma rt_content c : printable_content V D c ->
  exists f, good p u f /\ pure_unparse_content c = Ok (f_str f) /\ f_use f = content_use c /\
    forall m, ctx m -> exists n c' lk,
      elements (f_n f m) = [n] /\ tag_is "REQ-IF-CONTENT" n = true /\ pure_content n = Ok (c', lk, [])
      /\ erase_content c' = normal_content strip_ c /\ pure_unparse_content c' = pure_unparse_content c.
Proof.
  intros (H1 & H2 & H3 & H4 & H5 & H6).
  destruct (sec_section p u ctx "DATATYPES" _ _ _ _ _ (rc_data_types c) eq_refl
    (fun x Hx => rt_data_type p u ctx x (each_items _ _ H1 x Hx))) as (f1 & A1 & B1 & C1 & D1).
  destruct (sec_section p u ctx "SPEC-TYPES" _ _ _ _ _ (rc_spec_types c) eq_refl
    (fun x Hx => rt_spec_type p u ctx D lt_in DX x (each_items _ _ H2 x Hx))) as (f2 & A2 & B2 & C2 & D2).
  destruct (sec_section p u ctx "SPEC-OBJECTS" _ _ _ _ _ (rc_spec_objects c) eq_refl
    (fun x Hx => rt_spec_object p u ctx V strip_ lt_in VX x (each_items _ _ H3 x Hx))) as (f3 & A3 & B3 & C3 & D3).
  destruct (sec_section p u ctx "SPEC-RELATIONS" _ _ _ _ _ (rc_spec_relations c) eq_refl
    (fun x Hx => rt_spec_relation p u ctx V strip_ lt_in VX x (each_items _ _ H4 x Hx))) as (f4 & A4 & B4 & C4 & D4).
  destruct (sec_section p u ctx "SPECIFICATIONS" _ _ _ _ _ (rc_specifications c) eq_refl
    (fun x Hx => rt_specification p u ctx V strip_ lt_in VX x (each_items _ _ H5 x Hx))) as (f5 & A5 & B5 & C5 & D5).
  destruct (sec_section p u ctx "SPEC-RELATION-GROUPS" _ _ _ _ _ (rc_spec_relation_groups c) eq_refl
    (fun x Hx => rt_relation_group p u ctx x (each_items _ _ H6 x Hx))) as (f6 & A6 & B6 & C6 & D6).
  set (body := fws nl +++ f1 +++ f2 +++ f3 +++ f4 +++ f5 +++ f6 +++ fws "    ").
  exists (fws "    " +++ fel "REQ-IF-CONTENT" [] body +++ fws nl).
  split; [|split; [|split]].
  - unfold body. repeat (first [assumption|apply good_app|apply good_ws; reflexivity|apply good_el; [reflexivity|split; [reflexivity|constructor]|]]).
  - unfold pure_unparse_content. rewrite B1, B2, B3, B4, B5, B6. cbn [bind]. unfold body. cbn [fapp fel fws ftxt f_str].
    change (render_attrs []) with (@nil N). rewrite app_nil_l. f_equal. strs.
  - unfold body. cbn [fapp fel fws ftxt f_use]. rewrite C1, C2, C3, C4, C5, C6, content_use_eq, !existsb_false. cbn [orb].
    rewrite !orb_false_r. reflexivity.
  - intros m Hm.
    destruct (D1 m Hm) as (n1 & o1 & E1 & T1 & P1 & X1 & Y1). destruct (D2 m Hm) as (n2 & o2 & E2 & T2 & P2 & X2 & Y2).
    destruct (D3 m Hm) as (n3 & o3 & E3 & T3 & P3 & X3 & Y3). destruct (D4 m Hm) as (n4 & o4 & E4 & T4 & P4 & X4 & Y4).
    destruct (D5 m Hm) as (n5 & o5 & E5 & T5 & P5 & X5 & Y5). destruct (D6 m Hm) as (n6 & o6 & E6 & T6 & P6 & X6 & Y6).
    fold (tagged "DATATYPES" n1) in T1. fold (tagged "SPEC-TYPES" n2) in T2. fold (tagged "SPEC-OBJECTS" n3) in T3.
    fold (tagged "SPEC-RELATIONS" n4) in T4. fold (tagged "SPECIFICATIONS" n5) in T5. fold (tagged "SPEC-RELATION-GROUPS" n6) in T6.
    set (n := el "REQ-IF-CONTENT" [] body m).
    assert (EC : children n = olist n1 ++ olist n2 ++ olist n3 ++ olist n4 ++ olist n5 ++ olist n6).
    { unfold n. rewrite children_el. unfold body. cbn [fapp fws ftxt f_n]. rewrite !elements_app, !elements_chr, E1, E2, E3, E4, E5, E6, app_nil_r. reflexivity. }
    assert (F : forall t, find_child t n = match find_list t (olist n1) with Some x => Some x | None =>
       match find_list t (olist n2) with Some x => Some x | None => match find_list t (olist n3) with Some x => Some x | None =>
       match find_list t (olist n4) with Some x => Some x | None => match find_list t (olist n5) with Some x => Some x | None =>
         find_list t (olist n6) end end end end end).
    { intros t. rewrite find_child_elements, EC, !find_list_app. reflexivity. }
    assert (F1 : find_child "DATATYPES" n = n1).
    { rewrite F, (find_same _ _ T1), (find_other _ _ _ T2), (find_other _ _ _ T3), (find_other _ _ _ T4), (find_other _ _ _ T5), (find_other _ _ _ T6) by reflexivity. destruct n1; reflexivity. }
    assert (F2 : find_child "SPEC-TYPES" n = n2).
    { rewrite F, (find_other _ _ _ T1), (find_same _ _ T2), (find_other _ _ _ T3), (find_other _ _ _ T4), (find_other _ _ _ T5), (find_other _ _ _ T6) by reflexivity. destruct n2; reflexivity. }
    assert (F3 : find_child "SPEC-OBJECTS" n = n3).
    { rewrite F, (find_other _ _ _ T1), (find_other _ _ _ T2), (find_same _ _ T3), (find_other _ _ _ T4), (find_other _ _ _ T5), (find_other _ _ _ T6) by reflexivity. destruct n3; reflexivity. }
    assert (F4 : find_child "SPEC-RELATIONS" n = n4).
    { rewrite F, (find_other _ _ _ T1), (find_other _ _ _ T2), (find_other _ _ _ T3), (find_same _ _ T4), (find_other _ _ _ T5), (find_other _ _ _ T6) by reflexivity. destruct n4; reflexivity. }
    assert (F5 : find_child "SPECIFICATIONS" n = n5).
    { rewrite F, (find_other _ _ _ T1), (find_other _ _ _ T2), (find_other _ _ _ T3), (find_other _ _ _ T4), (find_same _ _ T5), (find_other _ _ _ T6) by reflexivity. destruct n5; reflexivity. }
    assert (F6 : find_child "SPEC-RELATION-GROUPS" n = n6).
    { rewrite F, (find_other _ _ _ T1), (find_other _ _ _ T2), (find_other _ _ _ T3), (find_other _ _ _ T4), (find_other _ _ _ T5), (find_same _ _ T6) by reflexivity. destruct n6; reflexivity. }
    assert (S1 : exists lk, pure_section "DATATYPES" n data_type_body ([], []) = Ok (match o1 with Some _ => true | None => false end, (items o1, lk))).
    { unfold pure_section. rewrite F1. destruct n1 as [x|], o1 as [l|]; try (destruct P1; fail); [|exists []; reflexivity].
      rewrite fold_data_types, P1. eexists. reflexivity. }
    assert (S2 : exists lk, pure_section "SPEC-TYPES" n spec_type_body ([], []) = Ok (match o2 with Some _ => true | None => false end, (items o2, lk))).
    { unfold pure_section. rewrite F2. destruct n2 as [x|], o2 as [l|]; try (destruct P2; fail); [|exists []; reflexivity].
      rewrite fold_spec_types, (mapM_solid _ _ _ P2). cbn [bind]. rewrite catSomes_map. eexists. reflexivity. }
    assert (S3 : exists lk, pure_section "SPEC-OBJECTS" n spec_object_body ([], []) = Ok (match o3 with Some _ => true | None => false end, (items o3, lk))).
    { unfold pure_section. rewrite F3. destruct n3 as [x|], o3 as [l|]; try (destruct P3; fail); [|exists []; reflexivity].
      rewrite fold_spec_objects, (mapM_impl _ object_item Some _ object_item_ok _ P3). cbn [bind]. rewrite catSomes_map. eexists. reflexivity. }
    assert (S4 : exists lk, pure_section "SPEC-RELATIONS" n spec_relation_body ([], [], []) = Ok (match o4 with Some _ => true | None => false end, (items o4, lk, []))).
    { unfold pure_section. rewrite F4. destruct n4 as [x|], o4 as [l|]; try (destruct P4; fail); [|exists []; reflexivity].
      rewrite fold_spec_relations, (mapM_impl _ relation_item inl _ relation_item_ok _ P4). cbn [bind]. rewrite lefts_inl, rights_inl. eexists. reflexivity. }
    assert (S5 : pure_section "SPECIFICATIONS" n specification_body [] = Ok (match o5 with Some _ => true | None => false end, items o5)).
    { unfold pure_section. rewrite F5. destruct n5 as [x|], o5 as [l|]; try (destruct P5; fail); [|reflexivity].
      rewrite fold_specifications, P5. reflexivity. }
    assert (S6 : pure_section "SPEC-RELATION-GROUPS" n relation_group_body [] = Ok (match o6 with Some _ => true | None => false end, items o6)).
    { unfold pure_section. rewrite F6. destruct n6 as [x|], o6 as [l|]; try (destruct P6; fail); [|reflexivity].
      rewrite fold_relation_groups, P6. reflexivity. }
    destruct S1 as (k1 & S1). destruct S2 as (k2 & S2). destruct S3 as (k3 & S3). destruct S4 as (k4 & S4).
    exists n, (Content o1 o2 o3 o4 o5 o6), (Lookup k1 k2 k3 k4 true).
    split; [|split; [|split; [|split]]].
    + cbn [fapp fel fws ftxt f_n]. rewrite !elements_app, !elements_chr, elements_el. reflexivity.
    + reflexivity.
    + unfold pure_content. change (tag_is "REQ-IF-CONTENT" n) with true. cbn [py_assert bind].
      rewrite S1. cbn [bind]. rewrite S2. cbn [bind]. rewrite S5. cbn [bind]. rewrite S4. cbn [bind]. rewrite S3. cbn [bind]. rewrite S6. cbn [bind].
      repeat f_equal; match goal with |- when_ _ (items ?o) = ?o => destruct o; reflexivity end.
    + unfold erase_content, normal_content, map_content. cbn [rc_data_types rc_spec_types rc_spec_objects rc_spec_relations rc_specifications rc_spec_relation_groups].
      rewrite X1, X2, X3, X4, X5, X6. reflexivity.
    + unfold pure_unparse_content. cbn [rc_data_types rc_spec_types rc_spec_objects rc_spec_relations rc_specifications rc_spec_relation_groups].
      rewrite Y1, Y2, Y3, Y4, Y5, Y6. reflexivity.
Qed.
End Content.
