(** KeepProofs.v -- two elements read as the same object hold the same facts *)
From Verif Require Import Base Xml Lxml Py Models SpecPrint SpecParse SpecDocument SpecSettle SpecKeep DictProofs FaithProofs TraversalProofs Header
  LxmlStr SpecXhtml XhtmlScope XhtmlKeep.
From Verif Require SettleProofs.

Lemma same_drop o : same_value o (drop_empty o).
Proof. destruct o as [[|]|]; cbn; [right; auto|left; reflexivity|left; reflexivity]. Qed.
Lemma same_refl o : same_value o o.
Proof. left. reflexivity. Qed.
Lemma same_cons k ks n n' o o' :
  attr_opt k n = o -> attr_opt k n' = o' -> same_value o o' -> same_attributes ks n n' -> same_attributes (k :: ks) n n'.
Proof. intros <- <- H1 H2. constructor; assumption. Qed.
Lemma same_nil n n' : same_attributes [] n n'.
Proof. constructor. Qed.
Lemma labels_from n n' i i' d d' l l' m m' :
  labels n i d l m -> labels n' i' d' l' m' ->
  same_value (Some i) (Some i') -> same_value d d' -> same_value l l' -> same_value m m' -> labels_kept n n'.
Proof.
  intros (A1 & A2 & A3 & A4) (B1 & B2 & B3 & B4) H1 H2 H3 H4. unfold labels_kept.
  repeat (eapply same_cons; [eassumption|eassumption|assumption|]). apply same_nil.
Qed.
Lemma flag_same o o' b : flag o b -> flag o' b -> same_flag o o'.
Proof.
  unfold flag, same_flag. destruct o as [s|], o' as [s'|], b as [[]|]; try tauto; intros H H'.
  - subst. split; [split; discriminate|tauto].
  - split; [split; discriminate|]. split; intros X; injection X as ->; contradiction.
Qed.
Lemma ref_spelled o : same_ref o (spelled o).
Proof. destruct o; [left|right]; auto. Qed.
Lemma Forall2_through {A B} (R : A -> B -> Prop) (R' : A -> B -> Prop) (f : B -> B) (K : A -> A -> Prop) l l' x :
  (forall n n' a, R n a -> R' n' (f a) -> K n n') -> Forall2 R l x -> Forall2 R' l' (map f x) -> Forall2 K l l'.
Proof.
  intros H HA. revert l'. induction HA as [|n a l x HN _ IH]; intros l' HB; inversion HB; subst; constructor; [|apply IH; assumption].
  eapply H; eassumption.
Qed.
Lemma images_matched {B} t (R R' : node -> B -> Prop) (f : B -> B) (K : node -> node -> Prop) n n' o :
  (forall n n' a, R n a -> R' n' (f a) -> K n n') -> images t R n o -> images t R' n' (option_map (map f) o) ->
  matched K (section_items t n) (section_items t n').
Proof.
  unfold images. intros H HA HB. destruct (section_items t n) as [l|], o as [x|]; try contradiction; cbn [option_map] in HB;
    destruct (section_items t n') as [l'|]; try contradiction; constructor. eapply Forall2_through; eassumption.
Qed.

(** ** Related lists, with what else is known of their members *)
Lemma Forall2_with {A B} (R : A -> B -> Prop) (P : A -> Prop) (Q : B -> Prop) l x :
  Forall2 R l x -> Forall P l -> Forall Q x -> Forall2 (fun n a => R n a /\ P n /\ Q a) l x.
Proof. induction 1; intros H1 H2; inversion H1; inversion H2; subst; constructor; auto. Qed.
Lemma each_true {A} (o : option (list A)) : each (fun _ => True) o.
Proof. destruct o; [|exact I]. apply Forall_forall. auto. Qed.
Lemma images_with {B} t (R : node -> B -> Prop) (Q : B -> Prop) b n o :
  images t R n o -> inside b n -> each Q o -> images t (fun k a => R k a /\ inside b k /\ Q a) n o.
Proof.
  unfold images, each. intros H HI HQ. destruct (section_items t n) as [ks|] eqn:E, o as [l|]; auto.
  apply Forall2_with; [exact H|apply (inside_items _ _ _ _ HI E)|exact HQ].
Qed.
Lemma filter_sub {A} (P : A -> Prop) f l : Forall P l -> Forall P (filter f l).
Proof. apply filter_keys. Qed.

(** ** Data types *)
Lemma enum_kept n n' v : enum_value_of n v -> enum_value_of n' v -> enum_value_kept n n'.
Proof.
  intros (A1 & e & A2 & A3 & A4) (B1 & e' & B2 & B3 & B4). split; [eapply labels_from; eauto using same_refl|].
  exists e, e'. repeat split; congruence.
Qed.
Ltac lits_in_goal := repeat match goal with
  | |- context [str_eqb ?a ?b] =>
      let v := eval vm_compute in (str_eqb a b) in
      match v with true => idtac | false => idtac end; change (str_eqb a b) with v
  end; cbv beta iota delta [orb].
Lemma data_kept n n' d : data_type_of n d -> data_type_of n' (normal_data_type d) -> data_type_kept n n'.
Proof.
  intros [A1 A2] [B1 B2]. unfold data_type_kept.
  assert (L : labels_kept n n') by (destruct d; cbn in B1; (eapply labels_from; [exact A1|exact B1|..]); cbn; auto using same_refl, same_drop).
  destruct d as [c m|c|c mx mn|c a mx mn|c vs|c|c]; cbn [normal_data_type] in A2, B2.
  - destruct A2 as [T A], B2 as [T' B]. eexists. split; [exact T|]. split; [exact T'|]. split; [exact L|]. unfold own_attributes; lits_in_goal.
    split; [eapply same_cons; [exact A|exact B|apply same_drop|apply same_nil]|]. split; discriminate.
  - eexists. split; [exact A2|]. split; [exact B2|]. split; [exact L|]. unfold own_attributes; lits_in_goal.
    split; [apply same_nil|]. split; discriminate.
  - destruct A2 as (T & A & A'), B2 as (T' & B & B'). eexists. split; [exact T|]. split; [exact T'|]. split; [exact L|]. unfold own_attributes; lits_in_goal.
    split; [repeat (eapply same_cons; [eassumption|eassumption|apply same_refl|]); apply same_nil|]. split; discriminate.
  - destruct A2 as (T & A & A' & A3), B2 as (T' & B & B' & B3). eexists. split; [exact T|]. split; [exact T'|]. split; [exact L|]. unfold own_attributes; lits_in_goal.
    split; [repeat (eapply same_cons; [eassumption|eassumption|apply same_refl|]); apply same_nil|]. split; [|discriminate]. intros _.
    unfold same_number. destruct (attr_opt "ACCURACY" n) as [x|].
    + destruct A3 as (z & A3 & A4). destruct (attr_opt "ACCURACY" n') as [x'|]; [|congruence]. destruct B3 as (z' & B3 & B4).
      exists z. split; [exact A4|]. congruence.
    + destruct (attr_opt "ACCURACY" n') as [x'|]; [destruct B3 as (z & B3 & _); congruence|exact I].
  - destruct A2 as [T A], B2 as [T' B]. eexists. split; [exact T|]. split; [exact T'|]. split; [exact L|]. unfold own_attributes; lits_in_goal.
    split; [apply same_nil|]. split; [discriminate|]. intros _.
    eapply (images_matched _ _ _ (fun x => x)); [exact enum_kept|exact A|].
    replace (option_map (map (fun x => x)) vs) with vs by (destruct vs; cbn; [rewrite map_id|]; reflexivity). exact B.
  - eexists. split; [exact A2|]. split; [exact B2|]. split; [exact L|]. unfold own_attributes; lits_in_goal.
    split; [apply same_nil|]. split; discriminate.
  - eexists. split; [exact A2|]. split; [exact B2|]. split; [exact L|]. unfold own_attributes; lits_in_goal.
    split; [apply same_nil|]. split; discriminate.
Qed.

(** ** Types *)
Lemma path_app p q n : path_node (p ++ q) n = match path_node p n with Some x => path_node q x | None => None end.
Proof. revert n. induction p as [|t p IH]; intros n; [reflexivity|]. cbn [app path_node]. destruct (find_child t n); [apply IH|reflexivity]. Qed.
Lemma path_text_app p q n : path_text (p ++ q) n = match path_node p n with Some x => path_text q x | None => None end.
Proof. unfold path_text. rewrite path_app. destruct (path_node p n); reflexivity. Qed.
Lemma empty_no_child d t : empty_element d -> find_child t d = None.
Proof.
  intros [H _]. unfold find_child. destruct d as [|ns l df ih a kids| |]; cbn in *; try reflexivity.
  unfold find_list. destruct (find (tag_is t) kids) as [x|] eqn:E; [|reflexivity]. exfalso.
  apply find_some in E. destruct E as [E1 E2]. unfold children in H. cbn in H.
  assert (X : In x (filter (fun k => negb (is_chr k)) kids)) by (apply filter_In; split; [exact E1|]; destruct x; [discriminate|reflexivity..]).
  rewrite H in X. destruct X.
Qed.
(** what [default_of] says about each fact *)
Definition shown (d : default_value) : option str := match d with DVStr s => Some s | _ => None end.
Lemma default_facts n a (k := at_name (ad_type a)) (at_ := ["DEFAULT-VALUE"; "ATTRIBUTE-VALUE-" ++ k]) :
  default_of n a ->
  (In k ["STRING"; "INTEGER"; "REAL"; "BOOLEAN"; "DATE"] -> attribute_at at_ "THE-VALUE" n = shown (ad_default_value a))
  /\ (k = "XHTML" -> match path_node (at_ ++ ["THE-VALUE"]) n with
                     | Some tv => exists s, ad_default_value a = DVStr s /\ tag_is "THE-VALUE" tv = true /\ node_nsmap tv <> [] /\ stored_text tv s
                     | None => shown (ad_default_value a) = None
                     end)
  /\ (k = "ENUMERATION" -> path_text (at_ ++ ["VALUES"; "ENUM-VALUE-REF"]) n = shown (ad_default_value a))
  /\ (In k ["BOOLEAN"; "XHTML"; "ENUMERATION"] ->
      path_text (at_ ++ ["DEFINITION"; "ATTRIBUTE-DEFINITION-" ++ k ++ "-REF"]) n = ad_default_value_definition_ref a)
  /\ (In k ["STRING"; "XHTML"; "ENUMERATION"] ->
      ((exists d, find_child "DEFAULT-VALUE" n = Some d /\ empty_element d) <-> ad_default_value a = DVEmptyTag))
  /\ (In k ["BOOLEAN"; "XHTML"] -> shown (ad_default_value a) = None -> ad_default_value_definition_ref a = None).
Proof.
  unfold default_of. intros H. unfold attribute_at. rewrite !path_text_app, path_app.
  assert (P : path_node at_ n = match find_child "DEFAULT-VALUE" n with Some d => find_child ("ATTRIBUTE-VALUE-" ++ k) d | None => None end).
  { unfold at_. cbn [path_node]. destruct (find_child "DEFAULT-VALUE" n) as [d|]; [|reflexivity]. destruct (find_child _ d); reflexivity. }
  rewrite P. clear P. destruct (find_child "DEFAULT-VALUE" n) as [d|].
  - destruct H as [(E & H1 & H2 & H3)|(v & V & H1 & H2)].
    + rewrite (empty_no_child d _ E), H1, H2. cbn [shown].
      repeat split; auto. eauto.
    + fold k in V. rewrite V.
      assert (NE : ~ exists d0, Some d = Some d0 /\ empty_element d0).
      { intros (d0 & E & X). injection E as <-. rewrite (empty_no_child d _ X) in V. discriminate. }
      fold k in H2. unfold k in *. destruct (ad_type a); cbn [at_name] in *; rewrite ?H2;
      (split; [|split; [|split; [|split; [|split]]]]);
      try (intros X; cbn in X; repeat match type of X with _ \/ _ => destruct X as [X|X] end; try discriminate X; try contradiction X; clear X);
      try (intros X; discriminate X);
      try (destruct H1 as (s & H1 & H3); rewrite ?H1, H3; reflexivity);
      try reflexivity; try (rewrite H1; destruct (path_text _ v); reflexivity).
      all: try (split; [intros X; contradiction|intros X; exfalso]).
      all: try (rewrite X in H1; destruct (path_text _ v); discriminate H1).
      all: try (destruct H1 as (s & H1 & H3); congruence).
      all: try (destruct H1 as (s & tv & H1 & _); congruence).
      all: try (intros X; exfalso; destruct H1 as (s & H1 & H3); rewrite H3 in X; discriminate X).
      all: try (intros X; exfalso; destruct H1 as (s & tv & H1 & _); rewrite H1 in X; discriminate X).
      destruct H1 as (s & tv & H1 & H3 & H4 & H5). cbn [path_node]. rewrite H3. exists s. split; [exact H1|]. split; [|auto].
      unfold find_child, find_list in H3. apply find_some in H3. apply H3.
  - destruct H as [-> ->]. cbn [shown]. split; [reflexivity|]. split; [reflexivity|]. split; [reflexivity|]. split; [reflexivity|].
    split; [|reflexivity]. intros _. split; [intros (d & D & _); discriminate|discriminate].
Qed.
Section Kept.
Variables (M : list (option str * str)) (p u : str).
Hypothesis HP : plain_name p = true.
Let D := xhtml_default M p u.
Let V := xhtml_value M p u.
(** what is known of a part of the document that was read and of what was read,
    and of a part of the document that was written *)
Definition input {A} (R : node -> A -> Prop) (Q : A -> Prop) (n : node) (a : A) : Prop := R n a /\ inside false n /\ Q a.
Definition output {A} (R : node -> A -> Prop) (n : node) (a : A) : Prop := R n a /\ inside (some_scope M) n /\ True.
Lemma defaults_kept n n' a a' :
  default_of n a -> default_of n' a' -> inside false n -> inside (some_scope M) n' ->
  (forall v, ad_default_value a = DVStr v -> match ad_type a with AT_XHTML => D v | _ => True end) -> ad_type a' = ad_type a -> ad_default_value a' = ad_default_value a ->
  ad_default_value_definition_ref a'
  = match ad_default_value a, ad_type a with
     | DVStr _, (AT_BOOLEAN | AT_ENUMERATION | AT_XHTML) => ad_default_value_definition_ref a
     | _, _ => None end ->
  default_kept (at_name (ad_type a)) n n'.
Proof.
  intros HA HB IA IB HD HT HV HR. destruct (default_facts _ _ HA) as (A1 & A2 & A3 & A4 & A5 & A6).
  destruct (default_facts _ _ HB) as (B1 & B2 & B3 & B4 & B5 & B6). rewrite HT in *. rewrite HV in *. unfold default_kept, text_kept. cbv zeta.
  set (k := at_name (ad_type a)) in *.
  split; [intros X; rewrite A1, B1 by exact X; reflexivity|].
  split.
  { intros X. specialize (A2 X). specialize (B2 X). unfold part_kept.
    destruct (path_node _ n) as [tv|] eqn:E1, (path_node _ n') as [tv'|] eqn:E2; [| | |exact I].
    - destruct A2 as (w & W & T & N & S), B2 as (w' & W' & T' & N' & S'). assert (w' = w) by congruence. subst w'.
      assert (XV : D w) by (specialize (HD _ W); unfold k in X; destruct (ad_type a); try discriminate X; exact HD).
      eapply (value_content M p u HP); [apply XV|exact (inside_path _ _ _ _ IA E1)|exact T|exact S|left; exact N|exact (inside_path _ _ _ _ IB E2)|exact T'|exact S'].
    - destruct A2 as (w & W & _). rewrite W in B2. discriminate.
    - destruct B2 as (w & W & _). rewrite W in A2. discriminate. }
  split; [intros X; rewrite A3, B3 by exact X; reflexivity|].
  split; [|split; [|intros X; specialize (A5 X); specialize (B5 X); tauto]].
  - intros X. rewrite A4, B4 by (cbn in *; tauto). rewrite HR. specialize (A6 X). destruct (ad_default_value a); cbn in A6; [symmetry; auto..|].
    unfold k in X. destruct (ad_type a); cbn in X; intuition congruence.
  - intros X N. rewrite A4, B4 by (right; right; left; symmetry; exact X). rewrite HR. rewrite A3 in N by exact X. destruct (ad_default_value a); cbn in N; try congruence.
    unfold k in X. destruct (ad_type a); cbn in X; congruence.
Qed.

Lemma attr_definition_kept n n' a a' :
  input attr_def_of (plain_attr_def D) n a -> output attr_def_of n' a' -> erase_attr_def a' = normal_attr_def (spell_attr_def a) -> attr_def_kept n n'.
Proof.
  intros ((A1 & A2 & A3 & A4 & A5 & A6) & IA & (_ & _ & _ & _ & _ & _ & PD)) ((B1 & B2 & B3 & B4 & B5 & B6) & IB & _) E. destruct a as [t i dt x ds lc ln ed r dv mv], a' as [t' i' dt' x' ds' lc' ln' ed' r' dv' mv'].
  cbn in E. injection E as -> -> -> -> -> -> -> Hr -> ->. cbn [ad_type ad_identifier ad_description ad_last_change ad_long_name ad_editable ad_datatype_definition] in *.
  exists (at_name t). split; [exact A1|]. split; [exact B1|].
  split; [eapply labels_from; [exact A2|exact B2|..]; auto using same_refl, same_drop|].
  split; [eapply flag_same; eassumption|].
  split; [unfold ref_kept; rewrite A4, B4; apply ref_spelled|].
  split; [|eapply (defaults_kept n n' _ _ A5 B5 IA IB); [intros w W; specialize (PD w W); cbn [ad_type] in PD |- *; destruct t; auto|reflexivity|reflexivity|exact Hr]].
  intros X. unfold multi_of in A6, B6. cbn [ad_type ad_multi_valued] in A6, B6. destruct t; try discriminate X.
  apply (flag_same _ _ mv).
  - destruct (attr_opt "MULTI-VALUED" n) as [[|]|]; exact A6.
  - destruct (attr_opt "MULTI-VALUED" n') as [[|]|]; exact B6.
Qed.
Lemma Forall2_back {A B} (R R' : A -> B -> Prop) (e f : B -> B) (K : A -> A -> Prop) l l' x x' :
  (forall n n' a a', R n a -> R' n' a' -> e a' = f a -> K n n') -> Forall2 R l x -> Forall2 R' l' x' -> map e x' = map f x -> Forall2 K l l'.
Proof.
  intros H HA. revert l' x'. induction HA as [|n a l x HN _ IH]; intros l' x' HB E; destruct HB as [|n' a' l' x' HN' HB]; cbn in E; try discriminate E; [constructor|].
  injection E as E1 E2. constructor; [eapply H; eassumption|eapply IH; eassumption].
Qed.
Lemma images_back {B} t (R R' : node -> B -> Prop) (e f : B -> B) (K : node -> node -> Prop) n n' o o' :
  (forall n n' a a', R n a -> R' n' a' -> e a' = f a -> K n n') -> images t R n o -> images t R' n' o' -> map_list e o' = map_list f o ->
  matched K (section_items t n) (section_items t n').
Proof.
  unfold images. intros H HA HB E. destruct (section_items t n) as [l|], o as [x|]; try contradiction;
    destruct (section_items t n') as [l'|], o' as [x'|]; try contradiction; cbn in E; try discriminate E; constructor. injection E as E. eapply Forall2_back; eassumption.
Qed.
Lemma map_list_map {A B C} (f : B -> C) (g : A -> B) o : map_list f (map_list g o) = map_list (fun x => f (g x)) o.
Proof. destruct o; cbn; [rewrite map_map|]; reflexivity. Qed.
Lemma type_kept n n' t t' :
  input spec_type_of (fun t => plain_spec_type D t /\ SettleProofs.read_spec_type t) n t -> output spec_type_of n' t' -> erase_spec_type t' = normal_spec_type (spell_spec_type t) -> spec_type_kept n n'.
Proof.
  intros (HA & IA & (PA & _) & RD) (HB & IB & _) E. unfold spec_type_kept.
  assert (ST : forall c l, SettleProofs.read_definitions c l ->
            still_there c (map_list normal_attr_def (map_list spell_attr_def l)) = map_list normal_attr_def (map_list spell_attr_def l)).
  { intros c l [_ HN]. destruct c; [rewrite (HN eq_refl); reflexivity|destruct l as [[|]|]; reflexivity]. }
  assert (E' : erase_spec_type t' = match t with
     | STObject x => normal_spec_type (spell_spec_type t)
     | STRelation x => STRelation (SpecRelationType (srt_identifier x) (srt_description x) (srt_last_change x) (srt_long_name x)
         (still_closed (srt_is_self_closed x) (map_list normal_attr_def (map_list spell_attr_def (srt_attribute_definitions x))))
         (map_list normal_attr_def (map_list spell_attr_def (srt_attribute_definitions x))))
     | STGroup x => STGroup (RelationGroupType (rgt_identifier x) (rgt_description x) (rgt_last_change x) (rgt_long_name x)
         (still_closed (rgt_is_self_closed x) (map_list normal_attr_def (map_list spell_attr_def (rgt_attribute_definitions x))))
         (map_list normal_attr_def (map_list spell_attr_def (rgt_attribute_definitions x))))
     | STSpecification x => STSpecification (SpecificationType (spt_identifier x) (spt_description x) (spt_last_change x) (spt_long_name x)
         (map_list normal_attr_def (map_list spell_attr_def (spt_spec_attributes x)))
         (Some (name_map (map_list normal_attr_def (map_list spell_attr_def (spt_spec_attributes x)))))
         (still_closed (spt_is_self_closed x) (map_list normal_attr_def (map_list spell_attr_def (spt_spec_attributes x)))))
     end).
  { rewrite E. destruct t as [x|x|x|x]; [reflexivity|..]; unfold normal_spec_type, spell_spec_type;
      cbn [map_spec_type settle_spec_type srt_identifier srt_description srt_last_change srt_long_name srt_attribute_definitions srt_is_self_closed
         rgt_identifier rgt_description rgt_last_change rgt_long_name rgt_attribute_definitions rgt_is_self_closed
         spt_identifier spt_description spt_last_change spt_long_name spt_spec_attributes spt_is_self_closed spt_spec_attribute_map];
      rewrite ST; try reflexivity; apply RD. }
  clear E ST RD. rename E' into E.
  destruct t as [[i ds lc ln l]|[i ds lc ln c l]|[i ds lc ln l mp c]|[i ds lc ln c l]], t' as [[i' ds' lc' ln' l']|[i' ds' lc' ln' c' l']|[i' ds' lc' ln' l' mp' c']|[i' ds' lc' ln' c' l']];
    cbn in E; try discriminate E; injection E; clear E; intros;
    destruct HA as (A1 & A2 & A3), HB as (B1 & B2 & B3); cbn in A2, A3, B2, B3; subst;
    (split; [eauto|]); (split; [eapply labels_from; [exact A2|exact B2|..]; apply same_refl|]);
    ((eapply images_back; [exact attr_definition_kept|apply (images_with _ _ (plain_attr_def D)); [exact A3|exact IA|]|apply (images_with _ _ (fun _ => True)); [exact B3|exact IB|apply each_true]|]);
    [match goal with |- each _ ?l => destruct l; [exact PA|exact I] end|]);
    match goal with H : map_list erase_attr_def _ = _ |- _ => rewrite H, map_list_map; reflexivity end.
Qed.

(** ** Attribute values *)
Lemma texts_kept l : Forall2 same_ref l (map spelled l).
Proof. induction l; constructor; [apply ref_spelled|assumption]. Qed.
Lemma attribute_value_kept strip n n' a a' :
  input attr_value_of (plain_value V) n a -> output attr_value_of n' a' -> erase_value a' = normal_value strip (spell_value a) -> value_kept n n'.
Proof.
  intros ((A1 & A2 & A3) & IA & (_ & PA)) ((B1 & B2 & B3) & IB & _) E. destruct a as [t r v x y], a' as [t' r' v' x' y']. cbn in E. injection E as -> -> -> _.
  cbn [sa_type sa_definition_ref sa_value] in *. exists (at_name t). split; [exact A1|]. split; [exact B1|].
  destruct t; cbn [at_name] in *; lits_in_goal.
  all: try (split; [unfold ref_kept; rewrite A2, B2; apply ref_spelled|]).
  all: try (destruct A3 as (w & A3 & ->), B3 as (w' & B3 & E); injection E as ->; congruence).
  3:{ destruct A3 as (w & tv & -> & A3 & A4), B3 as (w' & tv' & E & B3 & B4). injection E as ->. exists tv, tv'. split; [exact A3|]. split; [exact B3|].
      intros HH. eapply (value_content M p u HP); [exact PA|exact (inside_find _ _ _ _ IA A3)| |exact A4|exact HH|exact (inside_find _ _ _ _ IB B3)| |exact B4].
      - unfold find_child, find_list in A3. apply find_some in A3. apply A3.
      - unfold find_child, find_list in B3. apply find_some in B3. apply B3. }
  - split.
    + destruct A2 as (d & g & m & m' & A2 & A4 & A5), B2 as (d' & g' & w & w' & B2 & B4 & B5). unfold grandchild_kept, grandchild.
      rewrite A2, B2, A4, B4. exists g, g'. split; [reflexivity|]. split; [reflexivity|]. rewrite A5, B5. apply ref_spelled.
    + destruct A3 as (w & A3 & ->), B3 as (w' & B3 & E). injection E as ->. congruence.
  - destruct A3 as (vs & A3 & ->), B3 as (vs' & B3 & E). injection E as E. unfold texts_at. cbn [path_node]. rewrite A3, B3. cbn [option_map].
    rewrite <- E. constructor. apply texts_kept.
Qed.

Lemma values_all b (Q : spec_attr -> Prop) n (l : list spec_attr) :
  match section_items "VALUES" n with None => l = [] | Some ks => Forall2 attr_value_of (no_comments ks) l end ->
  inside b n -> Forall Q l -> Forall2 (fun n a => attr_value_of n a /\ inside b n /\ Q a) (SpecKeep.values n) l.
Proof.
  intros H HI HQ. unfold SpecKeep.values. destruct (section_items "VALUES" n) as [ks|] eqn:E; [|subst; constructor].
  apply Forall2_with; [exact H|apply filter_sub, (inside_items _ _ _ _ HI E)|exact HQ].
Qed.

(** ** Objects, relations, specifications, relation groups *)
Lemma object_kept strip n n' o o' :
  input spec_object_of (plain_spec_object V) n o -> output spec_object_of n' o' -> erase_spec_object o' = normal_spec_object strip (spell_spec_object o) -> spec_object_kept n n'.
Proof.
  intros ((A1 & A2 & A3) & IA & (_ & _ & _ & _ & _ & PA)) ((B1 & B2 & B3) & IB & _) E. destruct o as [i at_ ty ds lc ln x], o' as [i' at' ty' ds' lc' ln' x']. cbn in E. injection E as -> EA -> -> -> ->.
  cbn [so_identifier so_description so_last_change so_long_name so_spec_object_type so_attributes] in *.
  split; [eapply labels_from; [exact A1|exact B1|..]; auto using same_refl, same_drop|].
  split; [unfold ref_kept; rewrite A2, B2; apply ref_spelled|].
  eapply Forall2_back; [exact (attribute_value_kept strip)|apply (values_all false (plain_value V)); [exact A3|exact IA|exact PA]
    |apply (values_all (some_scope M) (fun _ => True)); [exact B3|exact IB|apply Forall_forall; auto]|].
  rewrite EA, map_map. reflexivity.
Qed.
Lemma rel_value_kept strip n n' a a' :
  input relation_value_of (plain_value V) n a -> output relation_value_of n' a' -> erase_value a' = normal_value strip (spell_value a) -> relation_value_kept n n'.
Proof.
  intros ((A1 & A2) & IA & PA) ((B1 & B2) & IB & _) E. pose proof E as E0. destruct a as [t r v x y], a' as [t' r' v' x' y']. cbn in E. injection E as -> -> -> _.
  cbn [sa_type sa_definition_ref sa_value] in *. exists (at_name t). split; [exact A1|]. split; [exact B1|].
  assert (G : forall r0, (exists d r more more', children n = d :: more /\ children d = r :: more' /\ text r = r0) ->
    (exists d r more more', children n' = d :: more /\ children d = r :: more' /\ text r = spelled r0) -> grandchild_kept n n').
  { intros r0 (d & g & m & m' & X2 & X4 & X5) (d' & g' & w & w' & Y2 & Y4 & Y5). unfold grandchild_kept, grandchild.
    rewrite X2, Y2, X4, Y4. exists g, g'. split; [reflexivity|]. split; [reflexivity|]. rewrite X5, Y5. apply ref_spelled. }
  destruct t; cbn [at_name] in *; lits_in_goal; try contradiction.
  - destruct A2 as [A2 (w & A3 & ->)], B2 as [B2 (w' & B3 & E)]. injection E as ->. split; [eapply G; eassumption|congruence].
  - destruct A2 as [A2 (w & A3 & ->)], B2 as [B2 (w' & B3 & E)]. injection E as ->. split; [eapply G; eassumption|congruence].
  - destruct (attribute_value_kept strip n n' _ _ (conj A2 (conj IA PA)) (conj B2 (conj IB I)) E0) as (k & K1 & _ & K2 & K3).
    assert (k = "XHTML") by (destruct A2 as (T & _); cbn [sa_type at_name] in T; rewrite T in K1; injection K1 as K1; congruence). subst k.
    change (str_eqb "XHTML" "STRING") with false in K2. change (str_eqb "XHTML" "ENUMERATION") with false in K3. change (str_eqb "XHTML" "XHTML") with true in K3.
    split; [exact K2|exact K3].
Qed.
Lemma relation_kept strip n n' r r' :
  input spec_relation_of (plain_spec_relation V) n r -> output spec_relation_of n' r' -> erase_spec_relation r' = normal_spec_relation strip (spell_spec_relation r) -> spec_relation_kept n n'.
Proof.
  intros ((_ & A1 & A2 & A3 & A4 & A5) & IA & (_ & _ & _ & _ & _ & _ & _ & PA)) ((_ & B1 & B2 & B3 & B4 & B5) & IB & _) E. destruct r as [i ty so tg x ds lc ln v], r' as [i' ty' so' tg' x' ds' lc' ln' v'].
  cbn in E. injection E as -> -> -> -> -> -> -> EV.
  cbn [sr_identifier sr_description sr_last_change sr_long_name sr_relation_type_ref sr_source sr_target sr_values_attribute] in *.
  split; [eapply labels_from; [exact A1|exact B1|..]; auto using same_refl, same_drop|].
  split; [unfold ref_kept; rewrite A2, B2; apply ref_spelled|]. split; [unfold ref_kept; rewrite A3, B3; apply ref_spelled|].
  split; [unfold ref_kept; rewrite A4, B4; apply ref_spelled|].
  unfold relation_values_of in A5, B5. unfold first_value.
  destruct v as [a|], v' as [a'|]; cbn in EV; try discriminate EV.
  - destruct (section_items "VALUES" n) as [[|x1 l1]|] eqn:S1; try contradiction. destruct (section_items "VALUES" n') as [[|x2 l2]|] eqn:S2; try contradiction.
    injection EV as EV. constructor; [|constructor].
    eapply (rel_value_kept strip); [exact (conj A5 (conj (Forall_inv (inside_items _ _ _ _ IA S1)) (PA _ eq_refl)))|exact (conj B5 (conj (Forall_inv (inside_items _ _ _ _ IB S2)) I))|]. unfold erase_value, normal_value, spell_value. cbn. congruence.
  - destruct (section_items "VALUES" n) as [[|x1 l1]|]; try contradiction; destruct (section_items "VALUES" n') as [[|x2 l2]|]; try contradiction; constructor.
Qed.
Lemma hier_kept h : forall k k' n n' h',
  hier_of k n h -> hier_of k' n' h' -> erase_hier h' = normal_hier (spell_hier h) -> hierarchy_kept n n'.
Proof.
  induction h as [h IH] using hier_ind'. intros k k' n n' h' HA HB E.
  destruct HA as [k n h A0 A1 A2 A3 A4 A5 A6 A7 A8 A9], HB as [k' n' h' B0 B1 B2 B3 B4 B5 B6 B7 B8 B9].
  destruct h as [i so lv ch ln o lc ed tb sc nd], h' as [i' so' lv' ch' ln' o' lc' ed' tb' sc' nd'].
  cbn in E. injection E as -> -> _ EC -> _ -> -> -> _.
  cbn [h_identifier h_last_change h_long_name h_editable h_table h_spec_object h_level h_children h_kids] in *.
  constructor.
  - eapply same_cons; [exact A1|exact B1|apply same_refl|]. eapply same_cons; [exact A2|exact B2|apply same_drop|].
    eapply same_cons; [exact A3|exact B3|apply same_drop|apply same_nil].
  - eapply flag_same; eassumption.
  - eapply flag_same; eassumption.
  - unfold ref_kept. rewrite A6, B6. apply ref_spelled.
  - destruct (section_items "CHILDREN" n) as [ks|].
    + destruct ch as [hs|]; [|destruct A8 as [_ A8]; discriminate (A8 eq_refl)].
      destruct ch' as [hs'|]; [|discriminate EC]. destruct (section_items "CHILDREN" n') as [ks'|]; [|destruct B8 as [B8 _]; discriminate (B8 eq_refl)].
      specialize (A9 _ _ eq_refl eq_refl). specialize (B9 _ _ eq_refl eq_refl). cbn in EC. injection EC as EC. constructor.
      clear A8 B8. revert ks' hs' B9 EC. induction A9 as [|x y l l' HX HL IHL]; intros ks' hs' B9 EC; destruct B9 as [|x' y' m m' HX' HL']; try discriminate EC; [constructor|].
      cbn in EC. injection EC as E1 E2. inversion IH; subst. constructor; [eauto|]. eapply IHL; eassumption.
    + destruct ch as [hs|]; [destruct A8 as [A8 _]; discriminate (A8 eq_refl)|]. destruct ch' as [hs'|]; [discriminate EC|].
      destruct (section_items "CHILDREN" n') as [ks'|]; [destruct B8 as [_ B8]; discriminate (B8 eq_refl)|]. constructor.
Qed.
Lemma found_text t n x : find_child t n = Some x -> drop_empty (text x) = text x.
Proof.
  unfold find_child, find_list. intros H. apply find_some in H. destruct H as [_ H]. destruct x as [|? ? ? ? ? k| |]; try discriminate H.
  cbn [text]. destruct (lead k); reflexivity.
Qed.
Lemma path_found q t n : drop_empty (path_text (q ++ [t]) n) = path_text (q ++ [t]) n.
Proof.
  unfold path_text. rewrite path_app. destruct (path_node q n) as [x|]; [|reflexivity]. cbn [path_node].
  destruct (find_child t x) as [y|] eqn:E; [|reflexivity]. apply (found_text _ _ _ E).
Qed.
(** lists that are both absent, or related *)
Definition pairs {A B} (R : A -> B -> Prop) (o : option (list A)) (x : option (list B)) : Prop :=
  match o, x with None, None => True | Some l, Some y => Forall2 R l y | _, _ => False end.
Lemma pairs_back {A B} (R R' : A -> B -> Prop) (e f : B -> B) (K : A -> A -> Prop) o o' x x' :
  (forall n n' a a', R n a -> R' n' a' -> e a' = f a -> K n n') -> pairs R o x -> pairs R' o' x' -> map_list e x' = map_list f x -> matched K o o'.
Proof.
  intros H HA HB E. destruct o, x; try contradiction; destruct o', x'; try contradiction; try discriminate E; constructor.
  cbn in E. injection E as E. eapply Forall2_back; eassumption.
Qed.
Lemma spec_kept strip n n' s s' :
  input specification_of (plain_specification V) n s -> output specification_of n' s' -> erase_specification s' = normal_specification strip (spell_specification s) -> specification_kept n n'.
Proof.
  intros ((A1 & A2 & A3 & A4) & IA & (_ & _ & _ & _ & _ & PA & _)) ((B1 & B2 & B3 & B4) & IB & _) E. destruct s as [i ds lc ln vs ty ch x], s' as [i' ds' lc' ln' vs' ty' ch' x'].
  cbn in E. injection E as -> -> -> -> EV -> EC.
  cbn [sp_identifier sp_description sp_last_change sp_long_name sp_specification_type sp_children sp_values] in *.
  split; [eapply labels_from; [exact A1|exact B1|..]; auto using same_refl, same_drop|].
  split; [unfold text_kept; rewrite B2, <- A2; exact (path_found ["TYPE"] "SPECIFICATION-TYPE-REF" n)|].
  split.
  - eapply (pairs_back (hier_of 1) (hier_of 1) erase_hier (fun h => normal_hier (spell_hier h)) _ _ _ ch ch');
      [intros ? ? a a' X Y Z; exact (hier_kept a _ _ _ _ a' X Y Z)| | |].
    + unfold pairs. destruct (last_section "CHILDREN" n), ch; exact A3.
    + unfold pairs. destruct (last_section "CHILDREN" n'), ch'; exact B3.
    + rewrite EC, map_list_map. reflexivity.
  - eapply (pairs_back (input attr_value_of (plain_value V)) (output attr_value_of) _ _ _ _ _ vs vs'); [exact (attribute_value_kept strip)| | |].
    + unfold pairs, values_of in *. destruct (section_items "VALUES" n) eqn:S1, vs; try exact A4.
      apply Forall2_with; [exact A4|apply filter_sub, (inside_items _ _ _ _ IA S1)|exact PA].
    + unfold pairs, values_of in *. destruct (section_items "VALUES" n') eqn:S2, vs'; try exact B4.
      apply Forall2_with; [exact B4|apply filter_sub, (inside_items _ _ _ _ IB S2)|apply Forall_forall; auto].
    + rewrite EV, map_list_map. reflexivity.
Qed.
End Kept.
Lemma group_kept n n' g g' :
  relation_group_of n g -> relation_group_of n' g' -> g' = normal_relation_group (spell_relation_group g) -> relation_group_kept n n'.
Proof.
  intros (A1 & A2 & A3 & A4 & A5) (B1 & B2 & B3 & B4 & B5) E. subst g'. destruct g as [i ds lc ln ty so tg rs sc].
  cbn [normal_relation_group spell_relation_group rg_identifier rg_description rg_last_change rg_long_name rg_type_ref rg_source_specification_ref
    rg_target_specification_ref rg_spec_relations] in *.
  split; [eapply labels_from; [exact A1|exact B1|..]; auto using same_refl, same_drop|].
  split; [unfold text_kept; congruence|]. split; [unfold text_kept; congruence|]. split; [unfold text_kept; congruence|].
  unfold texts_at. unfold section_items in A5, B5. cbn [path_node].
  destruct (find_child "SPEC-RELATIONS" n) as [x|], (find_child "SPEC-RELATIONS" n') as [x'|]; cbn in A5, B5; subst rs; try discriminate B5; cbn [option_map]; constructor.
  cbn in B5. injection B5 as B5. rewrite <- B5. apply texts_kept.
Qed.

(** ** Header and document *)
Lemma headers_kept n n' h h' :
  parse_header n = Ok h -> parse_header n' = Ok h' -> h' = normal_header h -> header_kept n n'.
Proof.
  unfold parse_header. intros A B E. unfold header_kept, attribute_at, text_kept, path_text. cbn [path_node].
  destruct (tag_is "THE-HEADER" n); [|discriminate]. destruct (tag_is "THE-HEADER" n'); [|discriminate]. cbn [py_assert bind] in A, B.
  destruct (find_child "REQ-IF-HEADER" n) as [x|]; [|discriminate]. destruct (find_child "REQ-IF-HEADER" n') as [x'|]; [|discriminate].
  unfold attr_req in A, B. destruct (attr_opt "IDENTIFIER" x) as [i|]; [|discriminate]. destruct (attr_opt "IDENTIFIER" x') as [i'|]; [|discriminate].
  cbn [or_not_impl bind] in A, B. injection A as A. injection B as B. subst h h'. unfold normal_header in E.
  cbn [hd_identifier hd_comment hd_creation_time hd_repository_id hd_req_if_tool_id hd_req_if_version hd_source_tool_id hd_title] in E.
  injection E as E1 E2 E3 E4 E5 E6 E7 E8. subst i'.
  assert (F : forall t, child_text t x' = drop_empty (child_text t x) ->
     match match find_child t x' with Some n0 => Some n0 | None => None end with Some x0 => text x0 | None => None end
     = match match find_child t x with Some n0 => Some n0 | None => None end with Some x0 => text x0 | None => None end).
  { intros t. unfold child_text. destruct (find_child t x) as [y|] eqn:E; [rewrite (found_text _ _ _ E)|]; destruct (find_child t x'); cbn; auto. }
  split; [reflexivity|]. split.
  - repeat constructor; try (apply F; assumption).
    destruct (find_child "REPOSITORY-ID" x) as [y|], (find_child "REPOSITORY-ID" x') as [y'|]; try reflexivity.
    + destruct (text y), (text y'); congruence.
    + destruct (text y); congruence.
    + destruct (text y'); congruence.
  - destruct (find_child "REPOSITORY-ID" x) as [y|], (find_child "REPOSITORY-ID" x') as [y'|]; try (split; [discriminate|discriminate]); try tauto.
    + destruct (text y); congruence.
    + destruct (text y'); congruence.
Qed.
