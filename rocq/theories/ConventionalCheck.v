(** ConventionalCheck.v -- a program that finds documents conventional, and why
    it is right *)
From Verif Require Import Base Xml Lxml Py LxmlStr Models SpecEscape SpecPrint SpecXhtml SpecDocument SpecParse SpecConventional
  DictProofs ParserProofs Prop_RoundTrip.

Definition xhtml_placeb (t : str) (x : node) : bool := str_eqb t "ATTRIBUTE-VALUE-XHTML" && tag_is "THE-VALUE" x.
Definition tool_placeb (t : str) (x : node) : bool := str_eqb t "REQ-IF" && tag_is "TOOL-EXTENSIONS" x.
Fixpoint places (t : str) (x : node) : list (str * node) :=
  (t, x) :: (if xhtml_placeb t x || tool_placeb t x then [] else
             match x with
             | El _ _ _ _ _ kids =>
                 match tag x with
                 | Some t' => flat_map (fun k => if is_chr k then [] else places t' k) kids
                 | None => []
                 end
             | _ => []
             end).
Definition all_places (root : node) : list (str * node) := flat_map (places "REQ-IF") (children root).

Lemma tag_is_iff t x : tag_is t x = true <-> tag x = Some t.
Proof.
  unfold tag_is. destruct (tag x) as [y|]; [|split; discriminate]. rewrite str_eqb_eq. split; congruence.
Qed.
Lemma xhtml_placeb_iff t x : xhtml_placeb t x = true <-> xhtml_place t x.
Proof. unfold xhtml_placeb, xhtml_place. rewrite andb_true_iff, str_eqb_eq, tag_is_iff. reflexivity. Qed.
Lemma tool_placeb_iff t x : tool_placeb t x = true <-> tool_place t x.
Proof. unfold tool_placeb, tool_place. rewrite andb_true_iff, str_eqb_eq, tag_is_iff. reflexivity. Qed.
Lemma places_below t x t' k : ~ xhtml_place t x -> ~ tool_place t x -> tag x = Some t' -> In k (children x) -> In (t', k) (places t x).
Proof.
  intros H1 H2 HT HK. rewrite <- xhtml_placeb_iff in H1. rewrite <- tool_placeb_iff in H2. apply not_true_is_false in H1, H2.
  destruct x; try contradiction. cbn [places]. rewrite H1, H2, HT. cbn [orb]. right. apply filter_In in HK. destruct HK as [HK HC]. apply in_flat_map. exists k. split; [exact HK|].
  apply negb_true_iff in HC. rewrite HC. destruct k; left; reflexivity.
Qed.
Lemma places_trans : forall y t0 t x, In (t, x) (places t0 y) -> incl (places t x) (places t0 y).
Proof.
  induction y as [c|s|s|ns l d i a kids IH] using node_ind'; intros t0 t x H; cbn [places] in H; destruct H as [H|H];
    try (injection H as <- <-; apply incl_refl); try (destruct (xhtml_placeb _ _ || tool_placeb _ _); contradiction).
  intros e HE. cbn [places]. destruct (xhtml_placeb t0 (El ns l d i a kids) || tool_placeb t0 (El ns l d i a kids)); [contradiction|]. right.
  destruct (tag (El ns l d i a kids)) as [t'|]; [|contradiction]. apply in_flat_map in H. destruct H as (k & HK & H).
  apply in_flat_map. exists k. split; [exact HK|]. destruct (is_chr k); [contradiction|]. rewrite Forall_forall in IH. apply (IH k HK t' t x H e HE).
Qed.
Lemma placed_listed root t x : placed root t x -> In (t, x) (all_places root).
Proof.
  unfold all_places. induction 1 as [x HX|t x t' k _ IH H1 H2 HT HK].
  - apply in_flat_map. exists x. split; [exact HX|]. destruct x; left; reflexivity.
  - apply in_flat_map in IH. destruct IH as (y & HY & HI). apply in_flat_map. exists y. split; [exact HY|].
    apply (places_trans _ _ _ _ HI), places_below; assumption.
Qed.

(** ** Attributes and texts *)
Definition escaped_lxmlb (parent own k : str) : bool :=
  (str_eqb parent "DATATYPES" && str_eqb k "DESC")
  || (str_eqb parent "DATATYPES" && str_eqb k "LONG-NAME"
      && str_mem own ["DATATYPE-DEFINITION-STRING"; "DATATYPE-DEFINITION-BOOLEAN";
                      "DATATYPE-DEFINITION-XHTML"; "DATATYPE-DEFINITION-ENUMERATION"])
  || (str_eqb parent "SPECIFIED-VALUES" && str_eqb k "LONG-NAME")
  || (str_eqb parent "SPEC-TYPES" && str_eqb own "SPEC-OBJECT-TYPE" && str_mem k ["DESC"; "LONG-NAME"])
  || (str_eqb parent "SPEC-ATTRIBUTES" && str_mem k ["DESC"; "LONG-NAME"])
  || (str_eqb parent "SPECIFICATIONS" && str_mem k ["DESC"; "LONG-NAME"]).
Definition escaped_htmlb (parent own k : str) : bool :=
  (str_eqb parent "SPEC-TYPES" && str_mem own ["SPEC-RELATION-TYPE"; "RELATION-GROUP-TYPE"] && str_eqb k "DESC")
  || (str_eqb parent "SPEC-RELATIONS" && str_eqb k "LONG-NAME")
  || (str_eqb parent "VALUES" && str_eqb own "ATTRIBUTE-VALUE-STRING" && str_eqb k "THE-VALUE").
Lemma escaped_lxmlb_iff t own k : escaped_lxmlb t own k = true <-> escaped_lxml t own k.
Proof. unfold escaped_lxmlb, escaped_lxml. rewrite !orb_true_iff, !andb_true_iff, !str_eqb_eq, !str_mem_In. tauto. Qed.
Lemma escaped_htmlb_iff t own k : escaped_htmlb t own k = true <-> escaped_html t own k.
Proof. unfold escaped_htmlb, escaped_html. rewrite !orb_true_iff, !andb_true_iff, !str_eqb_eq, !str_mem_In. tauto. Qed.
Definition attribute_fitsb (t own k v : str) : bool :=
  plain_text [9; 10; 13; 34; 38; 60]%N v
  || (escaped_lxmlb t own k && plain_text [10; 13]%N v)
  || (escaped_htmlb t own k && plain_text [9; 10; 13]%N v).
Lemma attribute_fitsb_ok t own k v : attribute_fitsb t own k v = true -> attribute_fits t own k v.
Proof.
  unfold attribute_fitsb, attribute_fits. rewrite !orb_true_iff, !andb_true_iff, escaped_lxmlb_iff, escaped_htmlb_iff.
  intros [[H|[H1 H]]|[H1 H]]; apply plain_text_ok in H; auto.
Qed.
Lemma assoc_In k l v : assoc k l = Some v -> In (k, v) l.
Proof.
  induction l as [|[k' v'] l IH]; cbn [assoc]; [discriminate|]. destruct (str_eqb_spec k k') as [->|_]; [intros H; injection H as ->; left; reflexivity|right; auto].
Qed.
Definition is_nil {A} (l : list A) : bool := match l with [] => true | _ => false end.
Definition attributes_ok (tx : str * node) : bool :=
  match tag (snd tx) with
  | Some own => forallb (fun kv => attribute_fitsb (fst tx) own (fst kv) (snd kv)) (attrib (snd tx))
  | None => true
  end.
Definition text_fitsb (t : str) (x : node) (v : str) : bool :=
  negb (is_nil v) && ((plain_text [13; 38; 60]%N v && section_end_free v)
     || (str_eqb t "REQ-IF-HEADER" && tag_is "TITLE" x && (plain_text [13; 60]%N v && section_end_free v))).
Definition texts_ok (tx : str * node) : bool :=
  match text (snd tx) with
  | Some v => xhtml_placeb (fst tx) (snd tx)
              || (is_comment (snd tx) && negb (str_mem (fst tx) ["VALUES"; "SPEC-RELATIONS"; "DEFINITION"]))
              || text_fitsb (fst tx) (snd tx) v
  | None => true
  end.
Lemma text_fitsb_ok t x v : text_fitsb t x v = true -> text_fits t x v.
Proof.
  unfold text_fitsb, text_fits. rewrite andb_true_iff, orb_true_iff. intros [H1 H2]. split; [destruct v; discriminate|].
  destruct H2 as [H2|H2]; [left; apply text_raw_ok, H2|right]. apply andb_prop in H2. destruct H2 as [H2 H3]. apply andb_prop in H2. destruct H2 as [H2 H4].
  split; [apply str_eqb_eq, H2|]. split; [apply tag_is_iff, H4|apply text_title_ok, H3].
Qed.

(** ** XHTML *)
Fixpoint markup_of (u : str) (n : node) : option xh :=
  match n with
  | Chr c => Some (XT c)
  | El (Some (_, u')) l [] i attrs kids =>
      if str_eqb u' u && negb (existsb (fun d => negb (match fst d with Some _ => true | None => false end) && str_eqb (snd d) u) i)
         && forallb (fun x => match a_ns x with None => true | _ => false end) attrs
      then option_map (XE l (map (fun x => (a_local x, a_val x)) attrs))
             ((fix all ks := match ks with
                             | [] => Some []
                             | k :: ks' => match markup_of u k, all ks' with Some x, Some f => Some (x :: f) | _, _ => None end
                             end) kids)
      else None
  | _ => None
  end.
Definition forest_of (u : str) : list node -> option (list xh) :=
  fix all ks := match ks with
                | [] => Some []
                | k :: ks' => match markup_of u k, all ks' with Some x, Some f => Some (x :: f) | _, _ => None end
                end.
Lemma forest_each u ks : forall f, forest_of u ks = Some f -> Forall (fun k => forall x, markup_of u k = Some x -> markup u k x) ks -> Forall2 (markup u) ks f.
Proof.
  induction ks as [|k ks IH]; intros f H HF; cbn in H.
  - injection H as <-. constructor.
  - destruct (markup_of u k) as [x|] eqn:E; [|discriminate]. fold (forest_of u ks) in H. destruct (forest_of u ks) as [f'|]; [|discriminate]. injection H as <-.
    inversion HF; subst. constructor; [auto|]. apply IH; [reflexivity|assumption].
Qed.
Lemma markup_of_ok u : forall n x, markup_of u n = Some x -> markup u n x.
Proof.
  induction n as [c|s|s|ns l d i a kids IH] using node_ind'; intros x H; try discriminate H.
  - injection H as <-. constructor.
  - destruct ns as [[q u']|]; [|discriminate H]. destruct d; [|discriminate H].
    cbn [markup_of] in H. change ((fix all ks := match ks with [] => Some [] | k :: ks' => match markup_of u k with Some x0 => match all ks' with Some f => Some (x0 :: f) | None => None end | None => None end end) kids)
      with (forest_of u kids) in H.
    destruct (str_eqb u' u && _ && _) eqn:EB; [|discriminate]. rewrite !andb_true_iff in EB. destruct EB as [[E1 E2] E3]. apply str_eqb_eq in E1. subst u'.
    destruct (forest_of u kids) as [f|] eqn:EF; [|discriminate]. injection H as <-.
    assert (EA : a = map (fun kv => Attr None (fst kv) (snd kv)) (map (fun x => (a_local x, a_val x)) a)).
    { rewrite map_map. cbn [fst snd]. clear -E3. induction a as [|y a IHa]; [reflexivity|]. cbn [forallb] in E3. apply andb_prop in E3. destruct E3 as [E3 E4].
      cbn [map]. f_equal; [|apply IHa, E4]. destruct y as [o l0 v0]. cbn in *. destruct o; [discriminate|reflexivity]. }
    rewrite EA at 1. constructor; [|apply forest_each; [exact EF|exact IH]].
    intros HI. apply negb_true_iff in E2. assert (K : existsb (fun d => negb (match fst d with Some _ => true | None => false end) && str_eqb (snd d) u) i = true).
    { apply existsb_exists. exists (None, u). split; [exact HI|]. cbn [fst snd negb andb]. apply str_eqb_eq. reflexivity. }
    congruence.
Qed.
Definition markedb (root : node) : bool :=
  match path_node ["CORE-CONTENT"; "REQ-IF-CONTENT"] root with
  | Some rc =>
      existsb (fun o => existsb (fun v => tag_is "ATTRIBUTE-VALUE-XHTML" v
                 && match find_child "THE-VALUE" v with Some tv => negb (is_nil (children tv)) | None => false end)
               (items (section_items "VALUES" o)))
        (items (section_items "SPEC-OBJECTS" rc))
  | None => false
  end.
Lemma markedb_ok root : markedb root = true -> marked root.
Proof.
  unfold markedb, marked. destruct (path_node _ root) as [rc|] eqn:E; [|discriminate]. intros H. apply existsb_exists in H. destruct H as (o & HO & H).
  apply existsb_exists in H. destruct H as (v & HV & H). apply andb_prop in H. destruct H as [H1 H2].
  destruct (section_items "SPEC-OBJECTS" rc) as [ks|] eqn:E1; [|contradiction]. destruct (section_items "VALUES" o) as [vs|] eqn:E2; [|contradiction].
  destruct (find_child "THE-VALUE" v) as [tv|] eqn:E3; [|discriminate]. destruct (children tv) as [|k ks'] eqn:E4; [discriminate|].
  exists rc, ks, o, vs, v, tv, k. rewrite E4. apply tag_is_iff in H1. cbn [items] in *. repeat split; auto. left. reflexivity.
Qed.
Definition stays_visibleb (r : root_tag) (p : str) (root : node) : bool :=
  negb (is_nil (visible r p false)) || (markedb root && negb (is_nil (visible r p true))).
Lemma stays_visibleb_ok r p root : stays_visibleb r p root = true -> stays_visible r p root.
Proof.
  unfold stays_visibleb, stays_visible. rewrite orb_true_iff, andb_true_iff. intros [H|[H1 H]]; [left|right; split; [apply markedb_ok, H1|]];
    match goal with |- ?l <> [] => destruct l; discriminate end.
Qed.
Definition heads (l : list (option str * str)) (p u : str) : bool :=
  match l with (Some q, v) :: _ => str_eqb q p && str_eqb v u | _ => false end.
Lemma heads_ok l p u : heads l p u = true -> hd_error l = Some (Some p, u).
Proof. destruct l as [|[[q|] v] l]; try discriminate. cbn. rewrite andb_true_iff, !str_eqb_eq. intros [-> ->]. reflexivity. Qed.
Definition value_fitsb (r : root_tag) (p u : str) (root tv : node) : bool :=
  match forest_of u (kids_of tv) with
  | Some f => forallb xh_okb f
              && (if has_markup f then heads (node_nsmap tv) p u && heads (visible r p true) p u
                  else (negb (is_nil (node_nsmap tv)) && stays_visibleb r p root)
                       || str_eqb (substitute lxml_table (leading f)) (leading f))
  | None => false
  end.
Lemma value_fitsb_ok r p u root tv : value_fitsb r p u root tv = true -> value_fits r p u root tv.
Proof.
  unfold value_fitsb, value_fits. destruct (forest_of u (kids_of tv)) as [f|] eqn:E; [|discriminate]. rewrite andb_true_iff. intros [H1 H2].
  exists f. split; [apply forest_okb, H1|]. split; [apply forest_each; [exact E|]; apply Forall_forall; intros k _; apply markup_of_ok|].
  destruct (has_markup f); split; intros HM; try discriminate.
  - apply andb_prop in H2. split; apply heads_ok, H2.
  - apply orb_true_iff in H2. destruct H2 as [H2|H2]; [left|right; apply str_eqb_eq, H2]. apply andb_prop in H2. destruct H2 as [H2 H3].
    split; [destruct (node_nsmap tv); discriminate|apply stays_visibleb_ok, H3].
Qed.

(** ** The whole document *)
Definition default_ok (r : root_tag) (p : str) (root x : node) : bool :=
  if tag_is "DEFAULT-VALUE" x
  then match path_node ["ATTRIBUTE-VALUE-XHTML"; "THE-VALUE"] x with
       | Some tv => negb (is_nil (children tv)) || stays_visibleb r p root
       | None => true
       end
  else true.
Definition definition_ok (x : node) : bool :=
  if tag_is "ATTRIBUTE-VALUE-STRING" x || tag_is "ATTRIBUTE-VALUE-INTEGER" x
  then match children x with d :: _ => tag_is "DEFINITION" d | [] => true end else true.
Definition conventionalb (r : root_tag) (p u : str) (root : node) : bool :=
  forallb (fun tx => attributes_ok tx && texts_ok tx
             && (if xhtml_placeb (fst tx) (snd tx) then value_fitsb r p u root (snd tx) else true)
             && default_ok r p root (snd tx) && definition_ok (snd tx)) (all_places root).
Theorem conventionalb_ok r p u root : conventionalb r p u root = true -> conventional r p u root.
Proof.
  unfold conventionalb. rewrite forallb_forall. intros H.
  assert (K : forall t x, placed root t x -> attributes_ok (t, x) = true /\ texts_ok (t, x) = true
     /\ (if xhtml_placeb t x then value_fitsb r p u root x else true) = true /\ default_ok r p root x = true /\ definition_ok x = true).
  { intros t x HP. apply placed_listed in HP. apply H in HP. cbn [fst snd] in HP. rewrite !andb_true_iff in HP. tauto. }
  clear H. split; intros t x.
  - intros own k v HP HT HA. destruct (K _ _ HP) as (G & _). unfold attributes_ok in G. cbn [fst snd] in G. rewrite HT, forallb_forall in G.
    apply assoc_In in HA. apply attribute_fitsb_ok, (G _ HA).
  - intros v HP [HX HC] HV. destruct (K _ _ HP) as (_ & G & _). unfold texts_ok in G. cbn [fst snd] in G. rewrite HV, !orb_true_iff in G.
    destruct G as [[G|G]|G]; [apply xhtml_placeb_iff in G; contradiction| |apply text_fitsb_ok, G].
    apply andb_prop in G. destruct G as [G1 G2]. specialize (HC G1). apply str_mem_In in HC. rewrite HC in G2. discriminate.
  - intros HP HX. destruct (K _ _ HP) as (_ & _ & G & _). apply xhtml_placeb_iff in HX. rewrite HX in G. apply value_fitsb_ok, G.
  - intros tv HP HT HD. destruct (K _ _ HP) as (_ & _ & _ & G & _). unfold default_ok in G. rewrite (proj2 (tag_is_iff _ _) HT), HD in G.
    apply orb_true_iff in G. destruct G as [G|G]; [left; destruct (children tv); discriminate|right; apply stays_visibleb_ok, G].
  - intros d more HP HI HC. destruct (K _ _ HP) as (_ & _ & _ & _ & G). unfold definition_ok in G. rewrite HC in G.
    assert (E : tag_is "ATTRIBUTE-VALUE-STRING" x || tag_is "ATTRIBUTE-VALUE-INTEGER" x = true).
    { apply orb_true_iff. rewrite !tag_is_iff. destruct HI as [<-|[<-|[]]]; auto. }
    rewrite E in G. apply tag_is_iff, G.
Qed.
