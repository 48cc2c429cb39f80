(** LayoutProofs.v -- the parser does not look at the layout *)
From Coq Require Import Permutation.
From Verif Require Import Base Xml Utf8 Lxml Py LxmlStr Models AttrDef DataType Header AttrValue SpecObj
  Hierarchy SpecTypes Progress Parser Unparser SpecParse XmlProofs DictProofs ProgressProofs TraversalProofs ParserProofs FaithProofs
  ParserErrors IsolationProofs AcceptProofs SpecPrint SpecDocument SpecFormat SpecLayout.
From Verif Require SpaceProofs.

(** ** Results up to the nodes in them *)
Lemma same_exn_refl e : same_exception e e.
Proof. destruct e; reflexivity. Qed.
Lemma same_bind {A B} (R : A -> A -> Prop) (S : B -> B -> Prop) (m m' : result A) (f f' : A -> result B) :
  same_result R m m' -> (forall a a', R a a' -> same_result S (f a) (f' a')) ->
  same_result S (bind m f) (bind m' f').
Proof. destruct m, m'; cbn; auto; contradiction. Qed.
Lemma same_refl {A} (R : A -> A -> Prop) (r : result A) : (forall a, R a a) -> same_result R r r.
Proof. intros H. destruct r; cbn; auto using same_exn_refl. Qed.
Lemma same_bind_eq {A B} (S : B -> B -> Prop) (m : result A) (f f' : A -> result B) :
  (forall a, same_result S (f a) (f' a)) -> same_result S (bind m f) (bind m f').
Proof. intros H. destruct m; cbn; auto using same_exn_refl. Qed.
Lemma same_mapM {A B} (Q : A -> A -> Prop) (R : B -> B -> Prop) (f : A -> result B) l l' :
  (forall a a', Q a a' -> same_result R (f a) (f a')) -> Forall2 Q l l' ->
  same_result (Forall2 R) (mapM f l) (mapM f l').
Proof.
  intros H F. induction F as [|x y l l' Hxy _ IH]; [constructor|]. cbn [mapM].
  apply (same_bind R); [apply H, Hxy|]. intros a a' Ra. apply (same_bind (Forall2 R)); [exact IH|].
  intros b b' Rb. cbn. constructor; assumption.
Qed.
Lemma same_mono {A} (R S : A -> A -> Prop) r r' :
  (forall a b, R a b -> S a b) -> same_result R r r' -> same_result S r r'.
Proof. intros H. destruct r, r'; cbn; auto. Qed.

(** ** XHTML values without their white space, if [b] *)
Definition zs (b : bool) (s : str) : str := if b then squeeze s else s.
Definition z_val (b : bool) (a : spec_attr) : spec_attr := if b then squeeze_value a else a.
Definition z_ad (b : bool) (a : attr_def) : attr_def := if b then squeeze_attr_def a else a.
Definition z_dv (b : bool) (t : attr_type) (d : default_value) : default_value :=
  match t, d with AT_XHTML, DVStr s => DVStr (zs b s) | _, _ => d end.
Lemma z_val_other b a : sa_type a <> AT_XHTML -> z_val b a = a.
Proof. intros H. destruct b; [|reflexivity]. cbn. unfold squeeze_value. destruct (sa_type a); try reflexivity. contradiction. Qed.
Lemma z_ad_dv b t i dt x d lc ln e r dv dv' m :
  z_dv b t dv = z_dv b t dv' ->
  z_ad b (AttrDef t i dt x d lc ln e r dv m) = z_ad b (AttrDef t i dt x d lc ln e r dv' m).
Proof.
  intros H. destruct b; cbn [z_ad].
  - unfold squeeze_attr_def. cbn. destruct t; cbn in H; try (rewrite H; reflexivity).
    destruct dv, dv'; cbn in *; try discriminate H; congruence.
  - destruct t; cbn in H; try (rewrite H; reflexivity). destruct dv, dv'; cbn in *; try discriminate H; congruence.
Qed.
Lemma z_ad_fields b a : ad_long_name (z_ad b a) = ad_long_name a /\ ad_identifier (z_ad b a) = ad_identifier a.
Proof. destruct b; [|split; reflexivity]. cbn. unfold squeeze_attr_def. destruct (ad_type a); split; reflexivity. Qed.
(** ** Related nodes *)
Section Layout.
Variable xw : bool.
Local Notation relaid := (SpecLayout.relaid xw).
Local Notation relaid_root := (SpecLayout.relaid_root xw).
Lemma items_children n : items (kids_of n) = children n.
Proof. unfold items, children. apply filter_ext. intros [| | |]; reflexivity. Qed.
Ltac free_el RS := apply SpaceProofs.respaced_near in RS; destruct RS as (? & -> & RS).
Lemma relaid_tag p n n' : relaid p n n' -> tag n = tag n'.
Proof. intros H. inversion H as [|? ? ? C|? ? ? ? ? ? ? ? FR RS|]; subst; try (free_el RS); reflexivity. Qed.
Lemma relaid_cmt p n n' : relaid p n n' -> is_comment n = is_comment n'.
Proof. intros H. inversion H as [|? ? ? C|? ? ? ? ? ? ? ? FR RS|]; subst; try (free_el RS); reflexivity. Qed.
Lemma relaid_nsmap p n n' : relaid p n n' -> node_nsmap n = node_nsmap n'.
Proof. intros H. inversion H as [|? ? ? C|? ? ? ? ? ? ? ? FR RS|]; subst; try (free_el RS); reflexivity. Qed.
Lemma assoc_perm k l l' : Permutation l l' -> NoDup (map fst l) -> assoc k l = assoc k l'.
Proof.
  intros P. induction P as [|[x v] l l' P IH|[x v] [y w] l|l1 l2 l3 P1 IH1 P2 IH2]; intros N; [reflexivity|..].
  - cbn in *. inversion N; subst. destruct (str_eqb k x); auto.
  - cbn in *. destruct (str_eqb_spec k x), (str_eqb_spec k y); try reflexivity. subst.
    inversion N as [|? ? H _]; subst. exfalso. apply H. left. reflexivity.
  - rewrite IH1 by assumption. apply IH2. apply (Permutation_NoDup (l := map fst l1)); [|exact N].
    apply Permutation_map, P1.
Qed.
Lemma relaid_attr p n n' k : relaid p n n' -> attr_opt k n = attr_opt k n'.
Proof.
  intros H. inversion H as [|? ? ? C|? ? ? ? ? ? ? ? FR RS|? ? ? ? ? ? ? ? ? ? T P N K]; subst; try reflexivity; [free_el RS; reflexivity|].
  destruct N as [->|N]; [reflexivity|]. unfold attr_opt. cbn [attrib]. apply assoc_perm.
  - apply Permutation_map. assumption.
  - rewrite map_map. assumption.
Qed.
Lemma relaid_refl_list p l : Forall2 (relaid p) l l.
Proof. induction l; constructor; [constructor|assumption]. Qed.
Lemma relaid_last n n' : relaid InLast n n' -> n = n'.
Proof. intros H. inversion H; subst; [reflexivity|discriminate|discriminate|contradiction]. Qed.
Lemma relaid_last_list l l' : Forall2 (relaid InLast) l l' -> l = l'.
Proof. intros H. induction H as [|x y l l' Hxy _ IH]; [reflexivity|]. apply relaid_last in Hxy. congruence. Qed.
Lemma Forall2_nil_l {A} (R : A -> A -> Prop) l l' : Forall2 R l l' -> l = [] <-> l' = [].
Proof. intros H. inversion H; subst; split; intros E; try discriminate; reflexivity. Qed.
(** the children [l] and [l'] in the place [p] *)
Definition kids_rel (p : place) (l l' : list node) : Prop :=
  exists mid, rearranged p l mid /\ Forall2 (relaid p) mid l'.
Definition content_rel_ (p : place) (kids kids' : list node) : Prop :=
  kids = kids' \/ items kids <> [] /\ (exists mid, rearranged p (items kids) mid /\ Forall2 (relaid p) mid (items kids')).
Lemma kids_refl p l : kids_rel p l l.
Proof. exists l. split; [left; reflexivity|apply relaid_refl_list]. Qed.
Lemma in_order p l l' : unordered p = false -> kids_rel p l l' -> Forall2 (relaid p) l l'.
Proof. intros U (mid & [->|[U' _]] & F); [exact F|congruence]. Qed.
Lemma kids_nil p l l' : kids_rel p l l' -> l = [] <-> l' = [].
Proof.
  intros (mid & R & F). rewrite <- (Forall2_nil_l _ _ _ F). destruct R as [->|(_ & P & _)]; [reflexivity|].
  split; intros ->; [apply Permutation_nil; exact P|apply Permutation_nil; symmetry; exact P].
Qed.
Lemma content_kids p kids kids' n n' :
  content_rel_ p kids kids' -> children n = items kids -> children n' = items kids' -> kids_rel p (children n) (children n').
Proof. intros [<-|[_ K]] -> ->; [apply kids_refl|exact K]. Qed.
Lemma near_items P kids kids' : SpaceProofs.near P kids kids' -> kids = kids' \/ items kids <> [] /\ items kids' <> [].
Proof.
  intros [[_ ->]|(t & t' & m & m' & A & -> & -> & D & E & F & G)]; [left; reflexivity|right].
  rewrite !SpaceProofs.items_un by assumption. inversion G; subst; [contradiction|]. split; discriminate.
Qed.
Lemma relaid_closed p n n' : relaid p n n' -> is_self_closed_tag n = is_self_closed_tag n'.
Proof.
  intros H. inversion H as [|? ? ? C|? ? ? ? ? ? ? ? FR RS|? p' ns l defs inh attrs attrs' kids kids' T P N K]; subst; try reflexivity.
  { free_el RS. destruct (near_items _ _ _ RS) as [->|[E1 E2]]; [reflexivity|]. unfold is_self_closed_tag. rewrite <- !items_children. cbn [kids_of].
    destruct (items kids) as [|y1 l1], (items x) as [|y2 l2]; try contradiction. reflexivity. }
  destruct K as [->|[K1 K2]]; [reflexivity|]. unfold is_self_closed_tag. rewrite <- !items_children. cbn [kids_of].
  pose proof (kids_nil _ _ _ K2) as KN. destruct (items kids); [contradiction|].
  destruct (items kids') as [|y l2]; [|reflexivity]. destruct KN as [_ KN]. discriminate (KN eq_refl).
Qed.
(** the place in which the children of an element are *)
Fixpoint look (t : str) (l : list (str * place)) : place :=
  match l with [] => InLast | (k, p) :: l' => if str_eqb t k then p else look t l' end.
Lemma look_in p t q : In (t, q) (table p) -> q = look t (table p).
Proof.
  destruct p; cbn [table map kinds_of kinds]; intros H;
  repeat match type of H with
  | _ \/ _ => destruct H as [H|H]
  | In _ (_ :: _) => destruct H as [H|H]
  | (_, _) = (_, _) => injection H as <- <-; vm_compute; reflexivity
  | In _ [] => destruct H
  | False => destruct H
  end.
Qed.
Definition plain (t : str) : bool := match t with c :: _ => negb (N.eqb c 123) | [] => true end.
Lemma plain_clark ns l t : plain t = true -> clark ns l = t -> l = t.
Proof.
  intros T E. destruct ns as [[q u]|]; [|exact E]. cbn in E. destruct t as [|c t]; [discriminate|]. injection E as <- E.
  discriminate T.
Qed.
Lemma relaid_kids p t n n' :
  relaid p n n' -> plain t = true -> free xw p t = false -> tag n = Some t ->
  kids_rel (look t (table p)) (children n) (children n').
Proof.
  intros H T FT E. inversion H as [|? ? ? C|? ? ? ? ? ? ? ? FR RS|? p' ns l defs inh attrs attrs' kids kids' I P N K]; subst;
    try apply kids_refl.
  { exfalso. cbn [tag] in E. injection E as E. apply (plain_clark _ _ _ T) in E. congruence. }
  cbn in E. injection E as E. assert (EL : l = t).
  { destruct ns as [[q u]|]; [|exact E]. cbn in E. destruct t as [|c t]; [discriminate|]. injection E as <- E.
    discriminate T. }
  rewrite EL in I. apply look_in in I. rewrite <- I.
  apply (content_kids _ kids kids'); [exact K|symmetry; apply (items_children (El _ _ _ _ _ _))..].
Qed.
Definition opt_rel {A} (R : A -> A -> Prop) (o o' : option A) : Prop :=
  match o, o' with Some a, Some b => R a b | None, None => True | _, _ => False end.
Lemma find_children t n : find_child t n = find_list t (children n).
Proof.
  unfold find_child, children, find_list. induction (kids_of n) as [|k l IH]; [reflexivity|].
  destruct k; cbn [find filter is_chr negb]; rewrite IH; reflexivity.
Qed.
Lemma find_forall p t l l' : Forall2 (relaid p) l l' -> opt_rel (relaid p) (find_list t l) (find_list t l').
Proof.
  intros H. unfold find_list. induction H as [|x y l l' Hxy _ IH]; [exact I|]. cbn [find].
  assert (E : tag_is t x = tag_is t y) by (unfold tag_is; rewrite (relaid_tag _ _ _ Hxy); reflexivity).
  rewrite <- E. destruct (tag_is t x); [exact Hxy|exact IH].
Qed.
Lemma names_in t n : plain t = true -> tag_is t n = true -> In t (names [n]).
Proof.
  intros T E. destruct n as [c|ns l d i a k|s|s]; try discriminate E. unfold tag_is in E. cbn [tag] in E.
  apply str_eqb_eq in E. left. apply (plain_clark ns l t T E).
Qed.
Lemma names_app l l' : names (l ++ l') = names l ++ names l'.
Proof. apply flat_map_app. Qed.
Lemma nodup_r {A} (a b : list A) : NoDup (a ++ b) -> NoDup b.
Proof. induction a as [|x a IH]; [auto|]. cbn. intros N. inversion N; auto. Qed.
Lemma find_perm t l l' : plain t = true -> Permutation l l' -> NoDup (names l) -> find_list t l = find_list t l'.
Proof.
  intros T P. unfold find_list. induction P as [|x l l' P IH|x y l|l1 l2 l3 P1 IH1 P2 IH2]; intros N; [reflexivity|..].
  - cbn [find]. destruct (tag_is t x); [reflexivity|]. apply IH. change (x :: l) with ([x] ++ l) in N. rewrite names_app in N. apply nodup_r in N. exact N.
  - cbn [find]. destruct (tag_is t x) eqn:EX, (tag_is t y) eqn:EY; try reflexivity. exfalso.
    apply (names_in t) in EX, EY; try exact T.
    change (y :: x :: l) with ([y] ++ [x] ++ l) in N. rewrite !names_app in N. 
    assert (G : forall A (a b : list A) v, NoDup (a ++ b) -> In v a -> In v b -> False).
    { intros A a b v. induction a as [|w a IHa]; [intros _ []|]. cbn. intros N1 [->|I1] I2; inversion N1; subst; [|auto].
      apply H1. apply in_or_app. right. exact I2. }
    apply (G _ _ _ t N EY). apply in_or_app. left. exact EX.
  - rewrite IH1 by assumption. apply IH2. apply (Permutation_NoDup (l := names l1)); [|exact N]. apply Permutation_flat_map, P1.
Qed.
Lemma find_rel p t l l' : kids_rel p l l' -> plain t = true -> opt_rel (relaid p) (find_list t l) (find_list t l').
Proof.
  intros (mid & R & F) T. replace (find_list t l) with (find_list t mid); [apply find_forall, F|].
  destruct R as [->|(_ & P & N)]; [reflexivity|]. symmetry. apply find_perm; assumption.
Qed.
Lemma find_rel_child p t n n' :
  kids_rel p (children n) (children n') -> plain t = true -> opt_rel (relaid p) (find_child t n) (find_child t n').
Proof. intros H T. rewrite !find_children. apply find_rel; assumption. Qed.
Lemma find_tag t n x : find_child t n = Some x -> tag x = Some t.
Proof. unfold find_child, find_list. intros H. apply find_some in H. apply tag_is_eq, (proj2 H). Qed.
Lemma tags_rel p n n' : Forall2 (relaid p) (children n) (children n') -> child_tags n = child_tags n'.
Proof.
  intros H. unfold child_tags. induction H as [|x y l l' Hxy _ IH]; [reflexivity|]. cbn.
  rewrite (relaid_tag _ _ _ Hxy), IH. reflexivity.
Qed.
Lemma near_tags (kids kids' : list node) : SpaceProofs.near (respaced false) kids kids' -> map tag (items kids) = map tag (items kids').
Proof.
  intros [[_ ->]|(t & t' & m & m' & A & -> & -> & D & E & F & G)]; [reflexivity|].
  rewrite !SpaceProofs.items_un by assumption. clear - G. induction G as [|x y m m' [G1 _] _ IH]; [reflexivity|]. cbn [map]. rewrite IH. f_equal.
  inversion G1; subst; reflexivity.
Qed.
Lemma relaid_tags p n n' :
  relaid p n n' -> forallb (fun e => negb (unordered (snd e))) (table p) = true -> child_tags n = child_tags n'.
Proof.
  intros H U. inversion H as [|? ? ? C|? ? ? ? ? ? ? ? FR RS|? p' ns l defs inh attrs attrs' kids kids' I P N K]; subst; try reflexivity.
  { free_el RS. unfold child_tags. rewrite <- !items_children. apply near_tags, RS. }
  destruct K as [->|[K1 K2]]; [reflexivity|]. apply (tags_rel p'). rewrite <- !items_children. apply in_order; [|exact K2].
  rewrite forallb_forall in U. specialize (U _ I). cbn in U. destruct (unordered p'); [discriminate U|reflexivity].
Qed.

(** ** Stored nodes: only the tags of their children are ever used *)
Definition skel (n : node) : node :=
  El None [] [] [] [] (map (fun t => match t with Some t => El None t [] [] [] [] | None => Cmt [] end) (child_tags n)).
Lemma skel_tags n : child_tags (skel n) = child_tags n.
Proof.
  unfold child_tags at 1, children, skel. cbn [kids_of]. induction (child_tags n) as [|[t|] l IH]; [reflexivity|..];
    cbn [map filter is_chr negb]; rewrite IH; reflexivity.
Qed.
Lemma skel_eq n n' : child_tags n = child_tags n' -> skel n = skel n'.
Proof. unfold skel. intros ->. reflexivity. Qed.
Lemma skel_or o d : tags_or (option_map skel o) d = tags_or o d.
Proof. destruct o; [apply skel_tags|reflexivity]. Qed.
Definition sk_ad (a : attr_def) : attr_def :=
  AttrDef (ad_type a) (ad_identifier a) (ad_datatype_definition a) (option_map skel (ad_xml_node a)) (ad_description a)
    (ad_last_change a) (ad_long_name a) (ad_editable a) (ad_default_value_definition_ref a)
    (ad_default_value a) (ad_multi_valued a).
Definition sk_st : spec_type -> spec_type := map_spec_type sk_ad.
Definition sk_val (a : spec_attr) : spec_attr :=
  SpecAttr (sa_type a) (sa_definition_ref a) (sa_value a) (sa_value_stripped_xhtml a) (option_map skel (sa_xml_node a)).
Definition sk_so (o : spec_object) : spec_object :=
  SpecObject (so_identifier o) (map sk_val (so_attributes o)) (so_spec_object_type o)
    (so_description o) (so_last_change o) (so_long_name o) (option_map skel (so_xml_node o)).
Definition sk_sr (r : spec_relation) : spec_relation :=
  SpecRelation (sr_identifier r) (sr_relation_type_ref r) (sr_source r) (sr_target r) (option_map skel (sr_xml_node r))
    (sr_description r) (sr_last_change r) (sr_long_name r) (option_map sk_val (sr_values_attribute r)).
Definition sk_sp (s : specification) : specification :=
  Specification (sp_identifier s) (sp_description s) (sp_last_change s) (sp_long_name s)
    (map_list sk_val (sp_values s)) (sp_specification_type s)
    (map_list erase_hier (sp_children s)) (option_map skel (sp_xml_node s)).
Definition sk_content : content -> content := map_content (fun x => x) sk_st sk_so sk_sr sk_sp (fun x => x).

Lemma erase_sk_ad a : erase_attr_def (sk_ad a) = erase_attr_def a.
Proof. reflexivity. Qed.
Lemma map_list_map {A B C} (f : B -> C) (g : A -> B) (h : A -> C) o :
  (forall a, f (g a) = h a) -> map_list f (map_list g o) = map_list h o.
Proof. intros H. destruct o as [l|]; [|reflexivity]. cbn. rewrite map_map. f_equal. apply map_ext, H. Qed.
Lemma erase_sk_st t : erase_spec_type (sk_st t) = erase_spec_type t.
Proof.
  unfold erase_spec_type, sk_st. destruct t as [t|t|t|t]; cbn [map_spec_type sot_identifier sot_description sot_last_change
    sot_long_name sot_attribute_definitions srt_identifier srt_description srt_last_change srt_long_name srt_is_self_closed
    srt_attribute_definitions spt_identifier spt_description spt_last_change spt_long_name spt_spec_attributes
    spt_spec_attribute_map spt_is_self_closed rgt_identifier rgt_description rgt_last_change rgt_long_name
    rgt_is_self_closed rgt_attribute_definitions]; do 2 f_equal; apply map_list_map; reflexivity.
Qed.
Lemma erase_sk_val a : erase_value (sk_val a) = erase_value a.
Proof. reflexivity. Qed.
Lemma erase_sk_so o : erase_spec_object (sk_so o) = erase_spec_object o.
Proof. unfold erase_spec_object, sk_so. cbn. rewrite map_map. reflexivity. Qed.
Lemma erase_sk_sr r : erase_spec_relation (sk_sr r) = erase_spec_relation r.
Proof.
  unfold erase_spec_relation, map_spec_relation, sk_sr. cbn. destruct (sr_values_attribute r); reflexivity.
Qed.
Lemma erase_hier_twice h : erase_hier (erase_hier h) = erase_hier h.
Proof.
  revert h. fix IH 1. intros [i o lv ch ln ord lc e t c x]. cbn [erase_hier]. f_equal.
  destruct ch as [l|]; [|reflexivity]. cbn. f_equal. rewrite map_map. induction l as [|y l IHl]; [reflexivity|].
  cbn [map]. rewrite IHl. f_equal. apply IH.
Qed.
Lemma erase_sk_sp s : erase_specification (sk_sp s) = erase_specification s.
Proof.
  unfold erase_specification, sk_sp. cbn [sp_identifier sp_description sp_last_change sp_long_name sp_values
    sp_specification_type sp_children]. f_equal; apply map_list_map; [reflexivity|apply erase_hier_twice].
Qed.
Lemma erase_sk_content c : erase_content (sk_content c) = erase_content c.
Proof.
  unfold erase_content, sk_content, map_content. cbn [rc_data_types rc_spec_types rc_spec_objects rc_spec_relations
    rc_specifications rc_spec_relation_groups]. f_equal; apply map_list_map; try reflexivity.
  - apply erase_sk_st. - apply erase_sk_so. - apply erase_sk_sr. - apply erase_sk_sp.
Qed.

(** ** Writing *)
Lemma mapM_map {A B C} (f : B -> result C) (g : A -> B) (h : A -> result C) l :
  (forall a, f (g a) = h a) -> mapM f (map g l) = mapM h l.
Proof. intros H. induction l as [|x l IH]; [reflexivity|]. cbn [map mapM]. rewrite H, IH. reflexivity. Qed.
Lemma mapM_ext' {A B} (f g : A -> result B) l : (forall a, f a = g a) -> mapM f l = mapM g l.
Proof. intros H. induction l as [|x l IH]; [reflexivity|]. cbn [mapM]. rewrite H, IH. reflexivity. Qed.
Lemma un_ad a : unparse_attribute_definition (sk_ad a) = unparse_attribute_definition a.
Proof.
  unfold unparse_attribute_definition. cbn [sk_ad ad_xml_node]. rewrite skel_or. reflexivity.
Qed.
Lemma un_block o : spec_attributes_block (map_list sk_ad o) = spec_attributes_block o.
Proof.
  destruct o as [l|]; [|reflexivity]. cbn [map_list option_map spec_attributes_block].
  unfold unparse_attribute_definitions. rewrite (mapM_map _ _ _ _ un_ad). reflexivity.
Qed.
Lemma un_close b o t : close_type b (map_list sk_ad o) t = close_type b o t.
Proof. unfold close_type. rewrite un_block. destruct o as [[|x l]|]; reflexivity. Qed.
Lemma un_st t : unparse_spec_type (sk_st t) = unparse_spec_type t.
Proof.
  destruct t as [t|t|t|t]; cbn [sk_st map_spec_type unparse_spec_type].
  - unfold unparse_spec_object_type. cbn [sot_attribute_definitions]. rewrite un_block. reflexivity.
  - unfold unparse_spec_relation_type. cbn [srt_attribute_definitions srt_is_self_closed]. rewrite un_close. reflexivity.
  - unfold unparse_specification_type. cbn [spt_spec_attributes spt_is_self_closed]. rewrite un_close. reflexivity.
  - unfold unparse_relation_group_type. cbn [rgt_attribute_definitions rgt_is_self_closed]. rewrite un_close. reflexivity.
Qed.
Lemma un_val a : unparse_attribute_value (sk_val a) = unparse_attribute_value a.
Proof.
  unfold unparse_attribute_value. cbn [sk_val sa_type sa_value sa_xml_node sa_definition_ref].
  unfold values_first_order. rewrite skel_or. reflexivity.
Qed.
Lemma un_vals o : unparse_attribute_values (map_list sk_val o) = unparse_attribute_values o.
Proof.
  destruct o as [[|x l]|]; [reflexivity| |reflexivity]. unfold unparse_attribute_values, map_list, option_map.
  change (match map sk_val (x :: l) with [] => ?a | _ :: _ => ?b end) with b.
  rewrite (mapM_map _ _ _ _ un_val). reflexivity.
Qed.
Lemma un_so o : unparse_spec_object (sk_so o) = unparse_spec_object o.
Proof.
  unfold unparse_spec_object. cbn [sk_so so_xml_node]. rewrite skel_or.
  rewrite (mapM_ext' (unparse_so_child (sk_so o)) (unparse_so_child o)); [reflexivity|].
  intros t. unfold unparse_so_child. cbn [sk_so so_attributes so_spec_object_type].
  change (Some (map sk_val (so_attributes o))) with (map_list sk_val (Some (so_attributes o))).
  rewrite un_vals. reflexivity.
Qed.
Lemma un_sr r : unparse_spec_relation (sk_sr r) = unparse_spec_relation r.
Proof.
  unfold unparse_spec_relation. cbn [sk_sr sr_xml_node]. rewrite skel_or.
  rewrite (mapM_ext' (unparse_sr_child (sk_sr r)) (unparse_sr_child r)); [reflexivity|].
  intros t. unfold unparse_sr_child. cbn [sk_sr sr_values_attribute].
  destruct (sr_values_attribute r) as [a|]; [|reflexivity]. cbn [option_map].
  change (Some [sk_val a]) with (map_list sk_val (Some [a])). rewrite un_vals. reflexivity.
Qed.
Lemma un_hier h : unparse_hier (erase_hier h) = unparse_hier h.
Proof.
  revert h. fix IH 1. intros [i o lv ch ln ord lc e t c x]. cbn [erase_hier unparse_hier].
  destruct (base_level lv); [|reflexivity]. cbn [bind].
  destruct ch as [l|]; [|reflexivity]. cbn [option_map].
  assert (G : mapM unparse_hier (map erase_hier l) = mapM unparse_hier l).
  { induction l as [|y l IHl]; [reflexivity|]. cbn [map mapM]. rewrite (IH y), IHl. reflexivity. }
  rewrite G. destruct l; reflexivity.
Qed.
Lemma un_sp s : unparse_specification (sk_sp s) = unparse_specification s.
Proof.
  unfold unparse_specification. cbn [sk_sp sp_xml_node]. rewrite skel_or.
  rewrite (mapM_ext' (unparse_sp_child (sk_sp s)) (unparse_sp_child s)); [reflexivity|].
  intros t. unfold unparse_sp_child. cbn [sk_sp sp_specification_type sp_children sp_values]. rewrite un_vals.
  destruct (sp_children s) as [l|]; [|reflexivity]. cbn [map_list option_map].
  unfold unparse_specification_children. rewrite (mapM_map _ _ _ _ un_hier). reflexivity.
Qed.
Lemma track_map {A B S} cb t (f : B -> S -> result S) (g : A -> B) (h : A -> S -> result S) l :
  (forall a s, f (g a) s = h a s) -> forall s hs, track cb t (map g l) f s hs = track cb t l h s hs.
Proof.
  intros H. unfold track. rewrite map_length. generalize (length l); intros total. generalize 0.
  induction l as [|x l IH]; intros i s hs; [reflexivity|]. cbn [map track_loop]. unfold mbind, lift.
  rewrite H. destruct (h x s); [|reflexivity]. destruct (deliver _ _ _) as [h' [|]]; [apply IH|reflexivity].
Qed.
Lemma un_section {A} cb t (f : A -> result str) (g : A -> A) o :
  (forall a, f (g a) = f a) -> forall out hs, unparse_section cb t f (map_list g o) out hs = unparse_section cb t f o out hs.
Proof.
  intros H out hs. destruct o as [l|]; [|reflexivity]. cbn [map_list option_map unparse_section]. unfold mbind.
  rewrite (track_map cb t (append_body f) g (append_body f)); [reflexivity|].
  intros a s. unfold append_body. rewrite H. reflexivity.
Qed.
Lemma bind_ext {A B} (m m' : M A) (f f' : A -> M B) :
  (forall h, m h = m' h) -> (forall a h, f a h = f' a h) -> forall h, mbind m f h = mbind m' f' h.
Proof. intros H1 H2 h. unfold mbind. rewrite H1. destruct (m' h) as [h' [a|e]]; [apply H2|reflexivity]. Qed.
Lemma un_content cb c out hs : unparse_content cb (sk_content c) out hs = unparse_content cb c out hs.
Proof.
  revert out hs. intros out. unfold unparse_content, sk_content, map_content. cbn [rc_data_types rc_spec_types rc_spec_objects rc_spec_relations
    rc_specifications rc_spec_relation_groups].
  repeat (apply bind_ext; [reflexivity || (intros; apply un_section; intros; first [reflexivity|apply un_st|apply un_so|apply un_sr|apply un_sp])|]; intros ?).
  reflexivity.
Qed.
Definition sk_bundle (b : bundle) : bundle :=
  Bundle (b_namespace_info b) (b_header b) (option_map (option_map sk_content) (b_core_content b)) (b_tool_extensions b)
    (b_lookup b) (b_exceptions b).
Lemma un_bundle cb b hs : unparse cb (sk_bundle b) hs = unparse cb b hs.
Proof.
  revert hs. unfold unparse, sk_bundle. cbn [b_namespace_info b_header b_core_content b_tool_extensions].
  apply bind_ext; [reflexivity|intros a]. apply bind_ext; [reflexivity|intros a']. apply bind_ext; [|reflexivity].
  destruct (b_core_content b) as [[c|]|]; [|reflexivity..]. cbn [option_map].
  apply bind_ext; [reflexivity|intros x]. apply bind_ext; [|reflexivity]. intros h. apply un_content.
Qed.

(** ** Reading *)
Definition k_ad (a : attr_def) : attr_def := sk_ad (z_ad xw a).
Definition k_st : spec_type -> spec_type := map_spec_type k_ad.
Definition k_val (a : spec_attr) : spec_attr := sk_val (z_val xw a).
Definition k_so (o : spec_object) : spec_object :=
  SpecObject (so_identifier o) (map k_val (so_attributes o)) (so_spec_object_type o)
    (so_description o) (so_last_change o) (so_long_name o) (option_map skel (so_xml_node o)).
Definition k_sr (r : spec_relation) : spec_relation :=
  SpecRelation (sr_identifier r) (sr_relation_type_ref r) (sr_source r) (sr_target r) (option_map skel (sr_xml_node r))
    (sr_description r) (sr_last_change r) (sr_long_name r) (option_map k_val (sr_values_attribute r)).
Definition k_sp (s : specification) : specification :=
  Specification (sp_identifier s) (sp_description s) (sp_last_change s) (sp_long_name s)
    (map_list k_val (sp_values s)) (sp_specification_type s)
    (map_list erase_hier (sp_children s)) (option_map skel (sp_xml_node s)).
Definition k_content : content -> content := map_content (fun x => x) k_st k_so k_sr k_sp (fun x => x).
Definition k_lookup (l : lookup) : lookup :=
  Lookup (lk_data_types l) (map_dict k_st (lk_spec_types l)) (map_dict k_so (lk_spec_objects l)) (lk_parents l) (lk_parents_default l).
Lemma k_val_other a a' : sa_type a <> AT_XHTML -> sa_type a' = sa_type a -> sk_val a = sk_val a' -> k_val a = k_val a'.
Proof. intros H1 H2 H. unfold k_val. rewrite !z_val_other by congruence. exact H. Qed.
Lemma rl_req p n n' k : relaid p n n' -> attr_req k n' = attr_req k n.
Proof. intros H. unfold attr_req. rewrite (relaid_attr _ _ _ k H). reflexivity. Qed.
Lemma rl_opt p n n' k : relaid p n n' -> attr_opt k n' = attr_opt k n.
Proof. intros H. symmetry. apply (relaid_attr _ _ _ k H). Qed.
Lemma rl_tag p n n' : relaid p n n' -> tag n' = tag n.
Proof. intros H. symmetry. apply (relaid_tag _ _ _ H). Qed.
Lemma rl_is p n n' t : relaid p n n' -> tag_is t n' = tag_is t n.
Proof. intros H. unfold tag_is. rewrite (relaid_tag _ _ _ H). reflexivity. Qed.
Lemma rl_contains p n n' t : relaid p n n' -> tag_contains t n' = tag_contains t n.
Proof. intros H. unfold tag_contains. rewrite (relaid_tag _ _ _ H). reflexivity. Qed.
Lemma rl_closed p n n' : relaid p n n' -> is_self_closed_tag n' = is_self_closed_tag n.
Proof. intros H. symmetry. apply (relaid_closed _ _ _ H). Qed.
Lemma rl_comment p n n' : relaid p n n' -> is_comment n' = is_comment n.
Proof. intros H. symmetry. apply (relaid_cmt _ _ _ H). Qed.
Lemma rl_nsmap p n n' : relaid p n n' -> node_nsmap n' = node_nsmap n.
Proof. intros H. symmetry. apply (relaid_nsmap _ _ _ H). Qed.
Lemma rl_tags p n n' :
  relaid p n n' -> forallb (fun e => negb (unordered (snd e))) (table p) = true -> child_tags n' = child_tags n.
Proof. intros H U. symmetry. apply (relaid_tags _ _ _ H U). Qed.
Ltac alike H := rewrite ?(fun k => rl_req _ _ _ k H), ?(fun k => rl_opt _ _ _ k H), ?(fun t => rl_is _ _ _ t H),
  ?(fun t => rl_contains _ _ _ t H), ?(rl_closed _ _ _ H), ?(rl_comment _ _ _ H), ?(rl_nsmap _ _ _ H); try rewrite (rl_tags _ _ _ H eq_refl).
Lemma relaid_step p q n n' :
  relaid p n n' -> negb (match p with InXhtml | InGroup => true | _ => false end) && forallb (fun e => match snd e, q with
     | InEnumValue, InEnumValue | InDatatype, InDatatype | InLast, InLast | InType, InType | InDefinition, InDefinition
     | InValue, InValue | InObject, InObject | InRelation, InRelation | InSpecification, InSpecification
     | InHierarchy, InHierarchy | InGroup, InGroup => true | _, _ => false end) (table p) = true ->
  kids_rel q (children n) (children n').
Proof.
  intros H U. inversion H as [|? ? ? C|? ? ? ? ? ? ? ? FR RS|? p' ns l defs inh attrs attrs' kids kids' I P N K]; subst;
    try apply kids_refl.
  { exfalso. destruct p; cbn [free] in FR; try discriminate FR; destruct q; discriminate U. }
  apply andb_prop in U. destruct U as [_ U].
  assert (E : p' = q).
  { rewrite forallb_forall in U. specialize (U _ I). cbn in U. destruct p', q; try discriminate U; reflexivity. }
  subst. apply (content_kids _ kids kids'); [exact K|symmetry; apply (items_children (El _ _ _ _ _ _))..].
Qed.
Lemma relaid_other p t n n' :
  relaid p n n' -> tag n = Some t -> plain t = true -> free xw p t = false -> existsb (fun e => str_eqb t (fst e)) (table p) = false -> n = n'.
Proof.
  intros H E T FT U. inversion H as [|? ? ? C|? ? ? ? ? ? ? ? FR RS|? p' ns l defs inh attrs attrs' kids kids' I P N K]; subst;
    [reflexivity|discriminate E|exfalso; cbn [tag] in E; injection E as E; apply (plain_clark _ _ _ T) in E; congruence|].
  exfalso. cbn in E. injection E as E. assert (EL : l = t).
  { destruct ns as [[q u]|]; [|exact E]. cbn in E. destruct t as [|c t]; [discriminate|]. injection E as <- E.
    discriminate T. }
  assert (X : existsb (fun e => str_eqb t (fst e)) (table p) = true); [|congruence].
  apply existsb_exists. exists (l, p'). split; [exact I|]. cbn. rewrite EL. apply str_eqb_refl.
Qed.
(** the element found is related, and so are its children in the place [q] *)
Lemma find_into p t n n' :
  kids_rel p (children n) (children n') -> plain t = true -> free xw p t = false ->
  opt_rel (fun x x' => relaid p x x' /\ kids_rel (look t (table p)) (children x) (children x'))
          (find_child t n) (find_child t n').
Proof.
  intros H T FT. pose proof (find_rel_child p t n n' H T) as F.
  destruct (find_child t n) as [x|] eqn:E, (find_child t n') as [x'|]; cbn in *; auto.
  split; [exact F|]. apply (relaid_kids p t x x' F T FT). apply (find_tag t n x E).
Qed.
Lemma find_other p t n n' :
  kids_rel p (children n) (children n') -> plain t = true -> free xw p t = false ->
  existsb (fun e => str_eqb t (fst e)) (table p) = false -> find_child t n' = find_child t n.
Proof.
  intros H T FT U. pose proof (find_rel_child p t n n' H T) as F.
  destruct (find_child t n) as [x|] eqn:E, (find_child t n') as [x'|]; cbn in *; auto; try contradiction.
  f_equal. symmetry. apply (relaid_other p t x x' F (find_tag t n x E) T FT U).
Qed.
Lemma last_eq n n' : kids_rel InLast (children n) (children n') -> children n = children n'.
Proof. intros H. apply relaid_last_list, in_order; [reflexivity|exact H]. Qed.
Lemma find_last t n n' :
  kids_rel InLast (children n) (children n') -> find_child t n' = find_child t n.
Proof. intros H. rewrite !find_children, (last_eq _ _ H). reflexivity. Qed.
Lemma req_into {B} (S : B -> B -> Prop) p t n n' (f f' : node -> result B) :
  kids_rel p (children n) (children n') -> plain t = true -> free xw p t = false ->
  (forall x x', relaid p x x' -> kids_rel (look t (table p)) (children x) (children x') -> same_result S (f x) (f' x')) ->
  same_result S (bind (find_req t n) f) (bind (find_req t n') f').
Proof.
  intros H T FT G. pose proof (find_into p t n n' H T FT) as F. unfold find_req.
  destruct (find_child t n), (find_child t n'); cbn in *; try contradiction; [|reflexivity].
  destruct F. auto.
Qed.
Lemma req_last t n n' :
  kids_rel InLast (children n) (children n') -> find_req t n' = find_req t n.
Proof. intros H. unfold find_req. rewrite (find_last t n n' H). reflexivity. Qed.
Ltac eq_results := apply same_refl; intros; reflexivity.

Lemma rd_enum_value n n' : relaid InSpecifiedValues n n' -> same_result eq (parse_enum_value n) (parse_enum_value n').
Proof.
  intros H. unfold parse_enum_value. alike H. apply same_bind_eq. intros i.
  apply (req_into _ InEnumValue); [apply (relaid_step _ _ _ _ H); reflexivity|reflexivity|reflexivity|]. intros x x' Hx Kx.
  change (look "PROPERTIES" (table InEnumValue)) with InProperties in Kx.
  apply (req_into _ InProperties); [exact Kx|reflexivity|reflexivity|]. intros y y' Hy _. alike Hy. eq_results.
Qed.
Lemma rd_data_type n n' : relaid InDatatypes n n' -> same_result eq (parse_data_type n) (parse_data_type n').
Proof.
  intros H. unfold parse_data_type. alike H. apply same_bind_eq. intros i. apply same_bind_eq. intros _.
  apply same_bind_eq. intros id_. destruct (tag_is "DATATYPE-DEFINITION-ENUMERATION" n); [|eq_results].
  pose proof (find_into InDatatype "SPECIFIED-VALUES" n n') as F.
  specialize (F ltac:(apply (relaid_step _ _ _ _ H); reflexivity) eq_refl eq_refl).
  destruct (find_child _ n), (find_child _ n'); cbn [opt_rel] in F; try contradiction; [|reflexivity].
  destruct F as [_ F]. change (look _ _) with InSpecifiedValues in F.
  apply (same_bind (Forall2 eq)); [apply (same_mapM (relaid InSpecifiedValues)); [exact rd_enum_value|apply in_order; [reflexivity|exact F]]|].
  intros a a' E. cbn. do 2 f_equal. induction E; congruence.
Qed.

Lemma rd_datatype_ref t n n' : relaid InSpecAttributes n n' -> parse_datatype_ref t n' = parse_datatype_ref t n.
Proof.
  intros H. assert (K := relaid_step _ InDefinition _ _ H eq_refl). unfold parse_datatype_ref, find_req at 1 3.
  pose proof (find_into InDefinition "TYPE" n n' K eq_refl eq_refl) as F.
  destruct (find_child "TYPE" n), (find_child "TYPE" n'); cbn [opt_rel] in F; try contradiction; [|reflexivity].
  destruct F as [_ F]. change (look _ _) with InLast in F. cbn [bind]. rewrite (req_last _ _ _ F). reflexivity.
Qed.
(** the contents of an XHTML value *)
Definition value_rel (v v' : node) : Prop := v = v' \/ xw = true /\ respaced false v v'.
Definition like (s s' : str) : Prop := zs xw s = zs xw s'.
Lemma the_value n n' : kids_rel InXhtml (children n) (children n') ->
  opt_rel value_rel (find_child "THE-VALUE" n) (find_child "THE-VALUE" n').
Proof.
  intros K. pose proof (find_rel_child InXhtml "THE-VALUE" n n' K eq_refl) as F.
  destruct (find_child "THE-VALUE" n) as [v|] eqn:E, (find_child "THE-VALUE" n') as [v'|]; cbn [opt_rel] in *; auto.
  apply find_tag in E. inversion F as [|? ? ? C|? ns l ? ? ? ? ? FR RS|? p' ns l ? ? ? ? ? ? T P N KK]; subst.
  - left. reflexivity.
  - discriminate E.
  - right. split; [|exact RS]. cbn [tag] in E. injection E as E. apply (plain_clark _ _ "THE-VALUE" eq_refl) in E. rewrite E in FR. exact FR.
  - exfalso. cbn [tag] in E. injection E as E. apply (plain_clark _ _ "THE-VALUE" eq_refl) in E. rewrite E in T. cbn [table In] in T.
    destruct T as [T|[]]. discriminate T.
Qed.
Lemma like_alike r r' : xw = true -> same_result SpaceProofs.alike_string r r' -> same_result like r r'.
Proof. intros X H. destruct r, r'; cbn in *; auto. unfold like, zs. rewrite X. exact H. Qed.
Lemma like_refl r : same_result like r r.
Proof. apply same_refl. reflexivity. Qed.
Lemma value_namespaced v v' : value_rel v v' ->
  same_result like (stringify_namespaced_children v None) (stringify_namespaced_children v' None).
Proof. intros [->|[X R]]; [apply like_refl|apply like_alike, SpaceProofs.namespaced_alike, R; exact X]. Qed.
Lemma value_children v v' : value_rel v v' -> same_result like (stringify_children v) (stringify_children v').
Proof. intros [->|[X R]]; [apply like_refl|apply like_alike, SpaceProofs.children_alike, R; exact X]. Qed.
Lemma value_convert v v' : value_rel v v' ->
  same_result like (convert_children_from_reqif_ns v) (convert_children_from_reqif_ns v').
Proof. intros [->|[X R]]; [apply like_refl|apply like_alike, SpaceProofs.convert_alike, R; exact X]. Qed.
Lemma value_nsmap v v' : value_rel v v' -> node_nsmap v = node_nsmap v'.
Proof. intros [->|[X R]]; [reflexivity|]. inversion R; subst; reflexivity. Qed.
Lemma like_unindent s s' : like s s' -> like (reqif_unindent_xhtml_string s) (reqif_unindent_xhtml_string s').
Proof. unfold like, zs. case xw; [rewrite !SpaceProofs.squeeze_unindent; auto|intros ->; reflexivity]. Qed.

Lemma rd_default_other t n n' : t <> AT_XHTML -> relaid InSpecAttributes n n' -> parse_default_value t n' = parse_default_value t n.
Proof.
  intros NX H. assert (K := relaid_step _ InDefinition _ _ H eq_refl).
  pose proof (find_into InDefinition "DEFAULT-VALUE" n n' K eq_refl eq_refl) as F.
  assert (V : forall q d d', plain q = true -> look q (table InDefault) = InValue -> kids_rel InDefault (children d) (children d') ->
     opt_rel (fun v v' => relaid InDefault v v' /\ kids_rel InValue (children v) (children v')) (find_child q d) (find_child q d')).
  { intros q d d' QP QV G. pose proof (find_into InDefault q d d' G QP eq_refl) as X.
    destruct (find_child q d), (find_child q d'); cbn [opt_rel] in *; auto. rewrite QV in X. exact X. }
  assert (D : forall v v', kids_rel InValue (children v) (children v') ->
     opt_rel (fun v v' => forall q, find_child q v' = find_child q v) (find_child "DEFINITION" v) (find_child "DEFINITION" v')
     /\ opt_rel (fun v v' => forall q, find_child q v' = find_child q v) (find_child "VALUES" v) (find_child "VALUES" v')
     /\ find_child "THE-VALUE" v' = find_child "THE-VALUE" v).
  { intros v v' G. split; [|split].
    - pose proof (find_into InValue "DEFINITION" v v' G eq_refl eq_refl) as X.
      destruct (find_child _ v), (find_child _ v'); cbn [opt_rel] in *; auto. intros q. apply find_last, (proj2 X).
    - pose proof (find_into InValue "VALUES" v v' G eq_refl eq_refl) as X.
      destruct (find_child _ v), (find_child _ v'); cbn [opt_rel] in *; auto. intros q. apply find_last, (proj2 X).
    - apply (find_other InValue); [exact G|reflexivity..]. }
  clear H K. destruct (find_child "DEFAULT-VALUE" n) as [d|] eqn:E, (find_child "DEFAULT-VALUE" n') as [d'|] eqn:E';
    cbn [opt_rel] in F; try contradiction;
    [|destruct t; unfold parse_default_value, parse_default_string, parse_default_simple, parse_default_boolean,
        parse_default_xhtml, parse_default_enum; rewrite E, E'; reflexivity].
  destruct F as [F1 F2]. change (look _ _) with InDefault in F2.
  destruct t; try contradiction; unfold parse_default_value, parse_default_string, parse_default_simple, parse_default_boolean,
    parse_default_xhtml, parse_default_enum; rewrite E, E', ?(rl_closed _ _ _ F1);
  match goal with |- context [find_child ?q d] => specialize (V q d d' eq_refl eq_refl F2); destruct (find_child q d) as [v|], (find_child q d') as [v'|] end;
  cbn [opt_rel] in V; try contradiction; try reflexivity; destruct V as [V1 V2]; rewrite ?(rl_req _ _ _ _ V1); try reflexivity;
  destruct (D v v' V2) as (D1 & D2 & D3); try unfold find_req at 3; try unfold find_req at 1;
  destruct (find_child "DEFINITION" v) as [df|], (find_child "DEFINITION" v') as [df'|]; cbn [opt_rel] in D1; try contradiction;
  try (unfold find_req; rewrite ?D1, ?D3; reflexivity);
  destruct (find_child "VALUES" v) as [vs|], (find_child "VALUES" v') as [vs'|]; cbn [opt_rel] in D2; try contradiction;
  unfold find_req; rewrite ?D1, ?D2, ?D3; reflexivity.
Qed.
Lemma rd_default t n n' : relaid InSpecAttributes n n' ->
  same_result (fun r r' => fst r = fst r' /\ z_dv xw t (snd r) = z_dv xw t (snd r')) (parse_default_value t n) (parse_default_value t n').
Proof.
  intros H. assert (D : t = AT_XHTML \/ t <> AT_XHTML) by (destruct t; (left; reflexivity) || (right; discriminate)).
  destruct D as [->|D]; [|rewrite (rd_default_other _ _ _ D H); apply same_refl; split; reflexivity].
  assert (K := relaid_step _ InDefinition _ _ H eq_refl).
  pose proof (find_into InDefinition "DEFAULT-VALUE" n n' K eq_refl eq_refl) as F.
  cbn [parse_default_value]. unfold parse_default_xhtml.
  destruct (find_child "DEFAULT-VALUE" n) as [d|], (find_child "DEFAULT-VALUE" n') as [d'|]; cbn [opt_rel] in F; try contradiction; [|split; reflexivity].
  destruct F as [F1 F2]. change (look _ _) with InDefault in F2. rewrite (rl_closed _ _ _ F1).
  destruct (is_self_closed_tag d); [split; reflexivity|].
  pose proof (find_into InDefault "ATTRIBUTE-VALUE-XHTML" d d' F2 eq_refl eq_refl) as V.
  destruct (find_child "ATTRIBUTE-VALUE-XHTML" d) as [v|], (find_child "ATTRIBUTE-VALUE-XHTML" d') as [v'|]; cbn [opt_rel] in V; try contradiction; [|reflexivity].
  destruct V as [_ V]. change (look _ _) with InXhtml in V.
  assert (E : match find_child "DEFINITION" v with None => Ok None | Some df =>
                match find_child "ATTRIBUTE-DEFINITION-XHTML-REF" df with None => Raise EAssertionError | Some r => Ok (text r) end end
            = match find_child "DEFINITION" v' with None => Ok None | Some df =>
                match find_child "ATTRIBUTE-DEFINITION-XHTML-REF" df with None => Raise EAssertionError | Some r => Ok (text r) end end).
  { pose proof (find_into InXhtml "DEFINITION" v v' V eq_refl eq_refl) as X.
    destruct (find_child "DEFINITION" v) as [df|], (find_child "DEFINITION" v') as [df'|]; cbn [opt_rel] in X; try contradiction; [|reflexivity].
    rewrite (find_last _ _ _ (proj2 X)). reflexivity. }
  rewrite E. apply same_bind_eq. intros r. unfold find_req. pose proof (the_value v v' V) as X.
  destruct (find_child "THE-VALUE" v) as [tv|], (find_child "THE-VALUE" v') as [tv'|]; cbn [opt_rel] in X; try contradiction; [|reflexivity].
  cbn [bind]. apply (same_bind _ _ _ _ _ _ (value_namespaced _ _ X)). intros s s' L. split; [reflexivity|]. cbn. f_equal. exact L.
Qed.
Lemma rd_attr_def n n' :
  relaid InSpecAttributes n n' ->
  same_result (fun a a' => k_ad a = k_ad a') (parse_attribute_definition n) (parse_attribute_definition n').
Proof.
  intros H. unfold parse_attribute_definition, parse_multi_valued. alike H. rewrite (rl_tag _ _ _ H).
  apply same_bind_eq. intros i. destruct (attr_type_of_def_tag _) as [t|]; [|reflexivity].
  rewrite (rd_datatype_ref t _ _ H). apply same_bind_eq. intros dt. apply (same_bind _ _ _ _ _ _ (rd_default t _ _ H)). intros [r dv] [r' dv'] [E1 E2].
  cbn [fst snd] in *. subst r'. cbn [same_result]. unfold k_ad. rewrite (z_ad_dv _ _ _ _ _ _ _ _ _ _ _ _ _ E2).
  assert (G : skel n = skel n') by apply skel_eq, (relaid_tags _ _ _ H eq_refl).
  unfold z_ad. case xw; [unfold squeeze_attr_def; cbn; destruct t|]; unfold sk_ad; cbn; rewrite G; reflexivity.
Qed.
Lemma Forall2_map_eq {A B} (f : A -> B) l l' : Forall2 (fun a b => f a = f b) l l' -> map f l = map f l'.
Proof. intros H. induction H; cbn; congruence. Qed.
Lemma rd_attr_defs n n' :
  kids_rel InType (children n) (children n') ->
  same_result (fun o o' => map_list k_ad o = map_list k_ad o') (parse_attribute_definitions n) (parse_attribute_definitions n').
Proof.
  intros K. unfold parse_attribute_definitions. pose proof (find_into InType "SPEC-ATTRIBUTES" n n' K eq_refl eq_refl) as F.
  destruct (find_child _ n), (find_child _ n'); cbn [opt_rel] in F; try contradiction; [|reflexivity].
  destruct F as [_ F]. change (look _ _) with InSpecAttributes in F.
  apply (same_bind (Forall2 (fun a a' => k_ad a = k_ad a'))).
  - apply (same_mapM (relaid InSpecAttributes)); [exact rd_attr_def|apply in_order; [reflexivity|exact F]].
  - intros a a' E. cbn. f_equal. apply Forall2_map_eq, E.
Qed.
Lemma fill_sk l l' m : Forall2 (fun a a' => k_ad a = k_ad a') l l' -> fill_attribute_map l m = fill_attribute_map l' m.
Proof.
  intros H. revert m. induction H as [|a a' l l' E _ IH]; intros m; [reflexivity|]. cbn [fill_attribute_map].
  assert (E1 : ad_long_name (k_ad a) = ad_long_name (k_ad a')) by (rewrite E; reflexivity).
  assert (E2 : ad_identifier (k_ad a) = ad_identifier (k_ad a')) by (rewrite E; reflexivity).
  unfold k_ad in E1, E2. cbn [sk_ad ad_long_name ad_identifier] in E1, E2.
  rewrite !(proj1 (z_ad_fields xw _)) in E1. rewrite !(proj2 (z_ad_fields xw _)) in E2. rewrite E1, E2. destruct (ad_long_name a'); [apply IH|reflexivity].
Qed.
Lemma map_eq_Forall2 {A B} (f : A -> B) l l' : map f l = map f l' -> Forall2 (fun a b => f a = f b) l l'.
Proof.
  revert l'. induction l as [|x l IH]; intros [|y l'] H; try discriminate; constructor; injection H; auto.
Qed.
Lemma rd_spec_type n n' :
  relaid InSpecTypes n n' ->
  same_result (fun o o' => option_map k_st o = option_map k_st o') (parse_spec_type n) (parse_spec_type n').
Proof.
  intros H. assert (K := relaid_step _ InType _ _ H eq_refl). unfold parse_spec_type. alike H.
  destruct (tag_is "SPEC-OBJECT-TYPE" n) eqn:T1.
  { unfold parse_spec_object_type. alike H. apply (same_bind (fun t t' => k_st (STObject t) = k_st (STObject t'))).
    - do 2 (apply same_bind_eq; intros ?). apply (same_bind _ _ _ _ _ _ (rd_attr_defs n n' K)). intros o o' E. cbn. do 2 f_equal. exact E.
    - intros t t' E. cbn. f_equal. exact E. }
  destruct (tag_is "SPEC-RELATION-TYPE" n) eqn:T2.
  { unfold parse_spec_relation_type. alike H. apply (same_bind (fun t t' => k_st (STRelation t) = k_st (STRelation t'))).
    - do 3 (apply same_bind_eq; intros ?). apply (same_bind _ _ _ _ _ _ (rd_attr_defs n n' K)). intros o o' E. cbn. do 2 f_equal. exact E.
    - intros t t' E. cbn. f_equal. exact E. }
  destruct (tag_is "SPECIFICATION-TYPE" n) eqn:T3.
  { unfold parse_specification_type. alike H. apply (same_bind (fun t t' => k_st (STSpecification t) = k_st (STSpecification t'))).
    - do 3 (apply same_bind_eq; intros ?). apply (same_bind _ _ _ _ _ _ (rd_attr_defs n n' K)). intros o o' E.
      assert (G : match o with Some l => fill_attribute_map l [] | None => Ok [] end
                  = match o' with Some l => fill_attribute_map l [] | None => Ok [] end).
      { destruct o as [l|], o' as [l'|]; try discriminate E; [|reflexivity]. apply fill_sk, map_eq_Forall2.
        cbn in E. congruence. }
      rewrite G. apply same_bind_eq. intros m. cbn. do 2 f_equal. exact E.
    - intros t t' E. cbn. f_equal. exact E. }
  destruct (tag_is "RELATION-GROUP-TYPE" n) eqn:T4.
  { unfold parse_relation_group_type. alike H. apply (same_bind (fun t t' => k_st (STGroup t) = k_st (STGroup t'))).
    - do 2 (apply same_bind_eq; intros ?). apply (same_bind _ _ _ _ _ _ (rd_attr_defs n n' K)). intros o o' E. cbn. do 2 f_equal. exact E.
    - intros t t' E. cbn. f_equal. exact E. }
  destruct (is_comment n); reflexivity.
Qed.

Lemma rd_grandchild p n n' :
  relaid p n n' -> kids_rel InValue (children n) (children n') -> first_grandchild_text n' = first_grandchild_text n.
Proof.
  intros _ K. unfold first_grandchild_text, child_at.
  apply in_order in K; [|reflexivity].
  destruct K as [|x x' l l' Hx _]; [reflexivity|]. cbn [nth_error bind].
  rewrite <- (last_eq _ _ (relaid_step _ InLast _ _ Hx eq_refl)). reflexivity.
Qed.
Lemma rd_definition t p n n' :
  p = InValue \/ p = InXhtml -> kids_rel p (children n) (children n') -> definition_ref_text t n' = definition_ref_text t n.
Proof.
  intros D K. unfold definition_ref_text, find_req at 1 3.
  assert (F := find_into p "DEFINITION" n n' K eq_refl ltac:(destruct D as [->| ->]; reflexivity)).
  replace (look "DEFINITION" (table p)) with InLast in F by (destruct D as [->| ->]; reflexivity).
  destruct (find_child _ n), (find_child _ n'); cbn [opt_rel] in F; try contradiction; [|reflexivity].
  destruct F as [_ F]. cbn [bind]. rewrite (req_last _ _ _ F). reflexivity.
Qed.
Definition val_rel (a a' : spec_attr) : Prop := k_val a = k_val a'.
Lemma rd_xhtml p n n' :
  relaid p n n' -> kids_rel InXhtml (children n) (children n') ->
  same_result val_rel (parse_xhtml_attribute_value n) (parse_xhtml_attribute_value n').
Proof.
  intros H K. unfold parse_xhtml_attribute_value. alike H. rewrite (rd_definition _ InXhtml _ _ (or_intror eq_refl) K).
  assert (S : skel n = skel n') by (apply skel_eq, (tags_rel InXhtml), in_order; [reflexivity|exact K]).
  do 2 (apply same_bind_eq; intros ?). unfold find_req. pose proof (the_value n n' K) as X.
  destruct (find_child "THE-VALUE" n) as [tv|], (find_child "THE-VALUE" n') as [tv'|]; cbn [opt_rel] in X; try contradiction; [|reflexivity].
  cbn [bind]. rewrite (value_nsmap _ _ X).
  apply (same_bind (fun r r' => like (fst r) (fst r') /\ like (snd r) (snd r'))).
  - destruct (node_nsmap tv').
    + apply (same_bind _ _ _ _ _ _ (value_children _ _ X)). intros s s' L. split; [exact L|apply like_unindent, L].
    + apply (same_bind _ _ _ _ _ _ (value_namespaced _ _ X)). intros s s' L.
      apply (same_bind _ _ _ _ _ _ (value_convert _ _ X)). intros u u' L'. split; [exact L|apply like_unindent, L'].
  - intros [v s] [v' s'] [L1 L2]. cbn [fst snd] in *. apply same_bind_eq. intros r. cbn [same_result]. unfold val_rel, k_val, z_val, like, zs in *.
    revert L1 L2. case xw; intros L1 L2; unfold sk_val; cbn; rewrite S, L1, L2; reflexivity.
Qed.
Lemma rd_simple t p n n' :
  t <> AT_XHTML -> relaid p n n' -> kids_rel InValue (children n) (children n') ->
  same_result val_rel (parse_simple_value t n) (parse_simple_value t n').
Proof.
  intros NX H K. unfold parse_simple_value. alike H. rewrite (rd_definition _ _ _ _ (or_introl eq_refl) K).
  do 2 (apply same_bind_eq; intros ?). cbn. apply k_val_other; [exact NX|reflexivity|]. unfold sk_val. cbn.
  rewrite (skel_eq n n'); [reflexivity|]. apply (tags_rel InValue), in_order; [reflexivity|exact K].
Qed.
Lemma value_kids n n' t q : relaid InValues n n' -> tag_is t n = true -> plain t = true -> look t (table InValues) = q ->
  kids_rel q (children n) (children n').
Proof.
  intros H T P L. rewrite <- L. apply (relaid_kids InValues t n n' H P); [reflexivity|]. apply tag_is_eq, T.
Qed.
Lemma rd_value n n' :
  relaid InValues n n' ->
  same_result (fun o o' => option_map k_val o = option_map k_val o') (parse_attribute_value n) (parse_attribute_value n').
Proof.
  intros H. unfold parse_attribute_value. alike H.
  assert (S : skel n = skel n') by (apply skel_eq, (relaid_tags _ _ _ H eq_refl)).
  assert (OS : forall m m', same_result val_rel m m' ->
     same_result (fun o o' => option_map k_val o = option_map k_val o') (let! a := m in Ok (Some a)) (let! a := m' in Ok (Some a))).
  { intros m m' G. apply (same_bind _ _ _ _ _ _ G). intros a a' E. cbn. f_equal. exact E. }
  pose proof (fun t q => value_kids n n' t q H) as KK.
  destruct (is_comment n); [reflexivity|].
  destruct (tag_is "ATTRIBUTE-VALUE-STRING" n) eqn:T.
  { rewrite (rd_grandchild _ _ _ H (KK _ _ T eq_refl eq_refl)). do 2 (apply same_bind_eq; intros ?). cbn. f_equal.
    apply k_val_other; [discriminate|reflexivity|]. unfold sk_val. cbn. rewrite S. reflexivity. }
  clear T. destruct (tag_is "ATTRIBUTE-VALUE-ENUMERATION" n) eqn:T.
  { specialize (KK _ _ T eq_refl eq_refl). rewrite (rd_definition _ InValue _ _ (or_introl eq_refl) KK). apply same_bind_eq; intros r.
    pose proof (find_into InValue "VALUES" n n' KK eq_refl eq_refl) as F.
    destruct (find_child _ n), (find_child _ n'); cbn [opt_rel] in F; try contradiction; [|reflexivity].
    destruct F as [_ F]. apply last_eq in F. rewrite F. cbn. f_equal.
    apply k_val_other; [discriminate|reflexivity|]. unfold sk_val. cbn. rewrite S. reflexivity. }
  clear T. destruct (tag_is "ATTRIBUTE-VALUE-INTEGER" n) eqn:T; [apply OS, (rd_simple _ InValues); [discriminate|exact H|apply (KK _ _ T); reflexivity]|].
  clear T. destruct (tag_is "ATTRIBUTE-VALUE-REAL" n) eqn:T; [apply OS, (rd_simple _ InValues); [discriminate|exact H|apply (KK _ _ T); reflexivity]|].
  clear T. destruct (tag_is "ATTRIBUTE-VALUE-BOOLEAN" n) eqn:T; [apply OS, (rd_simple _ InValues); [discriminate|exact H|apply (KK _ _ T); reflexivity]|].
  clear T. destruct (tag_is "ATTRIBUTE-VALUE-DATE" n) eqn:T; [apply OS, (rd_simple _ InValues); [discriminate|exact H|apply (KK _ _ T); reflexivity]|].
  clear T. destruct (tag_is "ATTRIBUTE-VALUE-XHTML" n) eqn:T; [apply OS, (rd_xhtml InValues); [exact H|apply (KK _ _ T); reflexivity]|]. reflexivity.
Qed.
Lemma catSomes_map {A B} (f : A -> B) l l' :
  Forall2 (fun o o' => option_map f o = option_map f o') l l' -> map f (catSomes l) = map f (catSomes l').
Proof.
  intros H. induction H as [|[x|] [y|] l l' E _ IH]; try discriminate E; [reflexivity| |exact IH].
  cbn [catSomes map]. cbn in E. congruence.
Qed.
Lemma rd_values o o' :
  opt_rel (fun x x' => kids_rel InValues (children x) (children x')) o o' ->
  same_result (fun v v' => map_list k_val v = map_list k_val v') (parse_attribute_values o) (parse_attribute_values o').
Proof.
  intros H. destruct o as [x|], o' as [x'|]; cbn [opt_rel] in H; try contradiction; [|reflexivity].
  cbn [parse_attribute_values].
  apply (same_bind _ _ _ _ _ _ (same_mapM _ _ _ _ _ rd_value (in_order InValues _ _ eq_refl H))). intros l l' E. cbn. f_equal. apply catSomes_map, E.
Qed.
Lemma find_into' p t n n' :
  kids_rel p (children n) (children n') -> plain t = true -> free xw p t = false ->
  opt_rel (fun x x' => kids_rel (look t (table p)) (children x) (children x')) (find_child t n) (find_child t n').
Proof.
  intros H T FT. pose proof (find_into p t n n' H T FT) as F.
  destruct (find_child t n), (find_child t n'); cbn [opt_rel] in *; auto. apply F.
Qed.
Lemma rd_spec_object n n' :
  relaid InObjects n n' -> same_result (fun o o' => k_so o = k_so o') (parse_spec_object n) (parse_spec_object n').
Proof.
  intros H. assert (K := relaid_step _ InObject _ _ H eq_refl). unfold parse_spec_object. alike H.
  do 3 (apply same_bind_eq; intros ?). apply (req_into _ InObject); [exact K|reflexivity|reflexivity|]. intros ty ty' _ F.
  change (look _ _) with InLast in F. rewrite (req_last _ _ _ F). apply same_bind_eq. intros r.
  apply (same_bind _ _ _ _ _ _ (rd_values _ _ (find_into' InObject "VALUES" n n' K eq_refl eq_refl))). intros v v' E. cbn.
  unfold k_so. cbn. rewrite (skel_eq n n') by apply (relaid_tags _ _ _ H eq_refl). f_equal.
  destruct v as [l|], v' as [l'|]; try discriminate E; [|reflexivity]. cbn in E. congruence.
Qed.
Lemma rd_relation_value n n' :
  relaid InValues n n' -> same_result val_rel (parse_relation_value n) (parse_relation_value n').
Proof.
  intros H. unfold parse_relation_value. alike H.
  assert (S : skel n = skel n') by (apply skel_eq, (relaid_tags _ _ _ H eq_refl)).
  pose proof (fun t q => value_kids n n' t q H) as KK.
  destruct (tag_is "ATTRIBUTE-VALUE-STRING" n) eqn:T.
  { rewrite (rd_grandchild _ _ _ H (KK _ _ T eq_refl eq_refl)). do 2 (apply same_bind_eq; intros ?). cbn.
    apply k_val_other; [discriminate|reflexivity|]. unfold sk_val. cbn. rewrite S. reflexivity. }
  clear T. destruct (tag_is "ATTRIBUTE-VALUE-XHTML" n) eqn:T; [apply (rd_xhtml InValues); [exact H|apply (KK _ _ T); reflexivity]|].
  clear T. destruct (tag_is "ATTRIBUTE-VALUE-INTEGER" n) eqn:T; [|reflexivity].
  rewrite (rd_grandchild _ _ _ H (KK _ _ T eq_refl eq_refl)). do 2 (apply same_bind_eq; intros ?). cbn.
  apply k_val_other; [discriminate|reflexivity|]. unfold sk_val. cbn. rewrite S. reflexivity.
Qed.
Lemma rd_spec_relation n n' :
  relaid InRelations n n' -> same_result (fun o o' => k_sr o = k_sr o') (parse_spec_relation n) (parse_spec_relation n').
Proof.
  intros H. assert (K := relaid_step _ InRelation _ _ H eq_refl). unfold parse_spec_relation. alike H.
  do 2 (apply same_bind_eq; intros ?). destruct (negb _); [reflexivity|]. destruct (negb _); [reflexivity|].
  apply same_bind_eq; intros i. 
  apply (req_into _ InRelation); [exact K|reflexivity|reflexivity|]. intros ty ty' _ F. change (look _ _) with InLast in F.
  rewrite (req_last _ _ _ F). apply same_bind_eq. intros r. clear F.
  apply (req_into _ InRelation); [exact K|reflexivity|reflexivity|]. intros sr sr' _ F. change (look _ _) with InLast in F.
  rewrite (req_last _ _ _ F). apply same_bind_eq. intros r1. clear F.
  apply (req_into _ InRelation); [exact K|reflexivity|reflexivity|]. intros tg tg' _ F. change (look _ _) with InLast in F.
  rewrite (req_last _ _ _ F). apply same_bind_eq. intros r2. clear F.
  apply (same_bind (fun o o' => option_map k_val o = option_map k_val o')).
  - pose proof (find_into' InRelation "VALUES" n n' K eq_refl eq_refl) as F.
    destruct (find_child "VALUES" n), (find_child "VALUES" n'); cbn [opt_rel] in F; try contradiction; [|reflexivity].
    change (look _ _) with InValues in F. apply in_order in F; [|reflexivity]. destruct F as [|x x' l l' Hx _]; [reflexivity|].
    apply (same_bind _ _ _ _ _ _ (rd_relation_value _ _ Hx)). intros v v' E. cbn. f_equal. exact E.
  - intros v v' E. cbn. unfold k_sr. cbn. rewrite (skel_eq n n') by apply (relaid_tags _ _ _ H eq_refl). rewrite E. reflexivity.
Qed.
Lemma rd_opt_ref p t q n n' :
  kids_rel p (children n) (children n') -> plain t = true -> free xw p t = false -> look t (table p) = InLast ->
  opt_ref t q n' = opt_ref t q n.
Proof.
  intros K T FT L. unfold opt_ref. pose proof (find_into' p t n n' K T FT) as F. rewrite L in F.
  destruct (find_child t n), (find_child t n'); cbn [opt_rel] in F; try contradiction; [|reflexivity].
  rewrite (find_last q _ _ F). reflexivity.
Qed.
Lemma rd_group n n' : relaid InGroups n n' -> same_result eq (parse_relation_group n) (parse_relation_group n').
Proof.
  intros H. assert (K := relaid_step _ InGroup _ _ H eq_refl). unfold parse_relation_group. alike H.
  rewrite !(fun t q => rd_opt_ref InGroup t q n n' K) by reflexivity.
  pose proof (find_into' InGroup "SPEC-RELATIONS" n n' K eq_refl eq_refl) as F.
  do 3 (apply same_bind_eq; intros ?).
  destruct (find_child "SPEC-RELATIONS" n), (find_child "SPEC-RELATIONS" n'); cbn [opt_rel] in F; try contradiction; [|reflexivity].
  change (look _ _) with InLast in F. apply last_eq in F. rewrite F. reflexivity.
Qed.
Lemma rd_hier n : forall n' level,
  relaid InChildren n n' -> same_result (fun h h' => erase_hier h = erase_hier h') (parse_hier level n) (parse_hier level n').
Proof.
  induction n as [n IH] using node_strong_ind. intros n' level H.
  assert (K := relaid_step _ InHierarchy _ _ H eq_refl).
  destruct n as [c|ns l d i a kids|s|s]; [inversion H; subst; reflexivity| |inversion H; subst; reflexivity..].
  destruct n' as [c|ns' l' d' i' a' kids'|s|s]; [inversion H; discriminate|..|inversion H; discriminate|inversion H; discriminate].
  rewrite !parse_hier_eq. set (n := El ns l d i a kids) in *. set (n' := El ns' l' d' i' a' kids') in *. alike H.
  do 2 (apply same_bind_eq; intros ?).
  apply (req_into _ InHierarchy); [exact K|reflexivity|reflexivity|]. intros ob ob' _ F. change (look _ _) with InLast in F.
  rewrite (req_last _ _ _ F). apply same_bind_eq. intros r. clear F.
  pose proof (find_into InHierarchy "CHILDREN" n n' K eq_refl eq_refl) as F.
  destruct (find_child "CHILDREN" n) as [ch|] eqn:E, (find_child "CHILDREN" n') as [ch'|]; cbn [opt_rel] in F; try contradiction.
  2:{ cbn. reflexivity. }
  destruct F as [F1 F2]. change (look _ _) with InChildren in F2. apply in_order in F2; [|reflexivity]. rewrite (rl_closed _ _ _ F1).
  apply (same_bind (fun o o' => option_map (map erase_hier) o = option_map (map erase_hier) o')).
  - apply (same_bind (Forall2 (fun h h' => erase_hier h = erase_hier h'))).
    + apply find_child_size in E.
      assert (S : Forall (fun k => nsize k < nsize n) (children ch)).
      { apply Forall_forall. intros k Hk. apply children_size in Hk. lia. }
      clear F1 E. induction F2 as [|x x' ks ks' Hx _ IHk]; [constructor|]. inversion S; subst. cbn [mapM].
      apply (same_bind (fun h h' => erase_hier h = erase_hier h')); [apply IH; assumption|]. intros h h' Eh.
      apply (same_bind (Forall2 (fun h h' => erase_hier h = erase_hier h'))); [apply IHk; assumption|]. intros hs hs' Ehs.
      constructor; assumption.
    + intros hs hs' Eh. cbn. f_equal. apply Forall2_map_eq, Eh.
  - intros o o' Eo. cbn [same_result erase_hier]. f_equal. exact Eo.
Qed.
Lemma last_rel p t n n' :
  kids_rel p (children n) (children n') -> plain t = true -> free xw p t = false -> unordered p = false ->
  opt_rel (fun x x' => kids_rel (look t (table p)) (children x) (children x')) (last_child t n) (last_child t n').
Proof.
  intros H0 T FT U. pose proof (in_order _ _ _ U H0) as H.
  assert (G : forall m, last_child t m = find_list t (rev (children m))).
  { intros m. unfold last_child, find_list, children. induction (kids_of m) as [|k l IH] using rev_ind; [reflexivity|].
    rewrite filter_app, !rev_app_distr. destruct k; cbn [filter is_chr negb rev app find]; rewrite ?IH; reflexivity. }
  rewrite !G. assert (R : Forall2 (relaid p) (rev (children n)) (rev (children n'))).
  { clear -H. induction H; cbn; [constructor|]. apply Forall2_app; [assumption|]. constructor; [assumption|constructor]. }
  pose proof (find_forall p t _ _ R) as F. unfold find_list in *.
  destruct (find (tag_is t) (rev (children n))) as [x|] eqn:E, (find _ (rev (children n'))) as [x'|]; cbn [opt_rel] in *; auto.
  apply find_some in E. apply (relaid_kids p t x x' F T FT). apply tag_is_eq, (proj2 E).
Qed.
Lemma rd_specification n n' :
  relaid InSpecifications n n' -> same_result (fun s s' => k_sp s = k_sp s') (parse_specification n) (parse_specification n').
Proof.
  intros H. assert (K := relaid_step _ InSpecification _ _ H eq_refl). unfold parse_specification. alike H.
  do 3 (apply same_bind_eq; intros ?).
  apply (same_bind (fun o o' => map_list erase_hier o = map_list erase_hier o')).
  - pose proof (last_rel InSpecification "CHILDREN" n n' K eq_refl eq_refl eq_refl) as F.
    destruct (last_child _ n), (last_child _ n'); cbn [opt_rel] in F; try contradiction; [|reflexivity].
    change (look _ _) with InChildren in F.
    apply (same_bind _ _ _ _ _ _ (same_mapM _ _ _ _ _ (fun x x' => rd_hier x x' 1) (in_order InChildren _ _ eq_refl F))). intros hs hs' E. cbn. f_equal.
    apply Forall2_map_eq, E.
  - intros ch ch' Ec. apply (same_bind _ _ _ _ _ _ (rd_values _ _ (find_into' InSpecification "VALUES" n n' K eq_refl eq_refl))).
    intros v v' Ev. cbn. unfold k_sp. cbn [sp_identifier sp_description sp_last_change sp_long_name sp_values
      sp_specification_type sp_children sp_xml_node option_map].
    rewrite (skel_eq n n') by apply (relaid_tags _ _ _ H eq_refl). rewrite Ec, Ev.
    rewrite (rd_opt_ref InSpecification "TYPE" _ n n' K) by reflexivity. reflexivity.
Qed.
Lemma rd_header n n' :
  relaid InReqIF n n' -> kids_rel InTheHeader (children n) (children n') -> same_result eq (parse_header n) (parse_header n').
Proof.
  intros H K. unfold parse_header. alike H. apply same_bind_eq. intros _.
  pose proof (find_into InTheHeader "REQ-IF-HEADER" n n' K eq_refl eq_refl) as F.
  destruct (find_child _ n) as [h|], (find_child _ n') as [h'|]; cbn [opt_rel] in F; try contradiction; [|reflexivity].
  destruct F as [F1 F2]. change (look _ _) with InHeader in F2. alike F1. unfold child_text.
  rewrite !(fun t => find_other InHeader t h h' F2) by reflexivity. eq_results.
Qed.

(** ** Namespaces are stripped alike *)
Lemma Forall2_with {A} (P : A -> Prop) (R : A -> A -> Prop) l l' :
  Forall P l -> Forall2 R l l' -> Forall2 (fun a b => P a /\ R a b) l l'.
Proof. intros H F. induction F; constructor; inversion H; subst; auto. Qed.
Lemma items_Forall (P : node -> Prop) l : Forall P l -> Forall P (items l).
Proof. intros H. apply Forall_forall. intros x Hx. apply filter_In in Hx. rewrite Forall_forall in H. apply H, Hx. Qed.
Lemma map_opt_items full kids :
  match map_opt (strip_ns full) kids with
  | Some ks => map_opt (strip_ns full) (items kids) = Some (items ks)
  | None => map_opt (strip_ns full) (items kids) = None
  end.
Proof.
  induction kids as [|k kids IH]; [reflexivity|].
  destruct k as [c|ns l d i a kk|s|s]; cbn [map_opt].
  - cbn [strip_ns items filter]. destruct (map_opt (strip_ns full) kids); exact IH.
  - cbn [items filter map_opt]. cbn [strip_ns]. destruct (map_opt (strip_ns full) kk); [|reflexivity].
    destruct (map_opt (strip_ns full) kids); unfold items in IH; rewrite IH; reflexivity.
  - cbn [items filter map_opt strip_ns].
    destruct (map_opt (strip_ns full) kids); unfold items in IH; rewrite IH; reflexivity.
  - reflexivity.
Qed.
Lemma strip_nonempty full kids ks : map_opt (strip_ns full) kids = Some ks -> items kids <> [] -> items ks <> [].
Proof.
  intros E N. pose proof (map_opt_items full kids) as M. rewrite E in M. destruct (items kids); [contradiction|].
  cbn in M. destruct (strip_ns full n); [|discriminate]. destruct (map_opt (strip_ns full) l); [|discriminate].
  injection M as <-. discriminate.
Qed.
Lemma opt_perm {A B} (f : A -> option B) l l' :
  Permutation l l' -> opt_rel (@Permutation B) (map_opt f l) (map_opt f l').
Proof.
  intros P. induction P as [|x l l' P IH|x y l|l1 l2 l3 P1 IH1 P2 IH2]; cbn [map_opt].
  - constructor.
  - destruct (f x); [|exact I]. destruct (map_opt f l), (map_opt f l'); cbn in *; try contradiction; auto.
  - destruct (f x), (f y); cbn; try exact I. destruct (map_opt f l); cbn; [constructor|exact I].
  - destruct (map_opt f l1), (map_opt f l2), (map_opt f l3); cbn in *; try contradiction; auto. etransitivity; eassumption.
Qed.
Lemma strip_names full l m : map_opt (strip_ns full) l = Some m -> names m = names l.
Proof.
  revert m. induction l as [|x l IH]; intros m H; cbn in H; [injection H as <-; reflexivity|].
  destruct (strip_ns full x) as [y|] eqn:E; [|discriminate]. destruct (map_opt (strip_ns full) l) as [ys|]; [|discriminate].
  injection H as <-. change (y :: ys) with ([y] ++ ys). change (x :: l) with ([x] ++ l). rewrite !names_app, (IH _ eq_refl). f_equal.
  destruct x as [c|ns lo d i a k|t|t]; cbn in E; [injection E as <-; reflexivity| |injection E as <-; reflexivity|discriminate].
  destruct (map_opt (strip_ns full) k); [|discriminate]. injection E as <-. reflexivity.
Qed.
Lemma strip_kids full p kids kids' :
  Forall (fun k => forall p n', relaid p k n' -> opt_rel (relaid p) (strip_ns full k) (strip_ns full n')) kids ->
  content_rel_ p kids kids' ->
  opt_rel (content_rel_ p) (map_opt (strip_ns full) kids) (map_opt (strip_ns full) kids').
Proof.
  intros IH [<-|[N (mid & R & F)]]; [destruct (map_opt _ kids); [left; reflexivity|exact I]|].
  apply items_Forall in IH.
  assert (IH' : Forall (fun k => forall p n', relaid p k n' -> opt_rel (relaid p) (strip_ns full k) (strip_ns full n')) mid).
  { destruct R as [<-|(_ & P & _)]; [exact IH|]. apply Forall_forall. intros x Hx. rewrite Forall_forall in IH. apply IH.
    apply (Permutation_in _ (Permutation_sym P) Hx). }
  assert (G : opt_rel (Forall2 (relaid p)) (map_opt (strip_ns full) mid) (map_opt (strip_ns full) (items kids'))).
  { clear N IH R. induction F as [|x x' l l' Hx _ IHl]; [constructor|]. inversion IH' as [|? ? H1 H2]; subst.
    specialize (H1 _ _ Hx). specialize (IHl H2). cbn [map_opt].
    destruct (strip_ns full x), (strip_ns full x'); cbn [opt_rel] in H1; try contradiction; [|exact I].
    destruct (map_opt _ l), (map_opt _ l'); cbn [opt_rel] in IHl |- *; try contradiction; [|exact I].
    constructor; assumption. }
  assert (G2 : opt_rel (rearranged p) (map_opt (strip_ns full) (items kids)) (map_opt (strip_ns full) mid)).
  { destruct R as [<-|(U & P & D)]; [destruct (map_opt _ (items kids)); [left; reflexivity|exact I]|].
    pose proof (opt_perm (strip_ns full) _ _ P) as OP.
    destruct (map_opt _ (items kids)) as [ks|] eqn:E, (map_opt _ mid); cbn [opt_rel] in *; try contradiction; [|exact I].
    right. split; [exact U|]. split; [exact OP|]. rewrite (strip_names _ _ _ E). exact D. }
  pose proof (map_opt_items full kids) as M1. pose proof (map_opt_items full kids') as M2.
  destruct (map_opt _ kids) as [ks|] eqn:E, (map_opt _ kids') as [ks'|]; rewrite ?M1 in G2; rewrite ?M2 in G;
    destruct (map_opt _ mid) as [ms|]; cbn [opt_rel] in *; try contradiction; [|exact I].
  right. split; [apply (strip_nonempty full kids); assumption|]. exists ms. split; assumption.
Qed.
Lemma strip_rel full n : forall p n', relaid p n n' -> opt_rel (relaid p) (strip_ns full n) (strip_ns full n').
Proof.
  induction n as [c|s|s|ns l d i a kids IH] using node_ind'; intros p n' H;
    inversion H as [|? ? ? C|? ? ? ? ? ? ? ? FR RS|? p' ? ? ? ? ? attrs' ? kids' T P N K]; subst;
    try (destruct (strip_ns full _); cbn; [constructor|exact I]); [constructor; assumption|..].
  { rewrite !SpaceProofs.strip_bare, (SpaceProofs.pi_respaced _ _ RS). destruct (pi_free n'); [|exact I]. cbn [opt_rel].
    apply (SpaceProofs.bare_respaced full) in RS. apply relaid_free; assumption. }
  cbn [strip_ns]. pose proof (strip_kids full p' kids kids' IH K) as G.
  destruct (map_opt _ kids), (map_opt _ kids'); cbn [opt_rel] in *; try contradiction; [|exact I].
  apply (relaid_element xw p p'); assumption.
Qed.
Lemma flat_items kids : flat_map uses kids = flat_map uses (items kids).
Proof. induction kids as [|[| | |] kids IH]; cbn; rewrite ?IH; reflexivity. Qed.
Lemma mid_Forall (P : node -> Prop) p l mid : rearranged p l mid -> Forall P l -> Forall P mid.
Proof.
  intros R IH. destruct R as [<-|(_ & Q & _)]; [exact IH|]. apply Forall_forall. intros x Hx. rewrite Forall_forall in IH. apply IH.
  apply (Permutation_in _ (Permutation_sym Q) Hx).
Qed.
Lemma mid_uses p l mid : rearranged p l mid -> forall x, In x (flat_map uses l) <-> In x (flat_map uses mid).
Proof.
  intros R x. destruct R as [<-|(_ & Q & _)]; [reflexivity|]. pose proof (Permutation_flat_map uses Q) as Q'.
  split; intros G; [apply (Permutation_in _ Q' G)|apply (Permutation_in _ (Permutation_sym Q') G)].
Qed.
Lemma uses_rel n : forall p n', relaid p n n' -> forall x, In x (uses n) <-> In x (uses n').
Proof.
  induction n as [c|s|s|ns l d i a kids IH] using node_ind'; intros p n' H x;
    inversion H as [|? ? ? C|? ? ? ? ? ? ? ? FR RS|? p' ? ? ? ? ? attrs' ? kids' T P N K]; subst; try reflexivity.
  { rewrite (SpaceProofs.uses_respaced _ _ RS). reflexivity. }
  cbn [uses]. rewrite !filter_In, !in_app_iff.
  assert (G1 : In x (own_refs ns a) <-> In x (own_refs ns attrs')).
  { unfold own_refs. rewrite !in_app_iff, !in_flat_map. split; (intros [G|(y & G1 & G2)]; [left; exact G|right; exists y]; split; [|exact G2]).
    - apply (Permutation_in _ P G1). - apply (Permutation_in _ (Permutation_sym P) G1). }
  assert (G2 : In x (flat_map uses kids) <-> In x (flat_map uses kids')).
  { destruct K as [<-|[K1 (mid & R & K2)]]; [reflexivity|]. rewrite (flat_items kids), (flat_items kids').
    apply items_Forall in IH. apply (mid_Forall _ _ _ _ R) in IH. rewrite (mid_uses _ _ _ R).
    clear K1 R. induction K2 as [|y y' l1 l2 Hy _ IHl]; [reflexivity|]. inversion IH as [|? ? H1 H2]; subst.
    cbn [flat_map]. rewrite !in_app_iff. rewrite (H1 _ _ Hy), (IHl H2). reflexivity. }
  rewrite G1, G2. reflexivity.
Qed.
Lemma used_rel p n n' ns a a' kids kids' :
  Permutation a a' -> content_rel_ p kids kids' ->
  n = own_refs ns a ++ flat_map uses kids -> n' = own_refs ns a' ++ flat_map uses kids' -> forall x, In x n <-> In x n'.
Proof.
  intros P K -> -> x. rewrite !in_app_iff.
  assert (G1 : In x (own_refs ns a) <-> In x (own_refs ns a')).
  { unfold own_refs. rewrite !in_app_iff, !in_flat_map. split; (intros [G|(y & G1 & G2)]; [left; exact G|right; exists y]; split; [|exact G2]).
    - apply (Permutation_in _ P G1). - apply (Permutation_in _ (Permutation_sym P) G1). }
  rewrite G1. destruct K as [<-|[_ (mid & R & K)]]; [reflexivity|]. rewrite (flat_items kids), (flat_items kids'), (mid_uses _ _ _ R).
  enough (G2 : In x (flat_map uses mid) <-> In x (flat_map uses (items kids'))) by (rewrite G2; reflexivity).
  clear R. induction K as [|y y' l1 l2 Hy _ IHl]; [reflexivity|]. cbn [flat_map]. rewrite !in_app_iff, IHl, (uses_rel _ _ _ Hy). reflexivity.
Qed.
Lemma ostr_mem_ext x l l' : (forall y, In y l <-> In y l') -> ostr_mem x l = ostr_mem x l'.
Proof.
  intros H. destruct (ostr_mem x l) eqn:E, (ostr_mem x l') eqn:E'; try reflexivity.
  - apply ostr_mem_In in E. apply H in E. apply ostr_mem_In in E. congruence.
  - apply ostr_mem_In in E'. apply H in E'. apply ostr_mem_In in E'. congruence.
Qed.
Lemma items_cleanup inh kids : items (map (cleanup inh) kids) = map (cleanup inh) (items kids).
Proof. induction kids as [|[| | |] kids IH]; [reflexivity|..]; cbn; unfold items in IH; rewrite ?IH; reflexivity. Qed.
Lemma names_cleanup inh l : names (map (cleanup inh) l) = names l.
Proof. induction l as [|[| | |] l IH]; [reflexivity|..]; cbn; unfold names in IH; rewrite ?IH; reflexivity. Qed.
Lemma cleanup_kids p inh kids kids' :
  Forall (fun k => forall p n' inh, relaid p k n' -> relaid p (cleanup inh k) (cleanup inh n')) kids ->
  content_rel_ p kids kids' -> content_rel_ p (map (cleanup inh) kids) (map (cleanup inh) kids').
Proof.
  intros IH [<-|[N (mid & R & K)]]; [left; reflexivity|]. right. rewrite !items_cleanup. apply items_Forall in IH. split.
  - destruct (items kids); [contradiction|discriminate].
  - exists (map (cleanup inh) mid). split.
    + destruct R as [<-|(U & P & D)]; [left; reflexivity|right]. split; [exact U|]. split; [apply Permutation_map, P|].
      rewrite names_cleanup. exact D.
    + apply (mid_Forall _ _ _ _ R) in IH. clear N R. induction K as [|y y' l1 l2 Hy _ IHl]; [constructor|].
      inversion IH; subst. cbn. constructor; auto.
Qed.
Lemma cleanup_rel n : forall p n' inh, relaid p n n' -> relaid p (cleanup inh n) (cleanup inh n').
Proof.
  induction n as [c|s|s|ns l d i a kids IH] using node_ind'; intros p n' inh H;
    inversion H as [|? ? ? C|? ? ? ? ? ? ? ? FR RS|? p' ? ? ? ? ? attrs' ? kids' T P N K]; subst; try apply relaid_same; [apply relaid_comment; assumption| |].
  { apply relaid_free; [assumption|]. apply (SpaceProofs.cleanup_respaced _ _ RS). }
  cbn [cleanup].
  rewrite (filter_ext (fun d0 => ostr_mem (fst d0) (own_refs ns attrs' ++ flat_map uses kids'))
     (fun d0 => ostr_mem (fst d0) (own_refs ns a ++ flat_map uses kids))).
  2:{ intros x. symmetry. apply ostr_mem_ext. apply (used_rel p' _ _ ns a attrs' kids kids' P K eq_refl eq_refl). }
  apply (relaid_element xw p p'); try assumption. apply cleanup_kids; assumption.
Qed.

(** ** Computations with progress reports *)
Definition same_run {A} (R : A -> A -> Prop) (m m' : M A) : Prop :=
  forall h, fst (m h) = fst (m' h) /\ same_result R (snd (m h)) (snd (m' h)).
Lemma run_lift {A} (R : A -> A -> Prop) r r' : same_result R r r' -> same_run R (lift r) (lift r').
Proof. intros H h. split; [reflexivity|exact H]. Qed.
Lemma run_ret {A} (R : A -> A -> Prop) a a' : R a a' -> same_run R (ret a) (ret a').
Proof. intros H h. split; [reflexivity|exact H]. Qed.
Lemma run_bind {A B} (R : A -> A -> Prop) (S : B -> B -> Prop) m m' f f' :
  same_run R m m' -> (forall a a', R a a' -> same_run S (f a) (f' a')) -> same_run S (mbind m f) (mbind m' f').
Proof.
  intros H1 H2 h. unfold mbind. specialize (H1 h). destruct (m h) as [h1 r], (m' h) as [h2 r']. cbn [fst snd] in H1.
  destruct H1 as [<- H1]. destruct r as [a|e], r' as [a'|e']; cbn in H1; try contradiction; [apply H2, H1|].
  split; [reflexivity|exact H1].
Qed.
Lemma run_track {A S} (Q : A -> A -> Prop) (R : S -> S -> Prop) cb t l l' body s s' :
  (forall x x' s s', Q x x' -> R s s' -> same_result R (body x s) (body x' s')) -> Forall2 Q l l' -> R s s' ->
  same_run R (track cb t l body s) (track cb t l' body s').
Proof.
  intros HB F. unfold track. assert (L : length l = length l') by (clear -F; induction F; cbn; congruence). rewrite <- L. clear L. generalize (length l). intros total. revert s s'. generalize 0.
  induction F as [|x x' l l' Hx _ IH]; intros i s s' Hs; [apply run_ret, Hs|]. cbn [track_loop].
  apply (run_bind R); [apply run_lift, HB; assumption|]. intros a a' Ha.
  apply (run_bind eq); [|intros ? ? _; apply IH, Ha]. intros h. split; [reflexivity|]. apply same_refl. reflexivity.
Qed.
Lemma run_section {S} (R : S -> S -> Prop) cb t p n n' body s :
  kids_rel InContent (children n) (children n') -> plain t = true -> look t (table InContent) = p -> unordered p = false ->
  (forall x x' s s', relaid p x x' -> R s s' -> same_result R (body x s) (body x' s')) -> R s s ->
  same_run (fun a a' => fst a = fst a' /\ R (snd a) (snd a')) (section_ cb t n body s) (section_ cb t n' body s).
Proof.
  intros K T L U HB Hs. unfold section_. pose proof (find_into' InContent t n n' K T eq_refl) as F. rewrite L in F.
  destruct (find_child t n), (find_child t n'); cbn [opt_rel] in F; try contradiction.
  - apply in_order in F; [|exact U]. apply (run_bind R); [apply (run_track (relaid p)); assumption|]. intros a a' Ha. apply run_ret. auto.
  - apply run_ret. auto.
Qed.
Lemma map_dict_set {V W} (f : V -> W) d k v : map_dict f (dict_set d k v) = dict_set (map_dict f d) k (f v).
Proof.
  unfold map_dict. induction d as [|[k' w] d IH]; [reflexivity|]. cbn. destruct (ostr_eqb k k'); cbn; rewrite ?IH; reflexivity.
Qed.
Lemma stringify_error n r e : stringify_node r n = Raise e -> e = EValueError.
Proof.
  revert r e. induction n as [c|s|s|ns l d i a kids IH] using node_ind'; intros r e H; try discriminate H;
    try (cbn in H; congruence).
  cbn [stringify_node] in H.
  match type of H with context [bind (?g kids) _] => set (go := g) in * end.
  assert (G : forall e, go kids = Raise e -> e = EValueError).
  { clear H. induction IH as [|x ks Hx _ IHk]; intros e' H; [discriminate|].
    destruct x as [c|ns' l' d' i' a' kk|s|s]; cbn in H.
    - destruct (go ks) eqn:E; [discriminate|]. cbn in H. apply IHk. congruence.
    - match type of H with bind ?m _ = _ => destruct m eqn:E1 end; cbn [bind] in H.
      + destruct (go ks) eqn:E; [discriminate|]. cbn in H. apply IHk. congruence.
      + injection H as H. rewrite <- H. apply (Hx false _ E1).
    - destruct (go ks) eqn:E; [discriminate|]. cbn in H. apply IHk. congruence.
    - congruence. }
  destruct (needs_close _ kids); [|discriminate H]. destruct (go kids) eqn:E; [discriminate H|].
  cbn [bind] in H. injection H as <-. apply G. reflexivity.
Qed.
Lemma pi_rel n : forall p n', relaid p n n' -> pi_free n = pi_free n'.
Proof.
  induction n as [c|s|s|ns l d i a kids IH] using node_ind'; intros p n' H;
    inversion H as [|? ? ? C|? ? ? ? ? ? ? ? FR RS|? p' ? ? ? ? ? attrs' ? kids' T P N K]; subst; try reflexivity.
  { apply (SpaceProofs.pi_respaced _ _ RS). }
  cbn [pi_free]. destruct K as [<-|[_ (mid & R & K)]]; [reflexivity|].
  assert (F : forall ks, forallb pi_free ks = forallb pi_free (items ks)).
  { induction ks as [|[| | |] ks IHk]; cbn; try (unfold items in IHk; rewrite IHk); reflexivity. }
  rewrite (F kids), (F kids'). apply items_Forall in IH. apply (mid_Forall _ _ _ _ R) in IH.
  assert (E : forallb pi_free (items kids) = forallb pi_free mid).
  { destruct R as [<-|(_ & Q & _)]; [reflexivity|]. clear -Q. induction Q; cbn; rewrite ?IHQ; try reflexivity; [|congruence].
    destruct (pi_free x), (pi_free y); reflexivity. }
  rewrite E. clear R E. induction K as [|y y' l1 l2 Hy _ IHl]; [reflexivity|]. inversion IH as [|? ? H1 H2]; subst. cbn.
  rewrite (H1 _ _ Hy), (IHl H2). reflexivity.
Qed.
Lemma stringify_rel p n n' :
  relaid p n n' -> is_chr n = false -> same_result (fun _ _ => True) (stringify_node false n) (stringify_node false n').
Proof.
  intros H C. assert (C' : is_chr n' = false) by (inversion H as [|? ? ? CC|? ? ? ? ? ? ? ? FR RS|]; subst; auto; free_el RS; reflexivity).
  pose proof (stringify_ok n false C) as O. pose proof (stringify_ok n' false C') as O'. rewrite <- (pi_rel _ _ _ H) in O'.
  destruct (stringify_node false n) eqn:E, (stringify_node false n') eqn:E'; cbn in *; try congruence; [exact I|].
  apply stringify_error in E, E'. subst. reflexivity.
Qed.

Definition rels_rel (s s' : relation_state) : Prop :=
  map k_sr (fst (fst s)) = map k_sr (fst (fst s')) /\ snd (fst s) = snd (fst s') /\ Forall2 same_exception (snd s) (snd s').
Lemma body_relation x x' s s' :
  relaid InRelations x x' -> rels_rel s s' -> same_result rels_rel (spec_relation_body x s) (spec_relation_body x' s').
Proof.
  intros H (R1 & R2 & R3). destruct s as [[rs ps] es], s' as [[rs' ps'] es']. cbn [fst snd] in *. subst.
  unfold spec_relation_body. pose proof (rd_spec_relation x x' H) as G.
  destruct (parse_spec_relation x) as [r|e] eqn:E, (parse_spec_relation x') as [r'|e'] eqn:E'; cbn [same_result] in G; try contradiction.
  - assert (G1 : sr_source (k_sr r) = sr_source (k_sr r')) by (rewrite G; reflexivity).
    assert (G2 : sr_target (k_sr r) = sr_target (k_sr r')) by (rewrite G; reflexivity). cbn in G1, G2.
    cbn [same_result]. split; [|split]; cbn [fst snd]; [rewrite !map_app, R1; cbn [map]; rewrite G; reflexivity|rewrite G1, G2; reflexivity|exact R3].
  - assert (M : (exists t, e = EMissingTag x t /\ e' = EMissingTag x' t) \/ (forall n t, e <> EMissingTag n t) /\ e' = e).
    { destruct e as [| | | | | | | | | | | |n t|k]; try (right; split; [discriminate|symmetry; exact G]).
      destruct e' as [| | | | | | | | | | | |n' t'|k']; cbn in G; try discriminate G. subst. left. exists t'.
      destruct (spec_relation_special _ _ E eq_refl) as (_ & _ & t1 & _ & E1).
      destruct (spec_relation_special _ _ E' eq_refl) as (_ & _ & t2 & _ & E2). split; congruence. }
    destruct M as [(t & -> & ->)|[M ->]].
    + apply (same_bind (fun _ _ => True)).
      * apply (stringify_rel InRelations); [exact H|]. destruct x; try reflexivity. discriminate E.
      * intros _ _ _. cbn. split; [exact R1|]. split; [reflexivity|]. apply Forall2_app; [exact R3|]. constructor; [reflexivity|constructor].
    + destruct e as [| | | | | | | | | | | |n t|k]; try apply same_exn_refl. exfalso. apply (M n t). reflexivity.
Qed.
Lemma content_rel cb n n' :
  relaid InCore n n' -> kids_rel InContent (children n) (children n') ->
  same_run (fun a a' => k_content (fst (fst a)) = k_content (fst (fst a')) /\ k_lookup (snd (fst a)) = k_lookup (snd (fst a'))
                        /\ Forall2 same_exception (snd a) (snd a'))
    (parse_reqif_content cb n) (parse_reqif_content cb n').
Proof.
  intros H K. unfold parse_reqif_content. alike H.
  apply (run_bind eq); [apply run_lift, same_refl; reflexivity|]. intros _ _ _.
  apply (run_bind (fun a a' => fst a = fst a' /\ snd a = snd a')).
  { apply (run_section eq _ _ InDatatypes); try reflexivity; [exact K|]. intros x x' s s' Hx <-. unfold data_type_body.
    apply (same_bind eq); [apply rd_data_type, Hx|]. intros d d' <-. reflexivity. }
  intros [b1 [dts dtl]] [b1' [dts' dtl']] [E1 E2]. cbn [fst snd] in *. injection E2 as <- <-. subst b1'.
  apply (run_bind (fun a a' => fst a = fst a' /\ (map k_st (fst (snd a)) = map k_st (fst (snd a'))
                               /\ map_dict k_st (snd (snd a)) = map_dict k_st (snd (snd a'))))).
  { apply (run_section (fun s s' => map k_st (fst s) = map k_st (fst s') /\ map_dict k_st (snd s) = map_dict k_st (snd s')) _ _ InSpecTypes);
      try reflexivity; [exact K| |split; reflexivity]. intros x x' [s1 s2] [s1' s2'] Hx [R1 R2]. cbn [fst snd] in *. unfold spec_type_body.
    apply (same_bind _ _ _ _ _ _ (rd_spec_type x x' Hx)). intros [t|] [t'|] E; try discriminate E; [|cbn; auto].
    cbn in E. injection E as E. cbn [same_result fst snd]. rewrite !map_app, R1, !map_dict_set, R2. cbn [map]. rewrite E. split; [reflexivity|].
    f_equal. f_equal.
    assert (I : st_identifier (k_st t) = st_identifier (k_st t')) by (rewrite E; reflexivity).
    destruct t, t'; cbn in E; try discriminate E; exact I. }
  intros [b2 [sts stl]] [b2' [sts' stl']] [E1 [E2 E3]]. cbn [fst snd] in *. subst b2'.
  apply (run_bind (fun a a' => fst a = fst a' /\ map k_sp (snd a) = map k_sp (snd a'))).
  { apply (run_section (fun s s' => map k_sp s = map k_sp s') _ _ InSpecifications); try reflexivity; [exact K|].
    intros x x' s s' Hx R. unfold specification_body. apply (same_bind _ _ _ _ _ _ (rd_specification x x' Hx)). intros y y' E. cbn.
    rewrite !map_app, R. cbn. rewrite E. reflexivity. }
  intros [b3 sps] [b3' sps'] [E1 E4]. cbn [fst snd] in *. subst b3'.
  apply (run_bind (fun a a' => fst a = fst a' /\ rels_rel (snd a) (snd a'))).
  { apply (run_section rels_rel _ _ InRelations); try reflexivity; [exact K|exact body_relation|]. repeat split; constructor. }
  intros [b4 [[srs par] exs]] [b4' [[srs' par'] exs']] [E1 (E5 & E6 & E7)]. cbn [fst snd] in *. subst b4' par'.
  apply (run_bind (fun a a' => fst a = fst a' /\ (map k_so (fst (snd a)) = map k_so (fst (snd a'))
                               /\ map_dict k_so (snd (snd a)) = map_dict k_so (snd (snd a'))))).
  { apply (run_section (fun s s' => map k_so (fst s) = map k_so (fst s') /\ map_dict k_so (snd s) = map_dict k_so (snd s')) _ _ InObjects);
      try reflexivity; [exact K| |split; reflexivity]. intros x x' [s1 s2] [s1' s2'] Hx [R1 R2]. cbn [fst snd] in *. unfold spec_object_body.
    alike Hx. destruct (is_comment x); [cbn; auto|].
    apply (same_bind _ _ _ _ _ _ (rd_spec_object x x' Hx)). intros o o' E.
    cbn [same_result fst snd]. rewrite !map_app, R1, !map_dict_set, R2. cbn [map]. rewrite E. split; [reflexivity|].
    f_equal. f_equal.
    assert (I : so_identifier (k_so o) = so_identifier (k_so o')) by (rewrite E; reflexivity). exact I. }
  intros [b5 [sos sol]] [b5' [sos' sol']] [E1 [E8 E9]]. cbn [fst snd] in *. subst b5'.
  apply (run_bind (fun a a' => fst a = fst a' /\ snd a = snd a')).
  { apply (run_section eq _ _ InGroups); try reflexivity; [exact K|]. intros x x' s s' Hx <-. unfold relation_group_body.
    apply (same_bind eq); [apply rd_group, Hx|]. intros d d' <-. reflexivity. }
  intros [b6 rgs] [b6' rgs'] [E1 E10]. cbn [fst snd] in *. subst b6' rgs'.
  apply run_ret. cbn [fst snd]. split; [|split; [|exact E7]].
  - unfold k_content, map_content. cbn [rc_data_types rc_spec_types rc_spec_objects rc_spec_relations rc_specifications rc_spec_relation_groups].
    f_equal; unfold when_, map_list, option_map; try (destruct b2; congruence); try (destruct b3; congruence); try (destruct b4; congruence);
      destruct b5; congruence.
  - unfold k_lookup. cbn [lk_data_types lk_spec_types lk_spec_objects lk_parents lk_parents_default]. rewrite E3, E9. reflexivity.
Qed.

(** ** Documents *)
Definition bundle_rel (b b' : bundle) : Prop :=
  b_namespace_info b = b_namespace_info b' /\ b_header b = b_header b'
  /\ option_map (option_map k_content) (b_core_content b) = option_map (option_map k_content) (b_core_content b')
  /\ b_tool_extensions b = b_tool_extensions b'
  /\ k_lookup (b_lookup b) = k_lookup (b_lookup b')
  /\ Forall2 same_exception (b_exceptions b) (b_exceptions b').
Lemma strip_root root root' :
  relaid_root root root' -> same_result relaid_root (strip_if_namespaced root) (strip_if_namespaced root').
Proof.
  intros (ns & l & d & i & a & kids & kids' & -> & -> & K). unfold strip_if_namespaced, node_nsmap.
  destruct (ns_get (extend d i) None) as [u|]; [|cbn; exists ns, l, d, i, a, kids, kids'; auto].
  cbn [strip_ns]. pose proof (strip_kids false InReqIF kids kids') as G.
  specialize (G ltac:(apply Forall_forall; intros; apply strip_rel; assumption) K).
  destruct (map_opt (strip_ns false) kids) as [ks|], (map_opt (strip_ns false) kids') as [ks'|]; cbn [opt_rel] in G; try contradiction; [|reflexivity].
  cbn [same_result cleanup]. match goal with |- context [own_refs ?x a] => set (ns' := x) end.
  rewrite (filter_ext (fun d0 => ostr_mem (fst d0) (own_refs ns' a ++ flat_map uses ks'))
     (fun d0 => ostr_mem (fst d0) (own_refs ns' a ++ flat_map uses ks))).
  2:{ intros x. symmetry. apply ostr_mem_ext. apply (used_rel InReqIF _ _ ns' a a ks ks' (Permutation_refl a) G eq_refl eq_refl). }
  eexists _, _, _, _, _, _, _. split; [reflexivity|]. split; [reflexivity|]. apply cleanup_kids; [|exact G].
  apply Forall_forall. intros. apply cleanup_rel. assumption.
Qed.
Lemma reqif_rel cb decl root root' :
  relaid_root root root' -> same_run bundle_rel (parse_reqif cb decl root) (parse_reqif cb decl root').
Proof.
  intros H. unfold parse_reqif. apply (run_bind relaid_root); [apply run_lift, strip_root, H|].
  intros m m' (ns & l & d & i & a & kids & kids' & -> & -> & K). set (m := El ns l d i a kids). set (m' := El ns l d i a kids').
  assert (EN : namespace_info_of decl root m = namespace_info_of decl root' m').
  { destruct H as (ns0 & l0 & d0 & i0 & a0 & k0 & k0' & -> & -> & _). reflexivity. }
  change (tag_is "REQ-IF" m') with (tag_is "REQ-IF" m). rewrite <- EN.
  destruct (negb (tag_is "REQ-IF" m)); [apply run_lift; reflexivity|].
  assert (KC : kids_rel InReqIF (children m) (children m')).
  { apply (content_kids _ kids kids'); [exact K|symmetry; apply (items_children (El _ _ _ _ _ _))..]. }
  assert (ER : forall A (x y : A), match children m with [] => x | _ => y end = match children m' with [] => x | _ => y end).
  { intros A x y. pose proof (kids_nil _ _ _ KC) as [KN1 KN2]. destruct (children m), (children m'); try reflexivity;
      [discriminate (KN1 eq_refl)|discriminate (KN2 eq_refl)]. }
  rewrite ER. destruct (children m') eqn:EM; [apply run_ret; repeat split; constructor|]. rewrite <- EM in KC. clear ER EM.
  apply (run_bind eq).
  { apply run_lift. pose proof (find_into InReqIF "THE-HEADER" m m' KC eq_refl eq_refl) as F.
    destruct (find_child "THE-HEADER" m), (find_child "THE-HEADER" m'); cbn [opt_rel] in F; try contradiction; [|reflexivity].
    destruct F as [F1 F2]. apply (same_bind eq); [apply (rd_header _ _ F1 F2)|]. intros x y <-. reflexivity. }
  intros hdr hdr' <-.
  apply (run_bind (fun a a' => option_map (option_map k_content) (fst (fst a)) = option_map (option_map k_content) (fst (fst a'))
                    /\ k_lookup (snd (fst a)) = k_lookup (snd (fst a')) /\ Forall2 same_exception (snd a) (snd a'))).
  { pose proof (find_into InReqIF "CORE-CONTENT" m m' KC eq_refl eq_refl) as F.
    destruct (find_child "CORE-CONTENT" m) as [c|], (find_child "CORE-CONTENT" m') as [c'|]; cbn [opt_rel] in F; try contradiction;
      [|apply run_ret; repeat split; constructor].
    destruct F as [_ F]. change (look _ _) with InCore in F.
    pose proof (find_into InCore "REQ-IF-CONTENT" c c' F eq_refl eq_refl) as G.
    destruct (find_child "REQ-IF-CONTENT" c) as [rc|], (find_child "REQ-IF-CONTENT" c') as [rc'|]; cbn [opt_rel] in G; try contradiction;
      [|apply run_ret; repeat split; constructor].
    destruct G as [G1 G2]. change (look _ _) with InContent in G2.
    apply (run_bind _ _ _ _ _ _ (content_rel cb rc rc' G1 G2)). intros [[ct lk] ex] [[ct' lk'] ex'] (E1 & E2 & E3). cbn [fst snd] in *.
    apply run_ret. cbn [fst snd option_map]. rewrite E1. auto. }
  intros [[core lk] ex] [[core' lk'] ex'] (E1 & E2 & E3). cbn [fst snd] in *. apply run_ret.
  split; [reflexivity|]. split; [reflexivity|]. split; [exact E1|]. split; [|split; [exact E2|exact E3]].
  cbn [b_tool_extensions]. pose proof (find_rel_child InReqIF "TOOL-EXTENSIONS" m m' KC eq_refl) as F.
  destruct (find_child "TOOL-EXTENSIONS" m), (find_child "TOOL-EXTENSIONS" m'); cbn [opt_rel] in F; try contradiction; reflexivity.
Qed.
End Layout.

(** ** The bundles *)
Lemma map_list_ext {A B} (f g : A -> B) o : (forall a, f a = g a) -> map_list f o = map_list g o.
Proof. intros H. destruct o; [|reflexivity]. cbn. f_equal. apply map_ext, H. Qed.
Lemma map_list_id {A} (f : A -> A) o : (forall a, f a = a) -> map_list f o = o.
Proof. intros H. destruct o; [|reflexivity]. cbn. f_equal. rewrite (map_ext f (fun a => a)); [apply map_id|exact H]. Qed.
Lemma map_dict_map {A B C} (f : B -> C) (g : A -> B) (h : A -> C) d : (forall a, f (g a) = h a) -> map_dict f (map_dict g d) = map_dict h d.
Proof. intros H. unfold map_dict. rewrite map_map. apply map_ext. intros [k v]. cbn. rewrite H. reflexivity. Qed.
Lemma k_st_sk b t : k_st b t = sk_st (if b then squeeze_spec_type t else t).
Proof.
  destruct b; [|reflexivity]. unfold k_st, k_ad, sk_st, squeeze_spec_type. destruct t as [t|t|t|t]; cbn; do 2 f_equal; symmetry; apply map_list_map; reflexivity.
Qed.
Lemma k_so_sk b o : k_so b o = sk_so (if b then squeeze_spec_object o else o).
Proof. destruct b; [|reflexivity]. unfold k_so, sk_so, squeeze_spec_object. cbn. rewrite map_map. reflexivity. Qed.
Lemma k_sr_sk b r : k_sr b r = sk_sr (if b then squeeze_spec_relation r else r).
Proof. destruct b; [|reflexivity]. unfold k_sr, sk_sr, squeeze_spec_relation. cbn. destruct (sr_values_attribute r); reflexivity. Qed.
Lemma k_sp_sk b s : k_sp b s = sk_sp (if b then squeeze_specification s else s).
Proof. destruct b; [|reflexivity]. unfold k_sp, sk_sp, squeeze_specification. cbn. f_equal. symmetry. apply map_list_map. reflexivity. Qed.
Lemma k_content_sk b c : k_content b c = sk_content (if b then squeeze_content c else c).
Proof.
  unfold k_content, sk_content, squeeze_content, map_content. destruct b; cbn; f_equal; try (symmetry; apply map_list_map; intros a; symmetry);
    try apply map_list_ext; first [apply k_st_sk|apply k_so_sk|apply k_sr_sk|apply k_sp_sk|reflexivity].
Qed.
Definition z_bundle (b : bool) (x : bundle) : bundle := if b then squeeze_bundle x else x.
Lemma bundle_rel_same w b b' : bundle_rel w b b' -> same_bundle (z_bundle w b) (z_bundle w b').
Proof.
  intros (H1 & H2 & H3 & H4 & H5 & H6).
  assert (EC : forall x, option_map (option_map erase_content) (b_core_content (z_bundle w x))
             = option_map (option_map erase_content) (option_map (option_map (k_content w)) (b_core_content x))).
  { intros x. destruct w; cbn [z_bundle squeeze_bundle b_core_content]; destruct (b_core_content x) as [[c|]|]; try reflexivity; cbn;
      rewrite k_content_sk, erase_sk_content; reflexivity. }
  assert (EL : forall x, erase_lookup (b_lookup (z_bundle w x)) = erase_lookup (k_lookup w (b_lookup x))).
  { intros x. unfold erase_lookup. destruct w; cbn; f_equal; unfold map_dict; rewrite ?map_map; apply map_ext; intros [k v]; cbn;
      f_equal; rewrite ?k_st_sk, ?k_so_sk, ?erase_sk_st, ?erase_sk_so; reflexivity. }
  split; [destruct w; exact H1|]. split; [destruct w; exact H2|]. split; [rewrite !EC, H3; reflexivity|].
  split; [destruct w; exact H4|]. split; [rewrite !EL, H5; reflexivity|destruct w; exact H6].
Qed.
Lemma bundle_rel_text cb b b' h : bundle_rel false b b' -> unparse cb b h = unparse cb b' h.
Proof.
  intros (H1 & H2 & H3 & H4 & _). rewrite <- (un_bundle cb b), <- (un_bundle cb b').
  assert (E : forall o, option_map (option_map (k_content false)) o = option_map (option_map sk_content) o).
  { intros [[c|]|]; try reflexivity. }
  rewrite !E in H3. unfold sk_bundle. rewrite H1, H2, H3, H4. reflexivity.
Qed.
