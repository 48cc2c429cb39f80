(** Prop_Repr.v -- C82: the references of an ENUMERATION value on the page *)
From Verif Require Import Base Xml Utf8 Lxml Py LxmlStr Models Progress Parser BundleModel SpecTraversal SpecLookup SpecDump Dump Repr SpecRepr SpecSamePage Prop_Dump.

(** ** Hexadecimal numbers *)
Lemma hex_char_digit n : (n < 16)%N -> hex_digit (hex_char n) n.
Proof.
  intros H. unfold hex_char, hex_digit. destruct (N.ltb n 10) eqn:E; [apply N.ltb_lt in E|apply N.ltb_ge in E]; lia.
Qed.
Lemma hex_fixed_number k : forall n, (n < 16 ^ N.of_nat k)%N -> hex_number (hex_fixed k n) n.
Proof.
  induction k as [|k IH]; intros n H; [cbn in H; assert (n = 0%N) by lia; subst; constructor|]. cbn [hex_fixed].
  rewrite (N.div_mod' n 16) at 3. constructor; [|apply hex_char_digit, N.mod_lt; discriminate]. apply IH.
  apply N.div_lt_upper_bound; [discriminate|]. rewrite Nat2N.inj_succ, N.pow_succ_r' in H. exact H.
Qed.
Lemma hex_fixed_length k n : length (hex_fixed k n) = k.
Proof. revert n. induction k as [|k IH]; intros n; [reflexivity|]. cbn [hex_fixed]. rewrite app_length, IH. cbn. lia. Qed.
Lemma hex_digit_unique c v w : hex_digit c v -> hex_digit c w -> v = w.
Proof. unfold hex_digit. lia. Qed.
Lemma hex_number_unique ds n m : hex_number ds n -> hex_number ds m -> n = m.
Proof.
  intros H. revert m. induction H as [|ds n c v H IH D]; intros m H'; inversion H' as [E|ds' n' c' v' H1 D1 E E2]; subst.
  - reflexivity.
  - destruct ds'; discriminate.
  - destruct ds; discriminate.
  - apply app_inj_tail in E. destruct E as [-> ->]. rewrite (IH _ H1), (hex_digit_unique _ _ _ D D1). reflexivity.
Qed.
Lemma hex_char_range n : (n < 16)%N -> (48 <= hex_char n <= 102)%N.
Proof. intros H. unfold hex_char. destruct (N.ltb n 10) eqn:E; [apply N.ltb_lt in E|apply N.ltb_ge in E]; lia. Qed.
Lemma hex_fixed_range k : forall n c, In c (hex_fixed k n) -> (48 <= c <= 102)%N.
Proof.
  induction k as [|k IH]; intros n c H; [destruct H|]. cbn [hex_fixed] in H. apply in_app_or in H. destruct H as [H|[<-|[]]]; [apply (IH _ _ H)|].
  apply hex_char_range, N.mod_lt. discriminate.
Qed.

(** ** What is written is a literal *)
Section Repr.
Variable printable : N -> bool.
Definition code_points (s : str) : Prop := forall c, In c s -> (c <= 1114111)%N.
Lemma repr_char_literal q c t s : q = 39%N \/ q = 34%N -> (c <= 1114111)%N -> literal q t s -> literal q (repr_char printable q c ++ t) (c :: s).
Proof.
  intros Q HC H. unfold repr_char.
  destruct (N.eqb c q) eqn:E1; [apply N.eqb_eq in E1; subst c; apply lit_same; [tauto|exact H]|].
  destruct (N.eqb c 92) eqn:E2; [apply N.eqb_eq in E2; subst c; apply lit_same; [tauto|exact H]|]. cbn [orb].
  destruct (N.eqb c 9) eqn:E3; [apply N.eqb_eq in E3; subst c; apply lit_tab, H|].
  destruct (N.eqb c 10) eqn:E4; [apply N.eqb_eq in E4; subst c; apply lit_line, H|].
  destruct (N.eqb c 13) eqn:E5; [apply N.eqb_eq in E5; subst c; apply lit_return, H|].
  apply N.eqb_neq in E1, E2, E4.
  assert (X : (c <= 255)%N -> literal q (("\x" ++ hex_fixed 2 c) ++ t) (c :: s)).
  { intros L. rewrite <- app_assoc. apply lit_hex; [apply hex_fixed_length|apply hex_fixed_number; cbn; lia|exact H]. }
  destruct (N.ltb c 32 || N.eqb c 127) eqn:E6.
  { apply X. rewrite orb_true_iff, N.ltb_lt, N.eqb_eq in E6. lia. }
  destruct (N.ltb c 127); [apply lit_char; assumption|]. destruct (printable c); [apply lit_char; assumption|].
  destruct (N.leb c 255) eqn:E7; [apply X, N.leb_le, E7|].
  destruct (N.leb c 65535) eqn:E8; rewrite <- app_assoc.
  - apply N.leb_le in E8. apply lit_short; [apply hex_fixed_length|apply hex_fixed_number; cbn; lia|exact H].
  - apply lit_long; [apply hex_fixed_length|apply hex_fixed_number; cbn; lia|exact H].
Qed.
Lemma repr_body_literal q s : q = 39%N \/ q = 34%N -> code_points s -> literal q (flat_map (repr_char printable q) s) s.
Proof.
  intros Q. induction s as [|c s IH]; intros H; [constructor|]. cbn [flat_map]. apply repr_char_literal; [exact Q|apply H; left; reflexivity|].
  apply IH. intros x Hx. apply H. right. exact Hx.
Qed.
Lemma repr_mark_or s : repr_mark s = 39%N \/ repr_mark s = 34%N.
Proof. unfold repr_mark. destruct (_ && _); auto. Qed.
Lemma repr_list_display l : (forall s, In (Some s) l -> code_points s) -> list_display (py_repr_list printable l) l.
Proof.
  intros H. exists (map (repr_item printable) l). split; [|reflexivity]. induction l as [|o l IH]; [constructor|]. cbn [map]. constructor.
  - destruct o as [s|]; [|constructor]. cbn [repr_item]. unfold py_repr. apply item_string; [apply repr_mark_or|]. apply repr_body_literal; [apply repr_mark_or|].
    apply H. left. reflexivity.
  - apply IH. intros s Hs. apply H. right. exact Hs.
Qed.
Lemma join_in sep l c : In c (join sep l) -> In c sep \/ exists x, In x l /\ In c x.
Proof.
  induction l as [|x l IH]; [intros []|]. destruct l as [|y l]; [intros H; right; exists x; split; [left; reflexivity|exact H]|].
  change (join sep (x :: y :: l)) with (x ++ sep ++ join sep (y :: l)). rewrite !in_app_iff. intros [H|[H|H]].
  - right. exists x. split; [left; reflexivity|exact H].
  - left. exact H.
  - destruct (IH H) as [H1|(z & H1 & H2)]; [left; exact H1|]. right. exists z. split; [right; exact H1|exact H2].
Qed.
Lemma repr_list_legible l : legible printable (py_repr_list printable l).
Proof.
  assert (A : forall (s : str), (forall c, In c s -> (32 <= c < 127)%N) -> legible printable s) by (intros s H c Hc; left; apply H, Hc).
  assert (AP : forall s t, legible printable s -> legible printable t -> legible printable (s ++ t)).
  { intros s t H1 H2 c Hc. apply in_app_or in Hc. destruct Hc; auto. }
  assert (HX : forall k n, legible printable (hex_fixed k n)) by (intros k n; apply A; intros c Hc; apply hex_fixed_range in Hc; lia).
  assert (RC : forall q c, q = 39%N \/ q = 34%N -> legible printable (repr_char printable q c)).
  { intros q c Q. unfold repr_char. destruct (N.eqb c q || N.eqb c 92) eqn:E1.
    { apply A. intros x [<-|[<-|[]]]; [lia|]. rewrite orb_true_iff, !N.eqb_eq in E1. lia. }
    assert (LL : forall x : N, (32 <= x < 127)%N -> legible printable [92%N; x]) by (intros x Hx; apply A; intros y [<-|[<-|[]]]; lia).
    destruct (N.eqb c 9); [apply (LL 116%N); lia|]. destruct (N.eqb c 10); [apply (LL 110%N); lia|]. destruct (N.eqb c 13); [apply (LL 114%N); lia|].
    destruct (N.ltb c 32 || N.eqb c 127) eqn:E2; [apply AP; [apply (LL 120%N); lia|apply HX]|].
    rewrite orb_false_iff, N.ltb_ge, N.eqb_neq in E2.
    destruct (N.ltb c 127) eqn:E3; [apply N.ltb_lt in E3; apply A; intros x [<-|[]]; lia|]. apply N.ltb_ge in E3.
    destruct (printable c) eqn:E4; [intros x [<-|[]]; right; split; [lia|exact E4]|].
    destruct (N.leb c 255); [apply AP; [apply (LL 120%N); lia|apply HX]|]. destruct (N.leb c 65535); (apply AP; [|apply HX]); [apply (LL 117%N); lia|apply (LL 85%N); lia]. }
  assert (LIT : forall (s : str), forallb (fun c => N.leb 32 c && N.ltb c 127) s = true -> legible printable s).
  { intros s H. apply A. intros c Hc. rewrite forallb_forall in H. specialize (H c Hc). rewrite andb_true_iff, N.leb_le, N.ltb_lt in H. exact H. }
  unfold py_repr_list. apply AP; [apply LIT; reflexivity|]. apply AP; [|apply LIT; reflexivity].
  intros c Hc. apply join_in in Hc. destruct Hc as [Hc|(x & Hx & Hc)]; [revert c Hc; apply LIT; reflexivity|].
  apply in_map_iff in Hx. destruct Hx as (o & <- & _). destruct o as [s|]; [|revert c Hc; apply LIT; reflexivity].
  cbn [repr_item] in Hc. unfold py_repr in Hc. pose proof (repr_mark_or s) as Q.
  assert (QM : (32 <= repr_mark s < 127)%N) by lia.
  destruct Hc as [<-|Hc]; [left; exact QM|]. apply in_app_or in Hc. destruct Hc as [Hc|[<-|[]]]; [|left; exact QM].
  apply in_flat_map in Hc. destruct Hc as (y & _ & Hc). exact (RC _ y Q c Hc).
Qed.
End Repr.

(** ** Literals can be read in one way only *)
Lemma app_same_length {A} (a b c d : list A) : length a = length b -> a ++ c = b ++ d -> a = b /\ c = d.
Proof.
  revert b. induction a as [|x a IH]; intros [|y b] L E; try discriminate; [split; [reflexivity|exact E]|]. cbn [length app] in L, E.
  destruct (IH b) as (-> & ->); [lia|congruence|]. split; congruence.
Qed.
Lemma literal_prefix q t s t' s' r r' : q = 39%N \/ q = 34%N -> literal q t s -> literal q t' s' ->
  t ++ q :: r = t' ++ q :: r' -> s = s' /\ r = r'.
Proof.
  intros Q H. revert t' s'. induction H as [|c t s N1 N2 N3 H IH|c t s HC H IH|t s H IH|t s H IH|t s H IH|ds c t s L HN H IH|ds c t s L HN H IH|ds c t s L HN H IH];
    intros t' s' H' E; inversion H' as [|c' t2 s2 N1' N2' N3' H2|c' t2 s2 HC' H2|t2 s2 H2|t2 s2 H2|t2 s2 H2|ds' c' t2 s2 L' HN' H2|ds' c' t2 s2 L' HN' H2|ds' c' t2 s2 L' HN' H2]; subst;
    cbn [app] in E; repeat rewrite <- app_assoc in E; try (exfalso; first [congruence | intuition congruence]).
  all: try (split; congruence).
  all: try (edestruct IH as (E1 & E2); [exact H2|congruence|]; split; congruence).
  all: assert (E0 : ds ++ t ++ q :: r = ds' ++ t2 ++ q :: r') by congruence; apply app_same_length in E0; [|congruence]; destruct E0 as (<- & E0);
    destruct (IH _ _ H2 E0) as (-> & ->); rewrite (hex_number_unique _ _ _ HN HN'); auto.
Qed.
Lemma item_prefix t o t' o' r r' : item t o -> item t' o' -> t ++ r = t' ++ r' -> o = o' /\ r = r'.
Proof.
  intros H H' E. destruct H as [|q t s Q H]; destruct H' as [|q' t' s' Q' H']; cbn [app] in E.
  - split; congruence.
  - exfalso. destruct Q'; subst; congruence.
  - exfalso. destruct Q; subst; congruence.
  - assert (q = q') by congruence. subst q'. repeat rewrite <- app_assoc in E. cbn [app] in E. destruct (literal_prefix q t s t' s' r r' Q H H') as (-> & ->); [congruence|auto].
Qed.
Lemma items_unique items l : Forall2 item items l -> forall items' l' r r', Forall2 item items' l' ->
  join ", " items ++ "]" ++ r = join ", " items' ++ "]" ++ r' -> l = l'.
Proof.
  assert (START : forall t o x y, item t o -> t ++ x <> 93%N :: y).
  { intros t o x y H E. destruct H as [|q t s Q H]; [discriminate|]. cbn [app] in E. destruct Q; subst; congruence. }
  assert (JC : forall (x : str) l r, join ", " (x :: l) ++ "]" ++ r = x ++ match l with [] => "]" ++ r | _ => ", " ++ join ", " l ++ "]" ++ r end).
  { intros x [|y l0] r; [reflexivity|]. change (join ", " (x :: y :: l0)) with (x ++ ", " ++ join ", " (y :: l0)). rewrite <- !app_assoc. reflexivity. }
  intros F. induction F as [|t o items l H F IH]; intros items' l' r r' F' E; destruct F' as [|t' o' items' l' H' F'].
  - reflexivity.
  - exfalso. rewrite JC in E. symmetry in E. apply (START _ _ _ _ H') in E. exact E.
  - exfalso. rewrite JC in E. apply (START _ _ _ _ H) in E. exact E.
  - rewrite !JC in E. destruct (item_prefix _ _ _ _ _ _ H H' E) as (-> & E2). f_equal.
    destruct F as [|u v items l G F], F' as [|u' v' items' l' G' F']; try discriminate; [reflexivity|].
    apply (IH (u' :: items') (v' :: l') r r'); [constructor; assumption|]. apply app_inv_head in E2. exact E2.
Qed.
(** The list shown can be read in one way only ... *)
Theorem C82_lists_are_unambiguous :
  forall t l l', list_display t l -> list_display t l' -> l = l'.
Proof.
  intros t l l' (items & F & ->) (items' & F' & E). apply (items_unique items l F items' l' [] [] F'). cbn [app] in E |- *. congruence.
Qed.
(** ... so that different references are shown differently. *)
Theorem C82_different_references_differ :
  forall printable l l', (forall s, In (Some s) (l ++ l') -> code_points s) -> py_repr_list printable l = py_repr_list printable l' -> l = l'.
Proof.
  intros printable l l' H E. apply (C82_lists_are_unambiguous (py_repr_list printable l)); [|rewrite E]; apply repr_list_display;
    intros s Hs; apply H, in_or_app; auto.
Qed.
(** On the page: each ENUMERATION value of each object that a node of a
    specification refers to has a row; its text is the list of the references, on
    one line. *)
Theorem C82_references_on_the_page :
  forall printable s b html sp h nodes o a l,
    parse_string s = Ok b -> dump_html (py_repr_list printable) b = Ok html ->
    In sp (specifications_of b) -> document_order (olist (sp_children sp)) nodes -> In h nodes -> target b h o ->
    In a (so_attributes o) -> sa_value a = VList l -> (forall x, In (Some x) l -> code_points x) ->
    exists pre text post, html = pre ++ t27 ++ fmt (sa_definition_ref a) ++ t28 ++ text ++ t29 ++ post
      /\ list_display text l /\ legible printable text.
Proof.
  intros printable s b html sp h nodes o a l P D HS DO HN HT HA EV HC. apply (C48_page_shows_the_document _ s b html P) in D. destruct D as (p & (_ & SH) & ->).
  unfold specifications_of, b_list, bundle_content in HS.
  destruct (b_core_content b) as [[c|]|] eqn:EC; try destruct HS. destruct SH as (ds & ss & sps & tl & E1 & E2 & E3 & F & EP). rewrite E3 in HS. cbn [olist] in HS.
  assert (X : exists x, In x tl /\ shows_specification (py_repr_list printable) b sp x).
  { clear - F HS. induction F as [|u v us vs H _ IH]; [destruct HS|]. destruct HS as [->|HS]; [exists v; split; [left; reflexivity|exact H]|].
    destruct (IH HS) as (x & H1 & H2). exists x. split; [right; exact H1|exact H2]. }
  destruct X as (x & HX & ns & os & DO' & FT & ->). pose proof (TraversalProofs.document_order_unique _ _ _ DO DO') as EN. subst ns.
  assert (HO : In o os).
  { clear - FT HN HT. induction FT as [|u v us vs H _ IH]; [destruct HN|]. destruct HN as [->|HN]; [|right; apply IH, HN]. left.
    unfold target in H, HT. apply DictProofs.fill_last in H. apply DictProofs.fill_last in HT. congruence. }
  set (tb := table_of (py_repr_list printable) o).
  assert (HV : In (fmt (sa_definition_ref a), py_repr_list printable l) (tb_values tb)).
  { unfold tb, table_of. cbn [tb_values]. apply in_map_iff. exists a. rewrite EV. split; [reflexivity|exact HA]. }
  assert (IN : forall A (f : A -> str) y ys, In y ys -> exists u v, flat_map f ys = u ++ f y ++ v).
  { intros A f y ys HI. apply in_split in HI. destruct HI as (u & v & ->). exists (flat_map f u), (flat_map f v). rewrite flat_map_app. reflexivity. }
  destruct (IN _ (fun r : str * str => t27 ++ fst r ++ t28 ++ snd r ++ t29) _ _ HV) as (u1 & v1 & I1). cbn [fst snd] in I1.
  destruct (IN _ show_table tb (map (table_of (py_repr_list printable)) os)) as (u2 & v2 & I2); [apply in_map, HO|].
  destruct (IN _ show_specification _ _ HX) as (u3 & v3 & I3).
  assert (E : exists pre post, show_page p = pre ++ (t27 ++ fmt (sa_definition_ref a) ++ t28 ++ py_repr_list printable l ++ t29) ++ post).
  { assert (K : forall w x y z : str, (exists pre post, w = pre ++ z ++ post) -> exists pre post, x ++ w ++ y = pre ++ z ++ post).
    { intros w x y z (pre & post & ->). exists (x ++ pre), (post ++ y). repeat rewrite <- app_assoc. reflexivity. }
    assert (K0 : forall w x z : str, (exists pre post, w = pre ++ z ++ post) -> exists pre post, x ++ w = pre ++ z ++ post).
    { intros w x z (pre & post & ->). exists (x ++ pre), post. repeat rewrite <- app_assoc. reflexivity. }
    assert (K1 : forall w y z : str, (exists pre post, w = pre ++ z ++ post) -> exists pre post, w ++ y = pre ++ z ++ post).
    { intros w y z (pre & post & ->). exists pre, (post ++ y). repeat rewrite <- app_assoc. reflexivity. }
    unfold show_page. rewrite EP. do 3 apply K0. apply K1. do 4 apply K0. do 2 apply K0. apply K1. rewrite I3. apply K.
    unfold show_specification. cbn [fst snd]. do 3 apply K0. apply K1. rewrite I2. apply K. unfold show_table. do 6 apply K0. apply K1. rewrite I1. apply K. exists [], []. rewrite app_nil_r. reflexivity. }
  destruct E as (pre & post & E). exists pre, (py_repr_list printable l), post. split; [rewrite E; repeat rewrite <- app_assoc; reflexivity|].
  split; [apply repr_list_display, HC|apply repr_list_legible].
Qed.
Print Assumptions C82_lists_are_unambiguous.
Print Assumptions C82_different_references_differ.
Print Assumptions C82_references_on_the_page.

(** ** Examples *)
(** a tab, both quotation marks, a backslash, an e with an accent that can be
    printed, a no-break space that cannot, and a character beyond the first 65536 *)
Definition shown_beyond (c : N) : bool := N.eqb c 233.
Example C82_example :
  py_repr_list shown_beyond [Some "e1"; None; Some [9%N]; Some "it's"; Some "a""'\"; Some [233%N; 160%N; 8233%N; 65536%N]; Some []]
  = "['e1', None, '\t', ""it's"", 'a""\'\\', '" ++ [233%N] ++ "\xa0\u2029\U00010000', '']".
Proof. vm_compute. reflexivity. Qed.
Definition enum_text : str :=
  "<REQ-IF><CORE-CONTENT><REQ-IF-CONTENT><DATATYPES/><SPEC-TYPES/><SPEC-OBJECTS><SPEC-OBJECT IDENTIFIER=""o""><TYPE><SPEC-OBJECT-TYPE-REF>t</SPEC-OBJECT-TYPE-REF></TYPE><VALUES>"
  ++ "<ATTRIBUTE-VALUE-ENUMERATION><DEFINITION><ATTRIBUTE-DEFINITION-ENUMERATION-REF>c</ATTRIBUTE-DEFINITION-ENUMERATION-REF></DEFINITION><VALUES><ENUM-VALUE-REF>it's</ENUM-VALUE-REF><ENUM-VALUE-REF/></VALUES></ATTRIBUTE-VALUE-ENUMERATION>"
  ++ "</VALUES></SPEC-OBJECT></SPEC-OBJECTS><SPECIFICATIONS><SPECIFICATION IDENTIFIER=""s"" LONG-NAME=""S"">"
  ++ "<CHILDREN><SPEC-HIERARCHY IDENTIFIER=""h""><OBJECT><SPEC-OBJECT-REF>o</SPEC-OBJECT-REF></OBJECT></SPEC-HIERARCHY></CHILDREN></SPECIFICATION></SPECIFICATIONS></REQ-IF-CONTENT></CORE-CONTENT></REQ-IF>".
Definition enum_bundle : bundle := match parse_string enum_text with Ok b => b | Raise _ => bundle_empty None None end.
Example C82_example_page :
  parse_string enum_text = Ok enum_bundle
  /\ (exists sp h o a, In sp (specifications_of enum_bundle) /\ document_order (olist (sp_children sp)) [h] /\ target enum_bundle h o
        /\ In a (so_attributes o) /\ sa_value a = VList [Some "it's"; None])
  /\ exists html, dump_html (py_repr_list shown_beyond) enum_bundle = Ok html /\ contains (t27 ++ "c" ++ t28 ++ "[""it's"", None]" ++ t29) html = true.
Proof.
  split; [vm_compute; reflexivity|]. split.
  - assert (E : exists sp h o a, specifications_of enum_bundle = [sp] /\ TraversalProofs.fpreorder (olist (sp_children sp)) = [h] /\ spec_objects_of enum_bundle = [o]
               /\ so_attributes o = [a] /\ sa_value a = VList [Some "it's"; None] /\ h_spec_object h = Some (so_identifier o)).
    { eexists _, _, _, _. split; [vm_compute; reflexivity|]. split; [vm_compute; reflexivity|]. split; [vm_compute; reflexivity|]. split; [vm_compute; reflexivity|].
      split; vm_compute; reflexivity. }
    destruct E as (sp & h & o & a & E1 & E2 & E3 & E4 & E5 & E6). exists sp, h, o, a. rewrite E1, E4. split; [left; reflexivity|].
    split; [rewrite <- E2; apply TraversalProofs.fpreorder_document_order|]. split; [|split; [left; reflexivity|exact E5]].
    exists [], []. rewrite E3, E6. split; [reflexivity|]. split; [reflexivity|]. intros x [].
  - eexists. split; [vm_compute; reflexivity|vm_compute; reflexivity].
Qed.
