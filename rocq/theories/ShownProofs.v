(** ShownProofs.v -- taking namespaces off *)
From Verif Require Import Base Xml Utf8 Lxml Py Models Parser DictProofs SpecXml SpecNamespaces SpecShown Frag ParserProofs NamespaceProofs.

(** local parts have no colon *)
Inductive colonless : node -> Prop :=
| colonless_chr c : colonless (Chr c)
| colonless_cmt s : colonless (Cmt s)
| colonless_pin s : colonless (Pin s)
| colonless_el ns l d i a k : no_colon l = true -> Forall colonless k -> colonless (El ns l d i a k).
Lemma no_colon_in l : ~ In 58%N l -> no_colon l = true.
Proof.
  intros H. unfold no_colon. apply negb_true_iff. destruct (existsb (N.eqb 58) l) eqn:E; [|reflexivity].
  apply existsb_exists in E. destruct E as (c & H1 & H2). apply N.eqb_eq in H2. subst c. contradiction.
Qed.
Lemma denotes_colonless :
  (forall s x n, denotes s x n -> colonless n) /\ (forall s xs ns, denote_all s xs ns -> Forall colonless ns).
Proof.
  apply denotes_ind'; intros; try constructor; try assumption.
  match goal with H : q_name _ _ _ |- _ => destruct H as [x [_ HC]|y x _ [_ HC]] end; apply no_colon_in, HC.
Qed.

Lemma markup_spec ns l : no_colon l = true -> (contains xhtml_uri (clark ns l) = true <-> markup ns).
Proof.
  intros HL. split.
  - destruct ns as [[p u]|]; cbn [clark].
    + intros H. destruct (contains xhtml_uri u) eqn:E; [|rewrite (xhtml_clark u l E HL) in H; discriminate].
      apply contains_iff in E. destruct E as (a & b & ->). exists p, a, b. reflexivity.
    + intros H. rewrite (xhtml_not_in_name l HL) in H. discriminate.
  - intros (p & a & b & ->). cbn [clark]. apply xhtml_clark_in, contains_iff. exists a, b. reflexivity.
Qed.
Lemma markup_false ns l : no_colon l = true -> (contains xhtml_uri (clark ns l) = false <-> ~ markup ns).
Proof.
  intros HL. rewrite <- (markup_spec ns l HL). destruct (contains _ _); split; congruence.
Qed.
Definition defs_of (n : node) : nsmap := match n with El _ _ d _ _ _ => d | _ => [] end.
Lemma declares_spec n p : declares n p <-> In p (map fst (defs_of n)).
Proof.
  destruct n as [c|ns l d i a k|s|s]; cbn [declares defs_of map]; try (split; intros []).
  rewrite in_map_iff. split.
  - intros (u & H). exists (p, u). auto.
  - intros ([q u] & E & H). cbn in E. subst q. eauto.
Qed.
Lemma own_spec ns a p : In p (own_refs ns a) <-> (exists u, ns = Some (p, u)) \/ exists x u, In x a /\ a_ns x = Some (p, u).
Proof.
  unfold own_refs. rewrite in_app_iff, in_flat_map. split.
  - intros [H|(x & H1 & H2)].
    + destruct ns as [[q u]|]; [|destruct H]. destruct H as [->|[]]. left. eauto.
    + right. destruct (a_ns x) as [[q u]|] eqn:E; [|destruct H2]. destruct H2 as [->|[]]. exists x, u. auto.
  - intros [(u & ->)|(x & u & H1 & H2)]; [left; left; reflexivity|]. right. exists x. split; [exact H1|]. rewrite H2. left. reflexivity.
Qed.
Lemma uses_el p ns l d i a k :
  In p (uses (El ns l d i a k)) <-> In p (own_refs ns a ++ flat_map uses k) /\ ~ In p (map fst d).
Proof.
  cbn [uses]. rewrite filter_In. rewrite negb_true_iff. split; intros [H1 H2]; (split; [exact H1|]).
  - intros H. apply ostr_mem_In in H. congruence.
  - destruct (ostr_mem p (map fst d)) eqn:E; [|reflexivity]. apply ostr_mem_In in E. contradiction.
Qed.
Lemma strip_defs n m : strip_ns false n = Some m -> defs_of m = defs_of n.
Proof.
  destruct n as [c|ns l d i a k|s|s]; cbn [strip_ns]; try (intros H; injection H as <-; reflexivity); [|discriminate].
  destruct (map_opt (strip_ns false) k); [|discriminate]. intros H. injection H as <-. reflexivity.
Qed.
Lemma map_opt_in {A B} (f : A -> option B) l : forall m, map_opt f l = Some m ->
  (forall x, In x l -> exists y, In y m /\ f x = Some y) /\ (forall y, In y m -> exists x, In x l /\ f x = Some y).
Proof.
  induction l as [|x l IH]; intros m H; cbn in H.
  - injection H as <-. split; intros ? [].
  - destruct (f x) as [y|] eqn:E; [|discriminate]. destruct (map_opt f l) as [ys|]; [|discriminate]. injection H as <-.
    destruct (IH ys eq_refl) as [H1 H2]. split.
    + intros z [<-|HZ]; [exists y; split; [left; reflexivity|exact E]|]. destruct (H1 z HZ) as (w & W1 & W2). exists w. split; [right; exact W1|exact W2].
    + intros z [<-|HZ]; [exists x; split; [left; reflexivity|exact E]|]. destruct (H2 z HZ) as (w & W1 & W2). exists w. split; [right; exact W1|exact W2].
Qed.
(** what is used in the stripped tree *)
Definition refs (n : node) : list (option str) :=
  match n with El ns _ _ _ a k => own_refs ns a ++ flat_map uses k | _ => [] end.
Lemma refs_spec n : forall m, colonless n -> strip_ns false n = Some m ->
  forall p, In p (refs m) <-> needs n p.
Proof.
  induction n as [c|s|s|ns l d i a k IH] using node_ind'; intros m HC H p; cbn [strip_ns] in H;
    try discriminate; try (injection H as <-; cbn [refs]; split; [intros []|intros HN; inversion HN]).
  inversion HC as [| | |ns0 l0 d0 i0 a0 k0 HL HK]; subst. cbn [negb andb] in H.
  destruct (map_opt (strip_ns false) k) as [ks|] eqn:E; [|discriminate]. injection H as <-. cbn [refs].
  pose proof (map_opt_in _ _ _ E) as [M1 M2]. rewrite in_app_iff, own_spec, in_flat_map. rewrite Forall_forall in IH, HK. split.
  - intros [[(u & H)|(x & u & H1 & H2)]|(y & H1 & H2)].
    + destruct (contains xhtml_uri (clark ns l)) eqn:EC; [|discriminate]. subst ns. apply (markup_spec _ _ HL) in EC. constructor. exact EC.
    + eapply needs_attribute; eassumption.
    + destruct (M2 y H1) as (x & X1 & X2). apply (needs_below x); [exact X1| |].
      * apply (IH x X1 y (HK x X1) X2). destruct y as [?|? ? ? ? ? ?|?|?]; try (destruct H2; fail). apply uses_el in H2. cbn [refs]. apply H2.
      * rewrite declares_spec, <- (strip_defs _ _ X2). destruct y as [?|? ? ? ? ? ?|?|?]; try (destruct H2; fail). apply uses_el in H2. apply H2.
  - intros HN. inversion HN as [p0 u l0 d0 i0 a0 k0 HM|x p0 u ns0 l0 d0 i0 a0 k0 H1 H2|c p0 ns0 l0 d0 i0 a0 k0 H1 H2 H3]; subst.
    + left. left. exists u. rewrite (proj2 (markup_spec _ _ HL) HM). reflexivity.
    + left. right. eauto.
    + right. destruct (M1 c H1) as (y & Y1 & Y2). exists y. split; [exact Y1|].
      apply (IH c H1 y (HK c H1) Y2) in H2. rewrite declares_spec, <- (strip_defs _ _ Y2) in H3.
      destruct y as [?|? ? ? ? ? ?|?|?]; try (destruct H2; fail). apply uses_el. split; [exact H2|exact H3].
Qed.
Lemma needed_spec n used d : (forall p, In p used <-> needs n p) ->
  forall d', needed n d d' <-> d' = filter (fun x => ostr_mem (fst x) used) d.
Proof.
  intros HU. induction d as [|[p u] d IH]; intros d'; cbn [filter fst].
  - split; [inversion 1; reflexivity|intros ->; constructor].
  - destruct (ostr_mem p used) eqn:E.
    + assert (HN : needs n p) by (apply HU, ostr_mem_In, E). split.
      * inversion 1; subst; [|contradiction]. f_equal. apply IH. assumption.
      * intros ->. constructor; [exact HN|]. apply IH. reflexivity.
    + assert (HN : ~ needs n p) by (intros H; apply HU, ostr_mem_In in H; congruence). split.
      * inversion 1; subst; [contradiction|]. apply IH. assumption.
      * intros ->. constructor; [exact HN|]. apply IH. reflexivity.
Qed.
Lemma strip_shown n : colonless n -> forall scope r,
  (exists m, strip_ns false n = Some m /\ cleanup scope m = r) <-> shown scope n r.
Proof.
  induction n as [c|s|s|ns l d i a k IH] using node_ind'; intros HC scope r.
  - cbn [strip_ns]. split; [intros (m & H & <-); injection H as <-; constructor|inversion 1; eauto].
  - cbn [strip_ns]. split; [intros (m & H & <-); injection H as <-; constructor|inversion 1; eauto].
  - cbn [strip_ns]. split; [intros (m & H & _); discriminate|inversion 1].
  - inversion HC as [| | |ns0 l0 d0 i0 a0 k0 HL HK]; subst.
    assert (KS : forall sc k', (exists ks, map_opt (strip_ns false) k = Some ks /\ map (cleanup sc) ks = k') <-> Forall2 (shown sc) k k').
    { clear HC. intros sc. revert IH HK. induction k as [|x k IHk]; intros IH HK k'.
      - cbn. split; [intros (ks & H & <-); injection H as <-; constructor|inversion 1; exists []; auto].
      - inversion IH as [|? ? I1 I2]; subst. inversion HK as [|? ? K1 K2]; subst. cbn [map_opt]. split.
        + intros (ks & H & <-). destruct (strip_ns false x) as [y|] eqn:EX; [|discriminate].
          destruct (map_opt (strip_ns false) k) as [ys|] eqn:EK; [|discriminate]. injection H as <-. cbn [map]. constructor.
          * apply (I1 K1). eauto.
          * apply (IHk I2 K2). eauto.
        + inversion 1 as [|? y ? ys H1 H2]; subst. apply (I1 K1) in H1. destruct H1 as (m & -> & <-).
          apply (IHk I2 K2) in H2. destruct H2 as (ks & -> & <-). exists (m :: ks). split; reflexivity. }
    cbn [strip_ns negb andb]. split.
    + intros (m & H & <-). destruct (map_opt (strip_ns false) k) as [ks|] eqn:E; [|discriminate]. injection H as <-. cbn [cleanup].
      set (ns' := if contains xhtml_uri (clark ns l) then ns else None).
      assert (HR : forall p, In p (own_refs ns' a ++ flat_map uses ks) <-> needs (El ns l d i a k) p).
      { intros p. apply (refs_spec (El ns l d i a k) (El ns' l d i a ks) HC). cbn [strip_ns negb andb]. rewrite E. reflexivity. }
      set (used := own_refs ns' a ++ flat_map uses ks) in *. unfold extend.
      econstructor.
      * intros HM. subst ns'. rewrite (proj2 (markup_spec _ _ HL) HM). reflexivity.
      * intros HM. subst ns'. apply (markup_false _ _ HL) in HM. rewrite HM. reflexivity.
      * apply (needed_spec _ used d HR). reflexivity.
      * apply again_filter. reflexivity.
      * apply KS. exists ks. split; reflexivity.
    + inversion 1 as [| |sc0 ns0 ns' l0 d0 d' rest i0 a0 k0 k' H1 H2 H3 H4 H5]; subst.
      apply KS in H5. destruct H5 as (ks & E & <-). rewrite E. eexists. split; [reflexivity|]. cbn [cleanup].
      assert (EN : (if contains xhtml_uri (clark ns l) then ns else None) = ns').
      { destruct (contains xhtml_uri (clark ns l)) eqn:EC; symmetry; [apply H1, (markup_spec _ _ HL), EC|apply H2, (markup_false _ _ HL), EC]. }
      rewrite EN.
      assert (HR : forall p, In p (own_refs ns' a ++ flat_map uses ks) <-> needs (El ns l d i a k) p).
      { intros p. apply (refs_spec (El ns l d i a k) (El ns' l d i a ks) HC). cbn [strip_ns negb andb]. rewrite E, EN. reflexivity. }
      apply (needed_spec _ _ d HR) in H3. apply again_filter in H4. subst d' rest. unfold extend. reflexivity.
Qed.
Lemma dict_get_in (m : nsmap) p : (exists u, ns_get m p = Some u) <-> In p (map fst m).
Proof.
  unfold ns_get. induction m as [|[q u] m IH]; cbn [dict_get map fst].
  - split; [intros (u & H); discriminate|intros []].
  - destruct (ostr_eqb_spec p q) as [->|N].
    + split; [intros _; left; reflexivity|intros _; eauto].
    + rewrite IH. cbn [In]. split; [intros H; right; exact H|]. intros [E|H]; [congruence|exact H].
Qed.
Lemma shown_document_spec root r : colonless root -> match root with El _ _ _ i _ _ => i = [] | _ => False end ->
  (strip_if_namespaced root = Ok r <-> shown_document root r).
Proof.
  intros HC HI. destruct root as [c|ns l d i a k|s|s]; try contradiction. subst i.
  unfold strip_if_namespaced, shown_document. rewrite <- (strip_shown _ HC).
  assert (HD : declares (El ns l d [] a k) None <-> exists u, ns_get (node_nsmap (El ns l d [] a k)) None = Some u).
  { rewrite dict_get_in, declares_spec. cbn [defs_of node_nsmap]. unfold extend. cbn [filter]. rewrite app_nil_r. reflexivity. }
  rewrite HD. destruct (ns_get (node_nsmap (El ns l d [] a k)) None) as [u|].
  - split.
    + intros H. left. split; [eauto|]. destruct (strip_ns false (El ns l d [] a k)) as [m|]; [|discriminate]. injection H as <-. eauto.
    + intros [[_ (m & -> & <-)]|[H _]]; [reflexivity|]. destruct H. eauto.
  - split.
    + intros H. injection H as <-. right. split; [intros (u & H); discriminate|reflexivity].
    + intros [[(u & H) _]|[_ ->]]; [discriminate|reflexivity].
Qed.

(** ** Accessors *)
Lemma tag_is_spec t n : tag_is t n = true <-> is_named t n.
Proof.
  unfold tag_is, tag, is_named. destruct n as [c|ns l d i a k|s|s];
    try (split; [discriminate|intros (? & ? & ? & ? & ? & ? & E & _); discriminate E]).
  destruct (str_eqb_spec (clark ns l) t) as [E|N].
  - split; [intros _|reflexivity]. exists ns, l, d, i, a, k. split; [reflexivity|exact E].
  - split; [discriminate|]. intros (ns' & l' & d' & i' & a' & k' & E & H). injection E as <- <- <- <- <- <-. contradiction.
Qed.
Lemma find_named t k c : find (tag_is t) k = Some c <-> first_named t k c.
Proof.
  unfold first_named. induction k as [|x k IH]; cbn [find].
  - split; [discriminate|]. intros (b & a & E & _). destruct b; discriminate.
  - destruct (tag_is t x) eqn:T.
    + assert (HN := proj1 (tag_is_spec t x) T). split.
      * intros H. injection H as <-. exists [], k. auto.
      * intros (b & a & E & H1 & H2). destruct b as [|y b]; cbn in E; [congruence|]. injection E as <- _. inversion H2; contradiction.
    + assert (HN : ~ is_named t x) by (intros H; apply tag_is_spec in H; congruence). rewrite IH. split.
      * intros (b & a & E & H1 & H2). exists (x :: b), a. subst k. auto.
      * intros (b & a & E & H1 & H2). destruct b as [|y b]; cbn in E; injection E as <- ->; [contradiction|]. inversion H2; subst. eauto 6.
Qed.
Lemma find_named_none t k : find (tag_is t) k = None <-> Forall (fun x => ~ is_named t x) k.
Proof.
  induction k as [|x k IH]; cbn [find]; [split; [constructor|reflexivity]|].
  destruct (tag_is t x) eqn:T.
  - split; [discriminate|]. inversion 1; subst. apply tag_is_spec in T. contradiction.
  - rewrite IH. split; [intros H; constructor; [|exact H]|inversion 1; assumption]. intros HN. apply tag_is_spec in HN. congruence.
Qed.
Lemma lead_spec k s : lead k = s <-> begins_with k s.
Proof.
  unfold begins_with. revert s. induction k as [|[c|ns l d i a kk|x|x] k IH]; intros s; cbn [lead].
  - split; [intros <-; exists []; split; [reflexivity|discriminate]|]. intros (r & E & _). destruct s; [reflexivity|discriminate].
  - split.
    + intros <-. destruct (proj1 (IH (lead k)) eq_refl) as (r & E & H). exists r. split; [cbn [map app]; congruence|exact H].
    + intros (r & E & H). destruct s as [|y s]; cbn [map app] in E; [destruct (H c k); congruence|]. injection E as <- E. f_equal. apply IH. eauto.
  - split; [intros <-; exists (El ns l d i a kk :: k); split; [reflexivity|discriminate]|]. intros (r & E & _). destruct s; [reflexivity|discriminate].
  - split; [intros <-; exists (Cmt x :: k); split; [reflexivity|discriminate]|]. intros (r & E & _). destruct s; [reflexivity|discriminate].
  - split; [intros <-; exists (Pin x :: k); split; [reflexivity|discriminate]|]. intros (r & E & _). destruct s; [reflexivity|discriminate].
Qed.
Lemma without_spec k k' : filter (fun x => negb (is_chr x)) k = k' <-> without_text k k'.
Proof.
  revert k'. induction k as [|x k IH]; intros k'; cbn [filter].
  - split; [intros <-; constructor|inversion 1; reflexivity].
  - destruct x as [c|ns l d i a kk|s|s]; cbn [is_chr negb]; split;
      try (intros <-; constructor; [intros (c & E); discriminate E|apply IH; reflexivity]);
      try (inversion 1 as [| |? ? ? HC HW]; subst; f_equal; apply IH; exact HW).
    + intros H. constructor. apply IH, H.
    + inversion 1 as [|? ? ? HW|? ? ? HC HW]; subst; [apply IH; exact HW|]. destruct HC. exists c. reflexivity.
Qed.
Lemma assoc_spec k a v :
  assoc k (map (fun x => (a_key x, a_val x)) a) = Some v
  <-> exists x b c, a = b ++ x :: c /\ seen_name (a_ns x) (a_local x) = k /\ a_val x = v
        /\ Forall (fun y => seen_name (a_ns y) (a_local y) <> k) b.
Proof.
  induction a as [|y a IH]; cbn [map assoc].
  - split; [discriminate|]. intros (x & b & c & E & _). destruct b; discriminate.
  - destruct (str_eqb_spec k (a_key y)) as [E|N].
    + split.
      * intros H. injection H as <-. exists y, [], a. split; [reflexivity|]. split; [symmetry; exact E|auto].
      * intros (x & b & c & F & H1 & H2 & H3). destruct b as [|z b]; cbn in F; injection F as <- ->; [congruence|]. apply Forall_inv in H3. destruct H3. symmetry. exact E.
    + rewrite IH. split.
      * intros (x & b & c & -> & H1 & H2 & H3). exists x, (y :: b), c. split; [reflexivity|]. split; [exact H1|]. split; [exact H2|]. constructor; [|exact H3]. intros Q. apply N. symmetry. exact Q.
      * intros (x & b & c & F & H1 & H2 & H3). destruct b as [|z b]; cbn in F; injection F as <- ->; [exfalso; apply N; symmetry; exact H1|]. inversion H3; subst. exists x, b, c. auto.
Qed.
