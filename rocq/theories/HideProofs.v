(** HideProofs.v -- the parser reads a document with hidden values as the
    document with its values, but for these *)
From Verif Require Import Base Xml Utf8 Lxml Py LxmlStr Models AttrDef DataType Header AttrValue SpecObj
  Hierarchy SpecTypes Progress Parser Anonymize SpecParse XmlProofs Utf8Proofs DictProofs ParserProofs FaithProofs
  ParserErrors IsolationProofs AcceptProofs SpecPrint SpecDocument SpecAnonymize SpecLayout SpecHidden AnonymizeProofs.
From Verif Require LayoutProofs.
From Verif Require Import SpecXml.
From Verif Require GrammarProofs SerialiseProofs.

Definition sim {A B} (R : A -> B -> Prop) (r : result A) (r' : result B) : Prop :=
  forall a, r = Ok a -> exists b, r' = Ok b /\ R a b.
Lemma sim_ok {A B} (R : A -> B -> Prop) a b : R a b -> sim R (Ok a) (Ok b).
Proof. intros H x E. injection E as <-. eauto. Qed.
Lemma sim_raise {A B} (R : A -> B -> Prop) e (r : result B) : sim R (Raise e) r.
Proof. intros x E. discriminate E. Qed.
Lemma sim_bind {A B C D} (R : A -> B -> Prop) (S : C -> D -> Prop) m m' f f' :
  sim R m m' -> (forall a b, R a b -> sim S (f a) (f' b)) -> sim S (bind m f) (bind m' f').
Proof.
  intros H1 H2 x E. destruct m as [a|e]; [|discriminate E]. destruct (H1 a eq_refl) as (b & -> & HR). apply (H2 a b HR x E).
Qed.
Lemma sim_bind_eq {A C D} (S : C -> D -> Prop) (m : result A) f f' : (forall a, sim S (f a) (f' a)) -> sim S (bind m f) (bind m f').
Proof. intros H x E. destruct m as [a|e]; [|discriminate E]. apply (H a x E). Qed.
Lemma sim_mapM {A B C D} (Q : A -> B -> Prop) (R : C -> D -> Prop) f f' l l' :
  (forall a b, Q a b -> sim R (f a) (f' b)) -> Forall2 Q l l' -> sim (Forall2 R) (mapM f l) (mapM f' l').
Proof.
  intros H F. induction F as [|x y l l' Hxy _ IH]; [apply sim_ok; constructor|]. cbn [mapM].
  apply (sim_bind _ _ _ _ _ _ (H _ _ Hxy)). intros a b Rab. apply (sim_bind _ _ _ _ _ _ IH). intros c d Rcd. apply sim_ok. constructor; assumption.
Qed.

(** ** Nodes *)
Section Hide.
Variable sha : bytes -> N.
Definition masked_here (anc : list str) (t : str) : bool :=
  match anc with
  | p :: _ => str_eqb p "REQ-IF-HEADER" && (str_eqb t "COMMENT" || str_eqb t "TITLE")
              || str_eqb p "ATTRIBUTE-VALUE-XHTML" && str_eqb t "THE-VALUE"
  | [] => false
  end.
Definition secret (t k : str) : bool :=
  str_eqb t "SPECIFICATION" && str_eqb k "LONG-NAME" || str_eqb t "ATTRIBUTE-VALUE-STRING" && str_eqb k "THE-VALUE".
Definition entries (a : list attr) : list (str * str) := map (fun x => (a_key x, a_val x)) a.
Definition attrs_hid (t : str) (a a' : list attr) : Prop :=
  forall k, both (if secret t k then digest sha else eq) (assoc k (entries a)) (assoc k (entries a')).
(** [hid anc n n']: below elements with the tags [anc], from the parent upwards,
    in the tree without namespaces *)
Inductive hid : list str -> node -> node -> Prop :=
| hid_chr anc c : hid anc (Chr c) (Chr c)
| hid_cmt anc s : hid anc (Cmt s) (Cmt s)
| hid_text up l d i a d' i' kids kids' s t :
    l = "COMMENT" \/ l = "TITLE" -> opt_text (lead kids) = Some s -> opt_text (lead kids') = Some t -> digest sha s t ->
    forallb pi_free kids' = true -> (forallb is_chr kids = true -> forallb is_chr kids' = true) ->
    hid ("REQ-IF-HEADER" :: up) (El None l d i a kids) (El None l d' i' a kids')
| hid_the_value up d i a d' i' kids s t :
    digest sha s t -> (forall u, up = "DEFAULT-VALUE" :: u -> extend d' i' <> []) ->
    hid ("ATTRIBUTE-VALUE-XHTML" :: up) (El None "THE-VALUE" d i a kids) (El None "THE-VALUE" d' i' a (map Chr t))
| hid_el p up ns l d i a d' i' a' kids kids' (anc := p :: up) :
    masked_here anc (clark ns l) = false -> placed p (clark ns l) -> attrs_hid (clark ns l) a a' -> Forall2 (hid (clark ns l :: anc)) kids kids' ->
    hid anc (El ns l d i a kids) (El ns l d' i' a' kids').

Lemma hid_tag anc n n' : hid anc n n' -> tag n' = tag n.
Proof. intros H. inversion H; reflexivity. Qed.
Lemma hid_comment anc n n' : hid anc n n' -> is_comment n' = is_comment n.
Proof. intros H. inversion H; reflexivity. Qed.
Lemma hid_chr_same anc n n' : hid anc n n' -> is_chr n' = is_chr n.
Proof. intros H. inversion H; reflexivity. Qed.
Lemma hid_is anc n n' t : hid anc n n' -> tag_is t n' = tag_is t n.
Proof. intros H. unfold tag_is. rewrite (hid_tag _ _ _ H). reflexivity. Qed.
Lemma hid_contains anc n n' t : hid anc n n' -> tag_contains t n' = tag_contains t n.
Proof. intros H. unfold tag_contains. rewrite (hid_tag _ _ _ H). reflexivity. Qed.
Lemma both_refl {A} (o : option A) : both eq o o.
Proof. destruct o; [reflexivity|exact I]. Qed.
Lemma both_eq {A} (o o' : option A) : both eq o o' -> o' = o.
Proof. destruct o, o'; cbn; intros H; try contradiction; congruence. Qed.
Lemma hid_attr anc n n' k : hid anc n n' -> (forall t, tag n = Some t -> secret t k = false) -> attr_opt k n' = attr_opt k n.
Proof.
  intros H S. inversion H as [| | | |? ? ns l d i a d' i' a' kids kids' anc' M P A F]; subst; try reflexivity.
  specialize (A k). rewrite (S _ eq_refl) in A. apply both_eq in A. exact A.
Qed.
Lemma hid_attr_other anc n n' k : hid anc n n' -> str_eqb k "LONG-NAME" = false -> str_eqb k "THE-VALUE" = false -> attr_opt k n' = attr_opt k n.
Proof. intros H K1 K2. apply (hid_attr _ _ _ _ H). intros t _. unfold secret. rewrite K1, K2, !andb_false_r. reflexivity. Qed.
Lemma hid_req_other anc n n' k : hid anc n n' -> str_eqb k "LONG-NAME" = false -> str_eqb k "THE-VALUE" = false -> attr_req k n' = attr_req k n.
Proof. intros H K1 K2. unfold attr_req. rewrite (hid_attr_other _ _ _ _ H K1 K2). reflexivity. Qed.
Lemma hid_name anc n n' k t : hid anc n n' -> tag n = Some t -> secret t k = false -> attr_opt k n' = attr_opt k n.
Proof. intros H T S. apply (hid_attr _ _ _ _ H). intros t' T'. congruence. Qed.
Lemma hid_secret anc n n' k t : hid anc n n' -> tag n = Some t -> secret t k = true -> masked_here anc t = false ->
  both (digest sha) (attr_opt k n) (attr_opt k n').
Proof.
  intros H T S MH. inversion H as [| |? ? ? ? ? ? ? ? ? ? ? L|? ? ? ? ? ? ? ? ? D|? ? ns l d i a d' i' a' kids kids' anc' M P A F]; subst; try discriminate T.
  - injection T as <-. exfalso. destruct L as [-> | ->]; discriminate MH.
  - injection T as <-. discriminate MH.
  - injection T as <-. specialize (A k). rewrite S in A. exact A.
Qed.
Lemma kids_lead anc kids kids' : Forall2 (hid anc) kids kids' -> lead kids' = lead kids.
Proof. intros H. induction H as [|x y l l' Hxy _ IH]; [reflexivity|]. inversion Hxy; subst; cbn; congruence. Qed.
Lemma kids_children anc kids kids' : Forall2 (hid anc) kids kids' ->
  Forall2 (hid anc) (filter (fun k => negb (is_chr k)) kids) (filter (fun k => negb (is_chr k)) kids').
Proof.
  intros H. induction H as [|x y l l' Hxy _ IH]; [constructor|]. cbn [filter]. rewrite (hid_chr_same _ _ _ Hxy).
  destruct (negb (is_chr x)); [constructor; assumption|exact IH].
Qed.
Lemma map_tags anc l l' : Forall2 (hid anc) l l' -> map tag l' = map tag l.
Proof. intros H. induction H as [|x y l l' Hxy _ IH]; [reflexivity|]. cbn. rewrite IH, (hid_tag _ _ _ Hxy). reflexivity. Qed.
(** what is the same for an element that is not replaced *)
Definition tg (n : node) : str := match tag n with Some t => t | None => [] end.
Record opened (anc : list str) (n n' : node) : Prop := Opened {
  o_text : text n' = text n;
  o_closed : is_self_closed_tag n' = is_self_closed_tag n;
  o_tags : child_tags n' = child_tags n;
  o_kids : Forall2 (hid (tg n :: anc)) (children n) (children n') }.
Lemma hid_open anc n n' : hid anc n n' -> (forall t, tag n = Some t -> masked_here anc t = false) -> opened anc n n'.
Proof.
  intros H M. inversion H as [| |? ? ? ? ? ? ? ? ? ? ? L|? ? ? ? ? ? ? ? ? D|? ? ns l d i a d' i' a' kids kids' anc' M' P A F]; subst.
  1,2: split; try reflexivity; constructor.
  - exfalso. specialize (M _ eq_refl). destruct L as [-> | ->]; discriminate M.
  - exfalso. specialize (M _ eq_refl). discriminate M.
  - assert (E : text (El ns l d' i' a' kids') = text (El ns l d i a kids)) by (cbn [text]; rewrite (kids_lead _ _ _ F); reflexivity).
    pose proof (kids_children _ _ _ F) as C. split.
    + exact E.
    + unfold is_self_closed_tag. rewrite E. unfold children. cbn [kids_of]. destruct C; reflexivity.
    + unfold child_tags. eapply map_tags. exact C.
    + exact C.
Qed.
Lemma find_hid anc t l l' : Forall2 (hid anc) l l' ->
  both (fun x x' => hid anc x x' /\ tag x = Some t /\ In x l) (find_list t l) (find_list t l').
Proof.
  intros H. unfold find_list. induction H as [|x y l l' Hxy _ IH]; [exact I|]. cbn [find]. rewrite (hid_is _ _ _ t Hxy).
  destruct (tag_is t x) eqn:E; [split; [exact Hxy|split; [apply tag_is_eq, E|left; reflexivity]]|].
  destruct (find (tag_is t) l), (find (tag_is t) l'); cbn in *; try contradiction; auto. intuition.
Qed.
Lemma find_both anc t n n' : Forall2 (hid anc) (children n) (children n') ->
  both (fun x x' => hid anc x x' /\ tag x = Some t) (find_child t n) (find_child t n').
Proof.
  intros H. rewrite !LayoutProofs.find_children. pose proof (find_hid anc t _ _ H) as G.
  destruct (find_list t (children n)), (find_list t (children n')); cbn in *; try contradiction; auto. intuition.
Qed.
Definition entered (anc : list str) (t : str) (x x' : node) : Prop :=
  hid anc x x' /\ tag x = Some t /\ opened anc x x' /\ Forall2 (hid (t :: anc)) (children x) (children x').
Lemma find_into anc t n n' : Forall2 (hid anc) (children n) (children n') -> masked_here anc t = false ->
  both (entered anc t) (find_child t n) (find_child t n').
Proof.
  intros H M. pose proof (find_both anc t n n' H) as G. destruct (find_child t n) as [x|], (find_child t n') as [x'|]; cbn in *; try contradiction; auto.
  destruct G as [G T]. assert (O : opened anc x x') by (apply hid_open; [exact G|]; intros t' T'; congruence).
  split; [exact G|]. split; [exact T|]. split; [exact O|]. pose proof (o_kids _ _ _ O) as K. unfold tg in K. rewrite T in K. exact K.
Qed.
Lemma req_into anc t n n' : Forall2 (hid anc) (children n) (children n') -> masked_here anc t = false ->
  sim (entered anc t) (find_req t n) (find_req t n').
Proof.
  intros H M. unfold find_req. pose proof (find_into anc t n n' H M) as G. destruct (find_child t n) as [x|], (find_child t n') as [x'|]; cbn in G; try contradiction.
  - apply sim_ok. exact G.
  - apply sim_raise.
Qed.
Lemma hid_pi n : forall anc n', hid anc n n' -> pi_free n' = true.
Proof.
  induction n as [c|s|s|ns l d i a kids IH] using node_ind'; intros anc n' H; inversion H as [| |? ? ? ? ? ? ? ? ? ? ? L|? ? ? ? ? ? ? ? ? D|? ? ? ? ? ? ? ? ? ? ? kids' anc' M' P A F]; subst; try reflexivity.
  - assumption.
  - cbn [pi_free]. clear. induction t; [reflexivity|assumption].
  - cbn [pi_free]. clear -F IH. induction F as [|x y l1 l2 Hxy _ IHl]; [reflexivity|]. inversion IH; subst. cbn. rewrite IHl by assumption.
    rewrite (H1 _ _ Hxy). reflexivity.
Qed.

(** ** References and plain values *)
Ltac same H := match type of H with hid _ ?n ?n' => repeat match goal with
  | |- context [attr_req ?k n'] => rewrite (hid_req_other _ _ _ k H) by reflexivity
  | |- context [attr_opt ?k n'] => rewrite (hid_attr_other _ _ _ k H) by reflexivity
  | |- context [tag_is ?t n'] => rewrite (hid_is _ _ _ t H)
  | |- context [tag_contains ?t n'] => rewrite (hid_contains _ _ _ t H)
  | |- context [is_comment n'] => rewrite (hid_comment _ _ _ H)
  | |- context [tag n'] => rewrite (hid_tag _ _ _ H)
  end end.
(** LONG-NAME where it is no secret *)
Lemma hid_long p up n n' : hid (p :: up) n n' -> str_eqb p "SPECIFICATIONS" = false -> attr_opt "LONG-NAME" n' = attr_opt "LONG-NAME" n.
Proof.
  intros H T. inversion H as [| | | |? ? ns l d i a d' i' a' kids kids' anc' M P A F]; subst; try reflexivity.
  apply (hid_attr _ _ _ _ H). intros t E. injection E as <-. unfold secret.
  change (str_eqb "LONG-NAME" "THE-VALUE") with false. rewrite andb_false_r, orb_false_r.
  destruct (str_eqb_spec (clark ns l) "SPECIFICATION") as [E|E]; [|reflexivity]. apply (proj1 P) in E. subst p. discriminate T.
Qed.
Lemma ref_text anc t q n n' : Forall2 (hid anc) (children n) (children n') -> masked_here anc t = false -> masked_here (t :: anc) q = false ->
  sim (fun r r' => text r' = text r) (let! x := find_req t n in find_req q x) (let! x := find_req t n' in find_req q x).
Proof.
  intros H M1 M2. apply (sim_bind _ _ _ _ _ _ (req_into anc t n n' H M1)). intros x x' (_ & _ & _ & K).
  intros r E. destruct (req_into _ q x x' K M2 r E) as (r' & E' & (_ & _ & O & _)). exists r'. split; [exact E'|apply (o_text _ _ _ O)].
Qed.
Lemma hid_opt_ref anc t q n n' : Forall2 (hid anc) (children n) (children n') -> masked_here anc t = false -> masked_here (t :: anc) q = false ->
  opt_ref t q n' = opt_ref t q n.
Proof.
  intros H M1 M2. unfold opt_ref. pose proof (find_into anc t n n' H M1) as F. destruct (find_child t n) as [x|], (find_child t n') as [x'|]; cbn in F; try contradiction; [|reflexivity].
  destruct F as (_ & _ & _ & K). pose proof (find_into _ q x x' K M2) as F. destruct (find_child q x) as [r|], (find_child q x') as [r'|]; cbn in F; try contradiction; [|reflexivity].
  destruct F as (_ & _ & O & _). apply (o_text _ _ _ O).
Qed.

(** ** Data types *)
Lemma sim_refl {A} (r : result A) : sim eq r r.
Proof. intros a E. eauto. Qed.
Lemma Forall2_eq {A} (l l' : list A) : Forall2 eq l l' -> l' = l.
Proof. intros H. induction H; congruence. Qed.
Lemma masked_other p up t : str_eqb t "COMMENT" = false -> str_eqb t "TITLE" = false -> str_eqb t "THE-VALUE" = false -> masked_here (p :: up) t = false.
Proof. intros H1 H2 H3. cbn [masked_here]. rewrite H1, H2, H3. rewrite !andb_false_r. reflexivity. Qed.
Lemma hid_enum up n n' : hid ("SPECIFIED-VALUES" :: up) n n' -> sim eq (parse_enum_value n) (parse_enum_value n').
Proof.
  intros H. unfold parse_enum_value. pose proof (hid_open _ _ _ H ltac:(reflexivity)) as O. same H.
  rewrite (hid_long _ _ _ _ H) by reflexivity.
  apply sim_bind_eq. intros i. apply (sim_bind _ _ _ _ _ _ (req_into _ "PROPERTIES" _ _ (o_kids _ _ _ O) ltac:(apply masked_other; reflexivity))).
  intros x x' (_ & _ & _ & K). apply (sim_bind _ _ _ _ _ _ (req_into _ "EMBEDDED-VALUE" _ _ K ltac:(apply masked_other; reflexivity))).
  intros y y' (H2 & _). same H2. apply sim_refl.
Qed.
Lemma sim_eq_list {A B} (f f' : A -> result B) l l' (Q : A -> A -> Prop) :
  (forall a b, Q a b -> sim eq (f a) (f' b)) -> Forall2 Q l l' -> sim eq (mapM f l) (mapM f' l').
Proof. intros H F a E. destruct (sim_mapM Q eq f f' l l' H F a E) as (b & E' & R). exists b. split; [exact E'|]. symmetry. apply Forall2_eq, R. Qed.
Lemma hid_data_type up n n' : hid ("DATATYPES" :: up) n n' -> sim eq (parse_data_type n) (parse_data_type n').
Proof.
  intros H. unfold parse_data_type. pose proof (hid_open _ _ _ H ltac:(reflexivity)) as O. same H. rewrite (o_closed _ _ _ O), (hid_long _ _ _ _ H) by reflexivity.
  apply sim_bind_eq. intros b. apply sim_bind_eq. intros _. apply sim_bind_eq. intros i.
  destruct (tag_is "DATATYPE-DEFINITION-ENUMERATION" n).
  - pose proof (find_into _ "SPECIFIED-VALUES" n n' (o_kids _ _ _ O) ltac:(apply masked_other; reflexivity)) as F.
    destruct (find_child "SPECIFIED-VALUES" n) as [x|], (find_child "SPECIFIED-VALUES" n') as [x'|]; cbn in F; try contradiction; [|apply sim_refl].
    destruct F as (_ & _ & _ & K). apply (sim_bind _ _ _ _ _ _ (sim_eq_list _ _ _ _ _ (hid_enum _) K)). intros a ? <-. apply sim_refl.
  - apply sim_refl.
Qed.

(** ** The replacement text *)
Definition dull (c : N) : Prop := (33 <= c < 127)%N /\ c <> 38%N /\ c <> 60%N /\ c <> 62%N /\ c <> 34%N /\ c <> 39%N.
Lemma digest_dull s t : digest sha s t -> Forall dull t /\ t <> [].
Proof.
  intros (b & _ & ->). split; [|discriminate]. apply Forall_app. split; [|apply Forall_app; split].
  - apply Forall_forall. intros c HC. repeat (destruct HC as [<-|HC]; [unfold dull; lia|]). destruct HC.
  - apply Forall_forall. intros c HC. destruct (GrammarProofs.number_digit _ _ _ _ _ (SerialiseProofs.str_of_N_number _) HC) as (d & HD). unfold decimal in HD. unfold dull. lia.
  - apply Forall_forall. intros c HC. repeat (destruct HC as [<-|HC]; [unfold dull; lia|]). destruct HC.
Qed.
Lemma dull_escape c : dull c -> lxml_escape_for_html [c] = [c].
Proof.
  intros (H0 & H1 & H2 & H3 & H4 & H5). assert (H6 : c <> 160%N) by lia. assert (H7 : c <> 9%N) by lia. unfold lxml_escape_for_html, replace_char. cbn [flat_map app].
  rewrite (proj2 (N.eqb_neq c 38) H1). cbn [flat_map app]. rewrite (proj2 (N.eqb_neq c 60) H2). cbn [flat_map app].
  rewrite (proj2 (N.eqb_neq c 62) H3). cbn [flat_map app]. rewrite (proj2 (N.eqb_neq c 34) H4). cbn [flat_map app].
  rewrite (proj2 (N.eqb_neq c 39) H5). cbn [flat_map app]. rewrite (proj2 (N.eqb_neq c 160) H6). cbn [flat_map app].
  rewrite (proj2 (N.eqb_neq c 9) H7). reflexivity.
Qed.
Lemma dull_ns k f t : Forall dull t -> stringify_ns_kids k f (map Chr t) = Ok t.
Proof.
  induction 1 as [|c t HC _ IH]; [reflexivity|]. unfold stringify_ns_kids in *. cbn [map]. rewrite IH. cbn [bind]. rewrite (dull_escape c HC). reflexivity.
Qed.
Lemma lead_text t : lead (map Chr t) = t.
Proof. induction t; [reflexivity|]. cbn. congruence. Qed.
Lemma tails_text t : tails (map Chr t) = [].
Proof. induction t; [reflexivity|assumption]. Qed.
Lemma children_string n t : kids_of n = map Chr t -> stringify_children n = Ok t.
Proof. intros H. unfold stringify_children. rewrite H, tails_text, lead_text. cbn [mapM bind concat]. rewrite app_nil_r. reflexivity. Qed.
Lemma strip_chrs t : map_opt (strip_ns true) (map Chr t) = Some (map Chr t).
Proof. induction t as [|c t IH]; [reflexivity|]. cbn [map map_opt strip_ns]. rewrite IH. reflexivity. Qed.
Lemma convert_text l d i a t : convert_children_from_reqif_ns (El None l d i a (map Chr t)) = Ok t.
Proof.
  unfold convert_children_from_reqif_ns, deepcopy. cbn [strip_ns]. rewrite strip_chrs. apply children_string. cbn [cleanup kids_of].
  rewrite map_map. reflexivity.
Qed.
Lemma dull_space c : dull c -> py_space c = false /\ N.eqb c 32 = false.
Proof. intros H. unfold dull in H. split; [|apply N.eqb_neq; lia].
  destruct (py_space c) eqn:E; [exfalso|reflexivity]. unfold py_space in E. rewrite !orb_true_iff, !andb_true_iff, !N.leb_le, !N.eqb_eq in E. lia.
Qed.
Lemma lstrip_dull t : Forall dull t -> lstrip t = t.
Proof. destruct 1 as [|c t H _]; [reflexivity|]. cbn [lstrip]. rewrite (proj1 (dull_space c H)). reflexivity. Qed.
Lemma unindent_dull t : Forall dull t -> reqif_unindent_xhtml_string t = t.
Proof.
  intros H. unfold reqif_unindent_xhtml_string. replace (sub_sp16 0 t) with t.
  - unfold strip, rstrip. rewrite (lstrip_dull t H), lstrip_dull by (apply Forall_rev, H). apply rev_involutive.
  - induction H as [|c t HC _ IH]; [reflexivity|]. cbn [sub_sp16]. rewrite (proj2 (dull_space c HC)), <- IH. reflexivity.
Qed.

(** ** Attribute definitions *)
Lemma sim_or {A B} (R : A -> B -> Prop) m m' : sim R m m' -> sim R (or_not_impl m) (or_not_impl m').
Proof. intros H a E. destruct m as [x|e]; [|discriminate E]. destruct (H x eq_refl) as (b & -> & HR). injection E as <-. exists b. auto. Qed.
Ltac into T K := apply (sim_bind _ _ _ _ _ _ (req_into _ T _ _ K ltac:(apply masked_other; reflexivity))).
Ltac child T n n' K F := pose proof (find_into _ T n n' K ltac:(apply masked_other; reflexivity)) as F;
  destruct (find_child T n) as [?x|], (find_child T n') as [?x'|]; cbn in F; try contradiction.
Lemma def_tag_cases (t : attr_type) p up : masked_here (p :: up) (get_definition_tag t) = false.
Proof. apply masked_other; destruct t; reflexivity. Qed.
Lemma hid_datatype_ref up n n' t : opened up n n' -> sim eq (parse_datatype_ref t n) (parse_datatype_ref t n').
Proof.
  intros O. unfold parse_datatype_ref. apply sim_or. into "TYPE" (o_kids _ _ _ O). intros x x' (_ & _ & _ & K).
  apply (sim_bind _ _ _ _ _ _ (req_into _ _ _ _ K (def_tag_cases t _ _))). intros r r' (_ & _ & O2 & _). rewrite (o_text _ _ _ O2). apply sim_refl.
Qed.
Definition dv_rel (t : attr_type) (x y : dv_result) : Prop := fst y = fst x /\ hidden_default sha t (snd x) (snd y).
Lemma hidden_default_refl t v : (forall s, v = DVStr s -> t <> AT_STRING /\ t <> AT_XHTML) -> hidden_default sha t v v.
Proof. intros H. unfold hidden_default. destruct v as [| |s]; try reflexivity. destruct (H s eq_refl). destruct t; congruence || reflexivity. Qed.
Lemma dv_same t (r : result dv_result) : t <> AT_STRING -> t <> AT_XHTML -> sim (dv_rel t) r r.
Proof. intros H1 H2 a E. exists a. split; [exact E|]. split; [reflexivity|]. apply hidden_default_refl. auto. Qed.
Lemma dv_none t o : sim (dv_rel t) (Ok (o, DVNone)) (Ok (o, DVNone)).
Proof. apply sim_ok. split; reflexivity. Qed.
Lemma dv_empty t o : sim (dv_rel t) (Ok (o, DVEmptyTag)) (Ok (o, DVEmptyTag)).
Proof. apply sim_ok. split; reflexivity. Qed.
Lemma hid_req anc n n' k : attr_opt k n' = attr_opt k n -> hid anc n n' -> attr_req k n' = attr_req k n.
Proof. intros H _. unfold attr_req. rewrite H. reflexivity. Qed.
Lemma secret_req anc n n' k t : hid anc n n' -> tag n = Some t -> secret t k = true -> masked_here anc t = false ->
  sim (digest sha) (attr_req k n) (attr_req k n').
Proof.
  intros H T S M. pose proof (hid_secret anc n n' k t H T S M) as B. unfold attr_req.
  destruct (attr_opt k n), (attr_opt k n'); cbn in B; try contradiction; [apply sim_ok, B|apply sim_raise].
Qed.
Lemma open_req anc n n' k t : hid anc n n' -> tag n = Some t -> secret t k = false -> attr_req k n' = attr_req k n.
Proof. intros H T S. apply (hid_req anc); [apply (hid_name _ _ _ _ _ H T S)|exact H]. Qed.
Lemma value_xhtml up n n' : Forall2 (hid ("ATTRIBUTE-VALUE-XHTML" :: up)) (children n) (children n') ->
  sim (fun tv tv' => exists d i a s t, tv' = El None "THE-VALUE" d i a (map Chr t) /\ digest sha s t
                     /\ (forall u, up = "DEFAULT-VALUE" :: u -> extend d i <> []))
      (find_req "THE-VALUE" n) (find_req "THE-VALUE" n').
Proof.
  intros K. unfold find_req. pose proof (find_both _ "THE-VALUE" n n' K) as F.
  destruct (find_child "THE-VALUE" n) as [x|], (find_child "THE-VALUE" n') as [x'|]; cbn in F; try contradiction; [|apply sim_raise].
  destruct F as [H T]. apply sim_ok. inversion H as [| | |? d i a d' i' kids s t D NE|? ? ns l d i a d' i' a' kids kids' anc' M P A F']; subst; try discriminate T.
  - exists d', i', a, s, t. auto.
  - cbn [tag] in T. injection T as T. subst anc'. rewrite T in M. discriminate M.
Qed.
Lemma value_tag_cases (t : attr_type) p up : masked_here (p :: up) (get_attribute_value_tag t) = false.
Proof. apply masked_other; destruct t; reflexivity. Qed.
Lemma simple_default t up x x' : Forall2 (hid ("DEFAULT-VALUE" :: up)) (children x) (children x') ->
  secret (get_attribute_value_tag t) "THE-VALUE" = false -> t = AT_INTEGER \/ t = AT_REAL \/ t = AT_DATE ->
  sim (dv_rel t) match find_child (get_attribute_value_tag t) x with Some v => let! s := attr_req "THE-VALUE" v in Ok (None, DVStr s) | None => Raise EAssertionError end
                 match find_child (get_attribute_value_tag t) x' with Some v => let! s := attr_req "THE-VALUE" v in Ok (None, DVStr s) | None => Raise EAssertionError end.
Proof.
  intros K S T. pose proof (find_into _ _ _ _ K (value_tag_cases t _ _)) as F.
  destruct (find_child (get_attribute_value_tag t) x) as [v|], (find_child (get_attribute_value_tag t) x') as [v'|]; cbn in F; try contradiction; [|apply sim_raise].
  destruct F as (H & TG & _). rewrite (open_req _ _ _ _ _ H TG S). apply dv_same; destruct T as [->|[->| ->]]; discriminate.
Qed.
Lemma hid_default up n n' t : opened up n n' -> sim (dv_rel t) (parse_default_value t n) (parse_default_value t n').
Proof.
  intros O. pose proof (o_kids _ _ _ O) as K0.
  destruct t; cbn [parse_default_value]; unfold parse_default_string, parse_default_simple, parse_default_boolean, parse_default_xhtml, parse_default_enum.
  all: child "DEFAULT-VALUE" n n' K0 F; [|apply dv_none].
  all: destruct F as (_ & _ & O1 & K1); rewrite ?(o_closed _ _ _ O1).
  all: try (destruct (is_self_closed_tag x); [apply dv_empty|]).
  - child "ATTRIBUTE-VALUE-STRING" x x' K1 F; [|apply sim_raise]. destruct F as (H2 & T2 & _).
    apply (sim_bind _ _ _ _ _ _ (secret_req _ _ _ "THE-VALUE" _ H2 T2 eq_refl eq_refl)). intros s t D. apply sim_ok. split; [reflexivity|]. exists t. auto.
  - child "ATTRIBUTE-VALUE-ENUMERATION" x x' K1 F; [|apply sim_raise]. destruct F as (H2 & T2 & _ & K2).
    apply (sim_bind eq).
    + child "DEFINITION" x0 x'0 K2 F; [|apply sim_refl]. destruct F as (_ & _ & _ & K3). into "ATTRIBUTE-DEFINITION-ENUMERATION-REF" K3.
      intros r r' (_ & _ & O3 & _). rewrite (o_text _ _ _ O3). apply sim_refl.
    + intros o ? <-. child "VALUES" x0 x'0 K2 F; [|apply dv_none]. destruct F as (_ & _ & _ & K3). child "ENUM-VALUE-REF" x1 x'1 K3 F; [|apply dv_none].
      destruct F as (_ & _ & O3 & _). rewrite (o_text _ _ _ O3). apply dv_same; discriminate.
  - apply (simple_default AT_INTEGER _ _ _ K1); [reflexivity|left; reflexivity].
  - apply (simple_default AT_REAL _ _ _ K1); [reflexivity|right; left; reflexivity].
  - child "ATTRIBUTE-VALUE-BOOLEAN" x x' K1 F; [|apply sim_raise]. destruct F as (H2 & T2 & _ & K2). rewrite (open_req _ _ _ _ _ H2 T2 eq_refl).
    apply sim_bind_eq. intros s. child "DEFINITION" x0 x'0 K2 F; [|apply dv_same; discriminate]. destruct F as (_ & _ & _ & K3).
    child "ATTRIBUTE-DEFINITION-BOOLEAN-REF" x1 x'1 K3 F; [|apply dv_same; discriminate]. destruct F as (_ & _ & O3 & _). rewrite (o_text _ _ _ O3). apply dv_same; discriminate.
  - apply (simple_default AT_DATE _ _ _ K1); [reflexivity|right; right; reflexivity].
  - child "ATTRIBUTE-VALUE-XHTML" x x' K1 F; [|apply sim_raise]. destruct F as (H2 & T2 & _ & K2). apply (sim_bind eq).
    + child "DEFINITION" x0 x'0 K2 F; [|apply sim_refl]. destruct F as (_ & _ & _ & K3).
      child "ATTRIBUTE-DEFINITION-XHTML-REF" x1 x'1 K3 F; [|apply sim_raise]. destruct F as (_ & _ & O3 & _). rewrite (o_text _ _ _ O3). apply sim_refl.
    + intros o ? <-. apply (sim_bind _ _ _ _ _ _ (value_xhtml _ _ _ K2)). intros tv tv' (d & i & a & s & t & -> & D & NE).
      intros v E. exists (o, DVStr t). destruct (stringify_namespaced_children tv None) as [s0|] eqn:ES; [|discriminate E]. cbn [bind] in E. injection E as <-. split.
      * unfold stringify_namespaced_children. cbn [node_nsmap kids_of]. specialize (NE _ eq_refl). destruct (extend d i) as [|[k u] ?]; [contradiction|].
        rewrite (dull_ns _ _ _ (proj1 (digest_dull s t D))). reflexivity.
      * split; [reflexivity|]. cbn. exists s, t. auto.
Qed.
Lemma hid_definition up n n' : hid ("SPEC-ATTRIBUTES" :: up) n n' -> sim (hidden_definition sha) (parse_attribute_definition n) (parse_attribute_definition n').
Proof.
  intros H. unfold parse_attribute_definition. pose proof (hid_open _ _ _ H ltac:(reflexivity)) as O. unfold parse_multi_valued. same H.
  rewrite (hid_long _ _ _ _ H) by reflexivity.
  apply sim_bind_eq. intros i. destruct (attr_type_of_def_tag (tag n)) as [t|]; [|apply sim_raise].
  apply (sim_bind _ _ _ _ _ _ (hid_datatype_ref _ _ _ t O)). intros dt ? <-.
  apply (sim_bind _ _ _ _ _ _ (hid_default _ _ _ t O)). intros [r v] [r' v'] [E D]. cbn [fst snd] in *. subst r'.
  apply sim_ok. repeat (split; [reflexivity|]). exact D.
Qed.
Definition map_opt_rel {A} (R : A -> A -> Prop) (o o' : option A) : Prop := both R o o'.
Lemma hid_definitions up n n' : opened up n n' -> sim (both (Forall2 (hidden_definition sha))) (parse_attribute_definitions n) (parse_attribute_definitions n').
Proof.
  intros O. unfold parse_attribute_definitions. child "SPEC-ATTRIBUTES" n n' (o_kids _ _ _ O) F; [|apply sim_ok; exact I].
  destruct F as (_ & _ & _ & K). apply (sim_bind _ _ _ _ _ _ (sim_mapM _ _ _ _ _ _ (hid_definition _) K)). intros l l' E. apply sim_ok. exact E.
Qed.
Lemma fill_hidden l l' : Forall2 (hidden_definition sha) l l' -> forall m, fill_attribute_map l' m = fill_attribute_map l m.
Proof.
  induction 1 as [|x y l l' Hxy _ IH]; intros m; [reflexivity|]. cbn [fill_attribute_map]. destruct Hxy as (_ & E1 & _ & _ & _ & E2 & _).
  rewrite E1, E2. destruct (ad_long_name x); [apply IH|reflexivity].
Qed.
Definition opt_type (o o' : option spec_type) : Prop := both (hidden_type sha) o o'.
Lemma hid_spec_type up n n' : hid ("SPEC-TYPES" :: up) n n' -> sim opt_type (parse_spec_type n) (parse_spec_type n').
Proof.
  intros H. pose proof (hid_open _ _ _ H ltac:(reflexivity)) as O. unfold parse_spec_type, parse_spec_object_type, parse_spec_relation_type, parse_specification_type, parse_relation_group_type.
  assert (LQ : attr_req "LONG-NAME" n' = attr_req "LONG-NAME" n) by (apply (hid_req ("SPEC-TYPES" :: up)); [apply (hid_long _ _ _ _ H); reflexivity|exact H]).
  same H. rewrite ?(hid_long _ _ _ _ H) by reflexivity. rewrite LQ, (o_closed _ _ _ O).
  destruct (tag_is "SPEC-OBJECT-TYPE" n); [|destruct (tag_is "SPEC-RELATION-TYPE" n); [|destruct (tag_is "SPECIFICATION-TYPE" n); [|destruct (tag_is "RELATION-GROUP-TYPE" n)]]].
  - apply (sim_bind (fun x y => hidden_type sha (STObject x) (STObject y))); [|intros x y E; apply sim_ok, E].
    cbn [py_assert bind]. apply sim_bind_eq. intros i. apply (sim_bind _ _ _ _ _ _ (hid_definitions _ _ _ O)). intros l l' E. apply sim_ok. cbn. auto.
  - apply (sim_bind (fun x y => hidden_type sha (STRelation x) (STRelation y))); [|intros x y E; apply sim_ok, E].
    cbn [py_assert bind]. apply sim_bind_eq. intros i. apply sim_bind_eq. intros ln. apply (sim_bind _ _ _ _ _ _ (hid_definitions _ _ _ O)). intros l l' E. apply sim_ok. cbn. auto 6.
  - apply (sim_bind (fun x y => hidden_type sha (STSpecification x) (STSpecification y))); [|intros x y E; apply sim_ok, E].
    cbn [py_assert bind]. apply sim_bind_eq. intros i. apply sim_bind_eq. intros lc. apply (sim_bind _ _ _ _ _ _ (hid_definitions _ _ _ O)). intros l l' E.
    apply (sim_bind eq).
    + destruct l as [l|], l' as [l'|]; cbn in E; try contradiction; [rewrite (fill_hidden _ _ E)|]; apply sim_refl.
    + intros m ? <-. apply sim_ok. cbn. auto 7.
  - apply (sim_bind (fun x y => hidden_type sha (STGroup x) (STGroup y))); [|intros x y E; apply sim_ok, E].
    cbn [py_assert bind]. apply sim_bind_eq. intros i. apply (sim_bind _ _ _ _ _ _ (hid_definitions _ _ _ O)). intros l l' E. apply sim_ok. cbn. auto 6.
  - destruct (is_comment n); [apply sim_ok; exact I|apply sim_raise].
Qed.

(** ** Attribute values *)
Lemma hid_definition_ref up n n' q : opened up n n' -> str_eqb q "COMMENT" = false -> str_eqb q "TITLE" = false -> str_eqb q "THE-VALUE" = false ->
  sim eq (definition_ref_text q n) (definition_ref_text q n').
Proof.
  intros O Q1 Q2 Q3. unfold definition_ref_text. into "DEFINITION" (o_kids _ _ _ O). intros x x' (_ & _ & _ & K).
  apply (sim_bind _ _ _ _ _ _ (req_into _ q _ _ K (masked_other _ _ _ Q1 Q2 Q3))). intros r r' (_ & _ & O2 & _). rewrite (o_text _ _ _ O2). apply sim_refl.
Qed.
(** the place of an element with any name *)
Lemma tg_place p up n n' : hid (p :: up) n n' ->
  str_eqb p "THE-HEADER" = false -> str_eqb p "VALUES" = false -> str_eqb p "DEFAULT-VALUE" = false -> forall t, masked_here (tg n :: p :: up) t = false.
Proof.
  intros H P1 P2 P3 t. cbn [masked_here].
  assert (A : str_eqb (tg n) "REQ-IF-HEADER" = false /\ str_eqb (tg n) "ATTRIBUTE-VALUE-XHTML" = false).
  { inversion H as [| |? ? ? ? ? ? ? ? ? ? ? L| |? ? ns l d i a d' i' a' kids kids' anc' M P A F]; subst; try (split; reflexivity).
    - destruct L as [-> | ->]; split; reflexivity.
    - unfold tg. cbn [tag]. destruct P as (_ & Q1 & Q2). split.
      + destruct (str_eqb_spec (clark ns l) "REQ-IF-HEADER") as [E|]; [|reflexivity]. apply Q1 in E. subst p. discriminate P1.
      + destruct (str_eqb_spec (clark ns l) "ATTRIBUTE-VALUE-XHTML") as [E|]; [|reflexivity]. destruct (Q2 (or_intror E)); subst p; discriminate. }
  destruct A as [-> ->]. reflexivity.
Qed.
Lemma hid_child_at anc k n n' : Forall2 (hid anc) (children n) (children n') -> sim (hid anc) (child_at k n) (child_at k n').
Proof.
  intros F. unfold child_at. revert k. induction F as [|x y l l' Hxy _ IH]; intros [|k]; cbn [nth_error]; try apply sim_raise; [apply sim_ok, Hxy|apply IH].
Qed.
Lemma hid_grandchild up n n' t : hid ("VALUES" :: up) n n' -> tag n = Some t -> t = "ATTRIBUTE-VALUE-STRING" \/ t = "ATTRIBUTE-VALUE-INTEGER" ->
  sim eq (first_grandchild_text n) (first_grandchild_text n').
Proof.
  intros H T TT. unfold first_grandchild_text. pose proof (hid_open _ _ _ H ltac:(reflexivity)) as O. pose proof (o_kids _ _ _ O) as K. unfold tg in K. rewrite T in K.
  apply (sim_bind _ _ _ _ _ _ (hid_child_at _ 0 _ _ K)). intros x x' Hx.
  assert (O2 : opened (t :: "VALUES" :: up) x x') by (apply (hid_open _ _ _ Hx); intros u _; destruct TT as [-> | ->]; reflexivity).
  apply (sim_bind _ _ _ _ _ _ (hid_child_at _ 0 _ _ (o_kids _ _ _ O2))). intros y y' Hy.
  assert (O3 : opened (tg x :: t :: "VALUES" :: up) y y').
  { apply (hid_open _ _ _ Hy). intros u _. apply (tg_place _ _ _ _ Hx); destruct TT as [-> | ->]; reflexivity. }
  rewrite (o_text _ _ _ O3). apply sim_refl.
Qed.
Lemma hid_xhtml p up n n' : hid (p :: up) n n' -> masked_here (p :: up) "ATTRIBUTE-VALUE-XHTML" = false -> tag n = Some ("ATTRIBUTE-VALUE-XHTML" : str) ->
  sim (hidden_value sha) (parse_xhtml_attribute_value n) (parse_xhtml_attribute_value n').
Proof.
  intros H M T. assert (O : opened (p :: up) n n') by (apply (hid_open _ _ _ H); intros u E; congruence).
  unfold parse_xhtml_attribute_value. same H. apply sim_bind_eq. intros b. apply sim_bind_eq. intros _.
  pose proof (o_kids _ _ _ O) as K. unfold tg in K. rewrite T in K.
  apply (sim_bind _ _ _ _ _ _ (value_xhtml _ _ _ K)). intros tv tv' (d & i & a & s & t & -> & D & _).
  apply (sim_bind (fun _ y => y = (t, t))).
  - intros x E. exists (t, t). split; [|reflexivity]. destruct (digest_dull s t D) as [DT _]. cbn [node_nsmap]. destruct (extend d i) as [|[k u] m] eqn:EX.
    + rewrite (children_string _ t) by reflexivity. cbn [bind]. rewrite (unindent_dull t DT). reflexivity.
    + unfold stringify_namespaced_children. cbn [node_nsmap kids_of]. rewrite EX, (dull_ns _ _ t DT), convert_text. cbn [bind]. rewrite (unindent_dull t DT). reflexivity.
  - intros [v st] ? ->. apply (sim_bind _ _ _ _ _ _ (hid_definition_ref _ _ _ "ATTRIBUTE-DEFINITION-XHTML-REF" O eq_refl eq_refl eq_refl)). intros r ? <-.
    apply sim_ok. split; [reflexivity|]. split; [reflexivity|]. cbn. exists s, t. auto.
Qed.
Lemma hid_simple up n n' t : hid ("VALUES" :: up) n n' -> tag n = Some (get_attribute_value_tag t) -> t <> AT_STRING -> t <> AT_XHTML ->
  sim (hidden_value sha) (parse_simple_value t n) (parse_simple_value t n').
Proof.
  intros H T N1 N2. unfold parse_simple_value. rewrite (open_req _ _ _ _ _ H T) by (destruct t; reflexivity || contradiction).
  apply sim_bind_eq. intros v. pose proof (hid_open _ _ _ H ltac:(reflexivity)) as O.
  apply (sim_bind eq); [apply (hid_definition_ref _ _ _ _ O); destruct t; reflexivity|]. intros r ? <-. apply sim_ok.
  split; [reflexivity|]. split; [reflexivity|]. cbn. destruct t; try contradiction; auto.
Qed.
Definition opt_value (o o' : option spec_attr) : Prop := both (hidden_value sha) o o'.
Lemma opt_some m m' : sim (hidden_value sha) m m' -> sim opt_value (let! a := m in Ok (Some a)) (let! a := m' in Ok (Some a)).
Proof. intros H. apply (sim_bind _ _ _ _ _ _ H). intros a b E. apply sim_ok, E. Qed.
Lemma hid_string up n n' : hid ("VALUES" :: up) n n' -> tag n = Some ("ATTRIBUTE-VALUE-STRING" : str) ->
  sim (hidden_value sha) (let! v := attr_req "THE-VALUE" n in let! ref := first_grandchild_text n in Ok (SpecAttr AT_STRING ref (VStr v) None (Some n)))
    (let! v := attr_req "THE-VALUE" n' in let! ref := first_grandchild_text n' in Ok (SpecAttr AT_STRING ref (VStr v) None (Some n'))).
Proof.
  intros H T. apply (sim_bind _ _ _ _ _ _ (secret_req _ _ _ "THE-VALUE" _ H T eq_refl eq_refl)). intros s t D.
  apply (sim_bind _ _ _ _ _ _ (hid_grandchild _ _ _ _ H T (or_introl eq_refl))). intros r ? <-. apply sim_ok.
  split; [reflexivity|]. split; [reflexivity|]. exists s, t. auto.
Qed.
Lemma values_text anc l l' : Forall2 (hid anc) l l' -> (forall t, masked_here anc t = false) -> map text l' = map text l.
Proof.
  intros F M. induction F as [|x y l l' Hxy _ IH]; [reflexivity|]. cbn [map]. rewrite IH. f_equal. apply (o_text anc). apply hid_open; auto.
Qed.
Lemma hid_value up n n' : hid ("VALUES" :: up) n n' -> sim opt_value (parse_attribute_value n) (parse_attribute_value n').
Proof.
  intros H. pose proof (hid_open _ _ _ H ltac:(reflexivity)) as O. unfold parse_attribute_value. same H.
  destruct (is_comment n); [apply sim_ok; exact I|].
  destruct (tag_is "ATTRIBUTE-VALUE-STRING" n) eqn:E1.
  { apply tag_is_eq in E1. intros a E. destruct (attr_req "THE-VALUE" n) as [v|] eqn:EV; [|discriminate E]. cbn [bind] in E.
    destruct (first_grandchild_text n) as [r|] eqn:ER; [|discriminate E]. cbn [bind] in E. injection E as <-.
    destruct (hid_string _ _ _ H E1 (SpecAttr AT_STRING r (VStr v) None (Some n))) as (b & EB & HB); [rewrite EV, ER; reflexivity|].
    exists (Some b). split; [|exact HB]. destruct (attr_req "THE-VALUE" n') as [v'|]; [|discriminate EB]. cbn [bind] in *.
    destruct (first_grandchild_text n') as [r'|]; [|discriminate EB]. cbn [bind] in *. congruence. }
  destruct (tag_is "ATTRIBUTE-VALUE-ENUMERATION" n) eqn:E2.
  { apply (sim_bind _ _ _ _ _ _ (hid_definition_ref _ _ _ "ATTRIBUTE-DEFINITION-ENUMERATION-REF" O eq_refl eq_refl eq_refl)). intros r ? <-.
    child "VALUES" n n' (o_kids _ _ _ O) F; [|apply sim_raise]. destruct F as (_ & _ & _ & K). apply sim_ok.
    rewrite (values_text _ _ _ K) by reflexivity. split; [reflexivity|]. split; [reflexivity|]. cbn. auto. }
  destruct (tag_is "ATTRIBUTE-VALUE-INTEGER" n) eqn:E3; [apply opt_some, (hid_simple _ _ _ AT_INTEGER H); [apply tag_is_eq, E3|discriminate..]|].
  destruct (tag_is "ATTRIBUTE-VALUE-REAL" n) eqn:E4; [apply opt_some, (hid_simple _ _ _ AT_REAL H); [apply tag_is_eq, E4|discriminate..]|].
  destruct (tag_is "ATTRIBUTE-VALUE-BOOLEAN" n) eqn:E5; [apply opt_some, (hid_simple _ _ _ AT_BOOLEAN H); [apply tag_is_eq, E5|discriminate..]|].
  destruct (tag_is "ATTRIBUTE-VALUE-DATE" n) eqn:E6; [apply opt_some, (hid_simple _ _ _ AT_DATE H); [apply tag_is_eq, E6|discriminate..]|].
  destruct (tag_is "ATTRIBUTE-VALUE-XHTML" n) eqn:E7; [apply opt_some, (hid_xhtml _ _ _ _ H eq_refl), tag_is_eq, E7|apply sim_raise].
Qed.
Lemma cat_hidden l l' : Forall2 opt_value l l' -> Forall2 (hidden_value sha) (catSomes l) (catSomes l').
Proof. induction 1 as [|x y l l' Hxy _ IH]; [constructor|]. destruct x, y; cbn in *; try contradiction; [constructor; assumption|exact IH]. Qed.
Lemma hid_values up n n' : opened up n n' ->
  sim (both (Forall2 (hidden_value sha))) (parse_attribute_values (find_child "VALUES" n)) (parse_attribute_values (find_child "VALUES" n')).
Proof.
  intros O. unfold parse_attribute_values. child "VALUES" n n' (o_kids _ _ _ O) F; [|apply sim_ok; exact I]. destruct F as (_ & _ & _ & K).
  apply (sim_bind _ _ _ _ _ _ (sim_mapM _ _ _ _ _ _ (hid_value _) K)). intros l l' E. apply sim_ok. apply (cat_hidden _ _ E).
Qed.

(** ** Objects, relations, groups *)
Lemma hid_spec_object up n n' : hid ("SPEC-OBJECTS" :: up) n n' -> sim (hidden_object sha) (parse_spec_object n) (parse_spec_object n').
Proof.
  intros H. pose proof (hid_open _ _ _ H ltac:(reflexivity)) as O. unfold parse_spec_object. same H. rewrite (hid_long _ _ _ _ H) by reflexivity.
  apply sim_bind_eq. intros b. apply sim_bind_eq. intros _. apply sim_bind_eq. intros i. into "TYPE" (o_kids _ _ _ O). intros x x' (_ & _ & _ & K).
  into "SPEC-OBJECT-TYPE-REF" K. intros r r' (_ & _ & O2 & _). apply (sim_bind _ _ _ _ _ _ (hid_values _ _ _ O)). intros v v' E. rewrite (o_text _ _ _ O2).
  apply sim_ok. repeat (split; [reflexivity|]). cbn. destruct v, v'; cbn in E; try contradiction; [exact E|constructor].
Qed.
Lemma hid_relation_value up n n' : hid ("VALUES" :: up) n n' -> sim (hidden_value sha) (parse_relation_value n) (parse_relation_value n').
Proof.
  intros H. unfold parse_relation_value. same H. destruct (tag_is "ATTRIBUTE-VALUE-STRING" n) eqn:E1; [apply (hid_string _ _ _ H), tag_is_eq, E1|].
  destruct (tag_is "ATTRIBUTE-VALUE-XHTML" n) eqn:E2; [apply (hid_xhtml _ _ _ _ H eq_refl), tag_is_eq, E2|].
  destruct (tag_is "ATTRIBUTE-VALUE-INTEGER" n) eqn:E3; [|apply sim_raise]. apply tag_is_eq in E3. rewrite (open_req _ _ _ _ _ H E3 eq_refl).
  apply sim_bind_eq. intros v. apply (sim_bind _ _ _ _ _ _ (hid_grandchild _ _ _ _ H E3 (or_intror eq_refl))). intros r ? <-. apply sim_ok.
  split; [reflexivity|]. split; [reflexivity|]. cbn. auto.
Qed.
Lemma hid_spec_relation up n n' : hid ("SPEC-RELATIONS" :: up) n n' -> sim (hidden_relation sha) (parse_spec_relation n) (parse_spec_relation n').
Proof.
  intros H. pose proof (hid_open _ _ _ H ltac:(reflexivity)) as O. unfold parse_spec_relation. same H. rewrite (hid_long _ _ _ _ H) by reflexivity. rewrite (o_tags _ _ _ O).
  apply sim_bind_eq. intros _. apply sim_bind_eq. intros _. destruct (negb (ostr_mem _ _)); [apply sim_raise|]. destruct (negb (ostr_mem _ _)); [apply sim_raise|].
  apply sim_bind_eq. intros i. pose proof (o_kids _ _ _ O) as K0.
  into "TYPE" K0. intros x x' (_ & _ & _ & K). into "SPEC-RELATION-TYPE-REF" K. intros r r' (_ & _ & O2 & _).
  into "SOURCE" K0. intros y y' (_ & _ & _ & K2). into "SPEC-OBJECT-REF" K2. intros r2 r2' (_ & _ & O3 & _).
  into "TARGET" K0. intros z z' (_ & _ & _ & K3). into "SPEC-OBJECT-REF" K3. intros r3 r3' (_ & _ & O4 & _).
  rewrite (o_text _ _ _ O2), (o_text _ _ _ O3), (o_text _ _ _ O4).
  apply (sim_bind opt_value).
  - child "VALUES" n n' K0 F; [|apply sim_ok; exact I]. destruct F as (_ & _ & _ & K4). destruct K4 as [|v v' ? ? Hv _]; [apply sim_ok; exact I|].
    apply opt_some, (hid_relation_value _ _ _ Hv).
  - intros v v' E. apply sim_ok. repeat (split; [reflexivity|]). exact E.
Qed.
Lemma hid_missing up n n' e t : hid ("SPEC-RELATIONS" :: up) n n' -> parse_spec_relation n = Raise (EMissingTag e t) -> parse_spec_relation n' = Raise (EMissingTag n' t).
Proof.
  intros H E. pose proof (hid_open _ _ _ H ltac:(reflexivity)) as O. destruct (spec_relation_special _ _ E eq_refl) as (T & M & t' & TT & EE). injection EE as -> ->.
  unfold parse_spec_relation. same H. rewrite (o_tags _ _ _ O), T. cbn [py_assert bind]. unfold lacks in TT. rewrite !has_child_tags in *. rewrite M. cbn [py_assert bind].
  destruct (has_child "SOURCE" n); cbn [negb] in *; [|congruence]. destruct (has_child "TARGET" n); cbn [negb] in *; congruence.
Qed.
Lemma texts_same anc n n' : Forall2 (hid anc) (children n) (children n') -> (forall t, masked_here anc t = false) -> map text (children n') = map text (children n).
Proof. apply values_text. Qed.
Lemma hid_group up n n' : hid ("SPEC-RELATION-GROUPS" :: up) n n' -> sim eq (parse_relation_group n) (parse_relation_group n').
Proof.
  intros H. pose proof (hid_open _ _ _ H ltac:(reflexivity)) as O. unfold parse_relation_group. same H. rewrite (hid_long _ _ _ _ H) by reflexivity.
  pose proof (o_kids _ _ _ O) as K0.
  rewrite !(hid_opt_ref _ _ _ _ _ K0) by (apply masked_other; reflexivity).
  child "SPEC-RELATIONS" n n' K0 F; [|apply sim_refl]. destruct F as (_ & _ & _ & K). rewrite (values_text _ _ _ K) by reflexivity. apply sim_refl.
Qed.

(** ** Hierarchies and specifications *)
Definition hier_same (h h' : hier) : Prop := erase_hier h' = erase_hier h.
Lemma erase_list l l' : Forall2 hier_same l l' -> map erase_hier l' = map erase_hier l.
Proof. induction 1 as [|x y l l' Hxy _ IH]; [reflexivity|]. cbn [map]. rewrite IH, Hxy. reflexivity. Qed.
Lemma hid_hier n : forall p up level n', hid (p :: up) n n' -> p = "CHILDREN" -> sim hier_same (parse_hier level n) (parse_hier level n').
Proof.
  induction n as [n IH] using node_strong_ind. intros p up level n' H ->. pose proof (hid_open _ _ _ H ltac:(reflexivity)) as O.
  pose proof (o_kids _ _ _ O) as K0.
  destruct n as [c|ns l d i a kids|s|s]; try apply sim_raise.
  assert (EN : exists ns' l' d' i' a' kids', n' = El ns' l' d' i' a' kids') by (inversion H; subst; eauto 10).
  destruct EN as (ns' & l' & d' & i' & a' & kids' & ->). rewrite !parse_hier_eq.
  set (n := El ns l d i a kids) in *. set (n' := El ns' l' d' i' a' kids') in *. same H. rewrite (hid_long _ _ _ _ H) by reflexivity. rewrite (o_tags _ _ _ O).
  apply sim_bind_eq. intros _. apply sim_bind_eq. intros j. into "OBJECT" K0. intros x x' (_ & _ & _ & K). into "SPEC-OBJECT-REF" K. intros r r' (_ & _ & O2 & _).
  rewrite (o_text _ _ _ O2). pose proof (find_into _ "CHILDREN" n n' K0 ltac:(apply masked_other; reflexivity)) as F.
  destruct (find_child "CHILDREN" n) as [c|] eqn:EC, (find_child "CHILDREN" n') as [c'|] eqn:EC'; cbn in F; try contradiction; [|apply sim_ok; reflexivity].
  destruct F as (_ & _ & O3 & K3). rewrite (o_closed _ _ _ O3).
  apply (sim_bind (fun o o' => exists l l', o = Some l /\ o' = Some l' /\ map erase_hier l' = map erase_hier l)).
  - apply (sim_bind (Forall2 hier_same)); [|intros u v E; apply sim_ok; eauto 6 using erase_list].
    assert (B : forall k, In k (children c) -> nsize k < nsize n).
    { intros k Hk. apply children_size in Hk. apply find_child_size in EC. lia. }
    clear -IH K3 B. induction K3 as [|k k' ks ks' Hk _ IHk]; [apply sim_ok; constructor|]. cbn [mapM].
    apply (sim_bind _ _ _ _ _ _ (IH k (B k (or_introl eq_refl)) _ _ _ _ Hk eq_refl)). intros h h' Eh.
    apply (sim_bind _ _ _ _ _ _ (IHk ltac:(intros; apply B; right; assumption))). intros hs hs' Ehs. apply sim_ok. constructor; assumption.
  - intros o o' (u & v & -> & -> & E). apply sim_ok. unfold hier_same. cbn [erase_hier option_map]. rewrite E. reflexivity.
Qed.
Lemma hid_last anc t n n' : Forall2 (hid anc) (children n) (children n') -> masked_here anc t = false ->
  both (entered anc t) (last_child t n) (last_child t n').
Proof.
  intros H M. assert (G : forall m, last_child t m = find_list t (rev (children m))).
  { intros m. unfold last_child, find_list, children. induction (kids_of m) as [|k l IH] using rev_ind; [reflexivity|].
    rewrite filter_app, !rev_app_distr. destruct k; cbn [filter is_chr negb rev app find]; rewrite ?IH; reflexivity. }
  rewrite !G. assert (R : Forall2 (hid anc) (rev (children n)) (rev (children n'))).
  { clear -H. induction H; cbn; [constructor|]. apply Forall2_app; [assumption|]. constructor; [assumption|constructor]. }
  pose proof (find_hid anc t _ _ R) as F. destruct (find_list t (rev (children n))) as [x|], (find_list t (rev (children n'))) as [x'|]; cbn in *; try contradiction; auto.
  destruct F as (F1 & T & _). assert (O : opened anc x x') by (apply hid_open; [exact F1|]; intros t' T'; congruence).
  split; [exact F1|]. split; [exact T|]. split; [exact O|]. pose proof (o_kids _ _ _ O) as K. unfold tg in K. rewrite T in K. exact K.
Qed.
Lemma hid_specification up n n' : hid ("SPECIFICATIONS" :: up) n n' -> sim (hidden_specification sha) (parse_specification n) (parse_specification n').
Proof.
  intros H. pose proof (hid_open _ _ _ H ltac:(reflexivity)) as O. pose proof (o_kids _ _ _ O) as K0. unfold parse_specification. same H.
  rewrite !(hid_opt_ref _ _ _ _ _ K0) by (apply masked_other; reflexivity).
  apply sim_bind_eq. intros b. apply sim_bind_eq. intros _. apply sim_bind_eq. intros i.
  apply (sim_bind (fun o o' => map_list erase_hier o' = map_list erase_hier o)).
  { pose proof (hid_last _ "CHILDREN" n n' K0 ltac:(apply masked_other; reflexivity)) as F.
    destruct (last_child "CHILDREN" n) as [c|], (last_child "CHILDREN" n') as [c'|]; cbn in F; try contradiction; [|apply sim_ok; reflexivity].
    destruct F as (_ & _ & _ & K). apply (sim_bind (Forall2 hier_same)).
    - apply (sim_mapM (hid ("CHILDREN" :: tg n :: "SPECIFICATIONS" :: up))); [|exact K]. intros x y Hxy. apply (hid_hier _ _ _ _ _ Hxy eq_refl).
    - intros u v E. apply sim_ok. cbn. rewrite (erase_list _ _ E). reflexivity. }
  intros ch ch' EC. apply (sim_bind _ _ _ _ _ _ (hid_values _ _ _ O)). intros v v' EV. apply sim_ok.
  split; [reflexivity|]. split; [reflexivity|]. split; [reflexivity|].
  split; [|split; [|split; [exact EV|split; [reflexivity|exact EC]]]]; unfold called_specification; cbn [sp_xml_node sp_long_name].
  - intros (m & E & T). injection E as <-. apply (hid_secret _ _ _ _ _ H T); reflexivity.
  - intros N. apply (hid_attr _ _ _ _ H). intros t T. unfold secret. change (str_eqb "LONG-NAME" "THE-VALUE") with false. rewrite andb_false_r, orb_false_r.
    destruct (str_eqb_spec t "SPECIFICATION") as [->|]; [|reflexivity]. exfalso. apply N. eauto.
Qed.

(** ** The header *)
Lemma hid_child_text anc t n n' : Forall2 (hid anc) (children n) (children n') -> masked_here anc t = false -> child_text t n' = child_text t n.
Proof.
  intros H M. unfold child_text. pose proof (find_into _ t n n' H M) as F. destruct (find_child t n), (find_child t n'); cbn in F; try contradiction; [|reflexivity].
  destruct F as (_ & _ & O & _). apply (o_text _ _ _ O).
Qed.
Lemma hid_masked_text up t n n' : Forall2 (hid ("REQ-IF-HEADER" :: up)) (children n) (children n') -> t = "COMMENT" \/ t = "TITLE" ->
  both (digest sha) (child_text t n) (child_text t n').
Proof.
  intros H TT. unfold child_text. pose proof (find_both _ t n n' H) as F. destruct (find_child t n) as [x|], (find_child t n') as [x'|]; cbn in F; try contradiction; [|exact I].
  destruct F as [F T]. inversion F as [| |? ? ? ? ? ? ? ? ? s u L T1 T2 D|? ? ? ? ? ? ? ? ? D|? ? ns l d i a d' i' a' kids kids' anc' M P A F']; subst.
  1,2: discriminate T.
  - cbn [text]. rewrite T1, T2. exact D.
  - exfalso. cbn [tag] in T. injection T as T. subst anc'. rewrite T in M. destruct TT as [-> | ->]; discriminate M.
Qed.
Lemma hid_header up n n' : hid ("REQ-IF" :: up) n n' -> sim (hidden_header sha) (parse_header n) (parse_header n').
Proof.
  intros H. pose proof (hid_open _ _ _ H ltac:(reflexivity)) as O. pose proof (o_kids _ _ _ O) as K0. unfold parse_header. same H. apply sim_bind_eq. intros _.
  child "REQ-IF-HEADER" n n' K0 F; [|apply sim_raise]. destruct F as (H2 & _ & _ & K). same H2. apply sim_bind_eq. intros i.
  pose proof (find_into _ "REPOSITORY-ID" x x' K ltac:(reflexivity)) as F.
  apply sim_ok. unfold hidden_header. cbn. repeat split; try (apply (hid_child_text _ _ _ _ K); reflexivity); try (apply (hid_masked_text _ _ _ _ K); tauto).
  destruct (find_child "REPOSITORY-ID" x), (find_child "REPOSITORY-ID" x'); cbn in F; try contradiction; [|reflexivity].
  destruct F as (_ & _ & O2 & _). rewrite (o_text _ _ _ O2). reflexivity.
Qed.

(** ** Computations with progress reports *)
Definition simrun {A} (R : A -> A -> Prop) (m m' : M A) : Prop :=
  forall h h1 a, m h = (h1, Ok a) -> exists a', m' h = (h1, Ok a') /\ R a a'.
Lemma simrun_lift {A} (R : A -> A -> Prop) r r' : sim R r r' -> simrun R (lift r) (lift r').
Proof. intros H h h1 a E. unfold lift in *. injection E as <- E. destruct (H a E) as (b & -> & HR). eauto. Qed.
Lemma simrun_ret {A} (R : A -> A -> Prop) a a' : R a a' -> simrun R (ret a) (ret a').
Proof. intros H h h1 x E. unfold ret in *. injection E as <- <-. eauto. Qed.
Lemma simrun_bind {A B} (R : A -> A -> Prop) (S : B -> B -> Prop) m m' f f' :
  simrun R m m' -> (forall a a', R a a' -> simrun S (f a) (f' a')) -> simrun S (mbind m f) (mbind m' f').
Proof.
  intros H1 H2 h h1 b E. unfold mbind in *. destruct (m h) as [h2 r] eqn:EM. destruct r as [a|e]; [|discriminate E].
  destruct (H1 _ _ _ EM) as (a' & -> & HR). apply (H2 _ _ HR _ _ _ E).
Qed.
Lemma simrun_track {A S} (Q : A -> A -> Prop) (R : S -> S -> Prop) cb t l l' body s s' :
  (forall x x' s s', Q x x' -> R s s' -> sim R (body x s) (body x' s')) -> Forall2 Q l l' -> R s s' ->
  simrun R (track cb t l body s) (track cb t l' body s').
Proof.
  intros HB F. unfold track. assert (L : length l' = length l) by (clear -F; induction F; cbn; congruence). rewrite L. clear L. generalize (length l). intros total.
  revert s s'. generalize 0. induction F as [|x x' l l' Hx _ IH]; intros i s s' Hs; [apply simrun_ret, Hs|]. cbn [track_loop].
  apply (simrun_bind R); [apply simrun_lift, HB; assumption|]. intros a a' Ha.
  apply (simrun_bind eq); [|intros ? ? _; apply IH, Ha]. intros h h1 u E. exists u. auto.
Qed.
Lemma simrun_section {S} (R : S -> S -> Prop) cb t up n n' body s :
  Forall2 (hid up) (children n) (children n') -> masked_here up t = false ->
  (forall x x' s s', hid (t :: up) x x' -> R s s' -> sim R (body x s) (body x' s')) -> R s s ->
  simrun (fun a a' => fst a' = fst a /\ R (snd a) (snd a')) (section_ cb t n body s) (section_ cb t n' body s).
Proof.
  intros K T HB Hs. unfold section_. pose proof (find_into _ t n n' K T) as F.
  destruct (find_child t n), (find_child t n'); cbn in F; try contradiction; [|apply simrun_ret; auto].
  destruct F as (_ & _ & _ & K2). apply (simrun_bind R); [apply (simrun_track (hid (t :: up))); assumption|]. intros a a' Ha. apply simrun_ret. auto.
Qed.
Lemma keys_set {V} (R : V -> V -> Prop) d d' k v v' : same_keys R d d' -> R v v' -> same_keys R (dict_set d k v) (dict_set d' k v').
Proof.
  intros H HV. induction H as [|[k1 w1] [k2 w2] d d' [E HW] HD IH]; cbn in *; [constructor; [split; [reflexivity|exact HV]|constructor]|]. subst k2.
  destruct (ostr_eqb k k1); constructor; auto.
Qed.
Definition rels_hid (s s' : relation_state) : Prop :=
  Forall2 (hidden_relation sha) (fst (fst s)) (fst (fst s')) /\ snd (fst s') = snd (fst s) /\ Forall2 same_exception (snd s) (snd s').
Lemma hid_body_relation up x x' s s' :
  hid ("SPEC-RELATIONS" :: up) x x' -> rels_hid s s' -> sim rels_hid (spec_relation_body x s) (spec_relation_body x' s').
Proof.
  intros H (R1 & R2 & R3). destruct s as [[rs ps] es], s' as [[rs' ps'] es']. cbn [fst snd] in *. subst ps'.
  unfold spec_relation_body. pose proof (hid_spec_relation up x x' H) as G.
  destruct (parse_spec_relation x) as [r|e] eqn:E.
  - destruct (G r eq_refl) as (r' & -> & HR). pose proof HR as (_ & _ & S1 & S2 & _). rewrite S1, S2. apply sim_ok. split; [|split]; cbn [fst snd]; auto.
    apply Forall2_app; [exact R1|]. constructor; [exact HR|constructor].
  - destruct e as [| | | | | | | | | | | |m t|k]; try apply sim_raise. rewrite (hid_missing _ _ _ _ _ H E).
    assert (C : is_chr x' = false) by (rewrite (hid_chr_same _ _ _ H); destruct x; try reflexivity; discriminate E).
    pose proof (stringify_ok x' false C) as O. rewrite (hid_pi _ _ _ H) in O. destruct (stringify_node false x') as [u|]; [|discriminate O].
    intros a EA. destruct (stringify_node false m); [|discriminate EA]. cbn [bind] in *. injection EA as <-. eexists. split; [reflexivity|].
    split; [exact R1|]. split; [reflexivity|]. apply Forall2_app; [exact R3|]. constructor; [reflexivity|constructor].
Qed.
Lemma type_id t t' : hidden_type sha t t' -> st_identifier t' = st_identifier t.
Proof. destruct t, t'; cbn; intros H; try contradiction; apply H. Qed.
Lemma hid_content cb up n n' : hid ("CORE-CONTENT" :: up) n n' -> tag n = Some ("REQ-IF-CONTENT" : str) ->
  Forall2 (hid ("REQ-IF-CONTENT" :: "CORE-CONTENT" :: up)) (children n) (children n') ->
  simrun (fun a a' => hidden_content sha (fst (fst a)) (fst (fst a')) /\ hidden_lookup sha (snd (fst a)) (snd (fst a'))
                      /\ Forall2 same_exception (snd a) (snd a'))
    (parse_reqif_content cb n) (parse_reqif_content cb n').
Proof.
  intros H T K. unfold parse_reqif_content. same H.
  apply (simrun_bind eq); [apply simrun_lift, sim_refl|]. intros _ _ _.
  apply (simrun_bind (fun a a' => fst a' = fst a /\ snd a = snd a')).
  { apply (simrun_section eq _ _ _ _ _ _ _ K); try reflexivity. intros x x' s s' Hx <-. unfold data_type_body.
    apply (sim_bind _ _ _ _ _ _ (hid_data_type _ _ _ Hx)). intros d d' <-. apply sim_refl. }
  intros [b1 [dts dtl]] [b1' [dts' dtl']] [E1 E2]. cbn [fst snd] in *. injection E2 as <- <-. subst b1'.
  apply (simrun_bind (fun a a' => fst a' = fst a /\ (Forall2 (hidden_type sha) (fst (snd a)) (fst (snd a')) /\ same_keys (hidden_type sha) (snd (snd a)) (snd (snd a'))))).
  { apply (simrun_section (fun s s' => Forall2 (hidden_type sha) (fst s) (fst s') /\ same_keys (hidden_type sha) (snd s) (snd s')) _ _ _ _ _ _ _ K);
      [reflexivity| |split; constructor]. intros x x' [s1 s2] [s1' s2'] Hx [R1 R2]. cbn [fst snd] in *. unfold spec_type_body.
    apply (sim_bind _ _ _ _ _ _ (hid_spec_type _ _ _ Hx)). intros [t|] [t'|] E; cbn in E; try contradiction; [|apply sim_ok; auto].
    apply sim_ok. cbn [fst snd]. rewrite (type_id _ _ E). split; [apply Forall2_app; [exact R1|constructor; [exact E|constructor]]|apply keys_set; assumption]. }
  intros [b2 [sts stl]] [b2' [sts' stl']] [E1 [E2 E3]]. cbn [fst snd] in *. subst b2'.
  apply (simrun_bind (fun a a' => fst a' = fst a /\ Forall2 (hidden_specification sha) (snd a) (snd a'))).
  { apply (simrun_section (Forall2 (hidden_specification sha)) _ _ _ _ _ _ _ K); [reflexivity| |constructor]. intros x x' s s' Hx R. unfold specification_body.
    apply (sim_bind _ _ _ _ _ _ (hid_specification _ _ _ Hx)). intros y y' E. apply sim_ok, Forall2_app; [exact R|constructor; [exact E|constructor]]. }
  intros [b3 sps] [b3' sps'] [E1 E4]. cbn [fst snd] in *. subst b3'.
  apply (simrun_bind (fun a a' => fst a' = fst a /\ rels_hid (snd a) (snd a'))).
  { apply (simrun_section rels_hid _ _ _ _ _ _ _ K); [reflexivity|apply hid_body_relation|]. repeat split; constructor. }
  intros [b4 [[srs par] exs]] [b4' [[srs' par'] exs']] [E1 (E5 & E6 & E7)]. cbn [fst snd] in *. subst b4' par'.
  apply (simrun_bind (fun a a' => fst a' = fst a /\ (Forall2 (hidden_object sha) (fst (snd a)) (fst (snd a')) /\ same_keys (hidden_object sha) (snd (snd a)) (snd (snd a'))))).
  { apply (simrun_section (fun s s' => Forall2 (hidden_object sha) (fst s) (fst s') /\ same_keys (hidden_object sha) (snd s) (snd s')) _ _ _ _ _ _ _ K);
      [reflexivity| |split; constructor]. intros x x' [s1 s2] [s1' s2'] Hx [R1 R2]. cbn [fst snd] in *. unfold spec_object_body. same Hx.
    destruct (is_comment x); [apply sim_ok; auto|].
    apply (sim_bind _ _ _ _ _ _ (hid_spec_object _ _ _ Hx)). intros o o' E. apply sim_ok. cbn [fst snd]. rewrite (proj1 E).
    split; [apply Forall2_app; [exact R1|constructor; [exact E|constructor]]|apply keys_set; assumption]. }
  intros [b5 [sos sol]] [b5' [sos' sol']] [E1 [E8 E9]]. cbn [fst snd] in *. subst b5'.
  apply (simrun_bind (fun a a' => fst a' = fst a /\ snd a = snd a')).
  { apply (simrun_section eq _ _ _ _ _ _ _ K); try reflexivity. intros x x' s s' Hx <-. unfold relation_group_body.
    apply (sim_bind _ _ _ _ _ _ (hid_group _ _ _ Hx)). intros d d' <-. apply sim_refl. }
  intros [b6 rgs] [b6' rgs'] [E1 E10]. cbn [fst snd] in *. subst b6' rgs'.
  apply simrun_ret. cbn [fst snd]. split; [|split; [|exact E7]].
  - unfold hidden_content. cbn [rc_data_types rc_spec_types rc_spec_objects rc_spec_relations rc_specifications rc_spec_relation_groups].
    unfold when_. destruct b2, b3, b4, b5; cbn [both]; repeat split; assumption.
  - unfold hidden_lookup. cbn [lk_data_types lk_spec_types lk_spec_objects lk_parents lk_parents_default]. auto 6.
Qed.

(** ** Documents: the children of the root *)
Definition hid_top (k k' : node) : Prop :=
  hid ["REQ-IF"] k k'
  \/ tag k' = tag k /\ is_chr k = false /\ is_chr k' = false /\ tag k <> Some ("THE-HEADER" : str) /\ tag k <> Some ("CORE-CONTENT" : str).
Lemma top_tag k k' : hid_top k k' -> tag k' = tag k.
Proof. intros [H|H]; [apply (hid_tag _ _ _ H)|apply H]. Qed.
Lemma top_find t l l' : Forall2 hid_top l l' -> t = "THE-HEADER" \/ t = "CORE-CONTENT" ->
  both (fun x x' => hid ["REQ-IF"] x x' /\ tag x = Some t) (find_list t l) (find_list t l').
Proof.
  intros H T. unfold find_list. induction H as [|x y l l' Hxy _ IH]; [exact I|]. cbn [find].
  assert (E : tag_is t y = tag_is t x) by (unfold tag_is; rewrite (top_tag _ _ Hxy); reflexivity). rewrite E.
  destruct (tag_is t x) eqn:EX; [|exact IH]. apply tag_is_eq in EX. cbn. destruct Hxy as [Hxy|(_ & _ & _ & N1 & N2)]; [auto|]. destruct T; subst t; contradiction.
Qed.
Lemma top_exists t l l' : Forall2 hid_top l l' -> both (fun _ _ => True) (find_list t l) (find_list t l').
Proof.
  intros H. unfold find_list. induction H as [|x y l l' Hxy _ IH]; [exact I|]. cbn [find].
  assert (E : tag_is t y = tag_is t x) by (unfold tag_is; rewrite (top_tag _ _ Hxy); reflexivity). rewrite E. destruct (tag_is t x); [exact I|exact IH].
Qed.
Lemma top_children l l' : Forall2 hid_top l l' -> Forall2 hid_top (filter (fun k => negb (is_chr k)) l) (filter (fun k => negb (is_chr k)) l').
Proof.
  intros H. induction H as [|x y l l' Hxy _ IH]; [constructor|]. cbn [filter].
  assert (E : is_chr y = is_chr x) by (destruct Hxy as [Hxy|(_ & E1 & E2 & _)]; [apply (hid_chr_same _ _ _ Hxy)|congruence]). rewrite E.
  destruct (negb (is_chr x)); [constructor; assumption|exact IH].
Qed.
Definition same_front (n n' : node) : Prop :=
  match n, n' with El ns l d i a _, El ns' l' d' i' a' _ => ns' = ns /\ l' = l /\ d' = d /\ i' = i /\ a' = a | _, _ => False end.
Lemma hid_reqif cb decl root root' m m' :
  same_front root root' -> strip_if_namespaced root = Ok m -> strip_if_namespaced root' = Ok m' ->
  tag m' = tag m -> attrib m' = attrib m -> Forall2 hid_top (kids_of m) (kids_of m') ->
  simrun (hidden_bundle sha) (parse_reqif cb decl root) (parse_reqif cb decl root').
Proof.
  intros SF S1 S2 T A K. unfold parse_reqif. rewrite S1, S2.
  assert (EN : namespace_info_of decl root' m' = namespace_info_of decl root m).
  { unfold namespace_info_of, attr_opt. rewrite A. destruct root, root'; cbn in SF; try contradiction. destruct SF as (-> & -> & -> & -> & ->). reflexivity. }
  apply (simrun_bind (fun a a' => a = m /\ a' = m')); [apply simrun_lift, sim_ok; auto|]. intros ? ? [-> ->].
  unfold tag_is at 1 2. rewrite T. fold (tag_is "REQ-IF" m). rewrite EN.
  destruct (negb (tag_is "REQ-IF" m)); [apply simrun_lift, sim_raise|].
  pose proof (top_children _ _ K) as KC. change (filter _ (kids_of m)) with (children m) in KC. change (filter _ (kids_of m')) with (children m') in KC.
  destruct KC; [apply simrun_ret; repeat split; constructor|].
  apply (simrun_bind (both (hidden_header sha))).
  { apply simrun_lift. pose proof (top_find "THE-HEADER" _ _ K (or_introl eq_refl)) as F. unfold find_child.
    destruct (find_list "THE-HEADER" (kids_of m)), (find_list "THE-HEADER" (kids_of m')); cbn in F; try contradiction; [|apply sim_ok; exact I].
    apply (sim_bind _ _ _ _ _ _ (hid_header _ _ _ (proj1 F))). intros a b E. apply sim_ok, E. }
  intros hdr hdr' EH.
  apply (simrun_bind (fun a a' => both (both (hidden_content sha)) (fst (fst a)) (fst (fst a')) /\ hidden_lookup sha (snd (fst a)) (snd (fst a')) /\ Forall2 same_exception (snd a) (snd a'))).
  { pose proof (top_find "CORE-CONTENT" _ _ K (or_intror eq_refl)) as F. unfold find_child at 1 3.
    destruct (find_list "CORE-CONTENT" (kids_of m)) as [c|], (find_list "CORE-CONTENT" (kids_of m')) as [c'|]; cbn in F; try contradiction; [|apply simrun_ret; repeat split; constructor].
    destruct F as [F TC]. pose proof (hid_open _ _ _ F ltac:(reflexivity)) as O. pose proof (o_kids _ _ _ O) as KK. unfold tg in KK. rewrite TC in KK.
    child "REQ-IF-CONTENT" c c' KK G; [|apply simrun_ret; repeat split; constructor]. destruct G as (G1 & G2 & _ & G3).
    apply (simrun_bind _ _ _ _ _ _ (hid_content cb _ _ _ G1 G2 G3)). intros [[ct lk] ex] [[ct' lk'] ex'] (E1 & E2 & E3). cbn [fst snd] in *. apply simrun_ret. auto. }
  intros [[core lk] ex] [[core' lk'] ex'] (E1 & E2 & E3). cbn [fst snd] in *. apply simrun_ret.
  unfold hidden_bundle. cbn [b_namespace_info b_header b_core_content b_tool_extensions b_lookup b_exceptions].
  split; [reflexivity|]. split; [exact EH|]. split; [exact E1|]. split; [|split; [exact E2|exact E3]].
  pose proof (top_exists "TOOL-EXTENSIONS" _ _ K) as F. unfold find_child. destruct (find_list "TOOL-EXTENSIONS" (kids_of m)), (find_list "TOOL-EXTENSIONS" (kids_of m')); cbn in F; try contradiction; reflexivity.
Qed.
End Hide.
