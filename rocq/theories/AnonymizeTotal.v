(** AnonymizeTotal.v -- when the anonymisation of a tree succeeds *)
From Verif Require Import Base Xml Utf8 Lxml Py LxmlStr Parser Serialise Anonymize SpecXml SpecAnonymize SpecAnonymizable XmlProofs Utf8Proofs XmlChars
  GrammarProofs DictProofs ParserProofs SerialiseProofs AnonymizeProofs Prop_Anonymize.

(** ** Text that can be encoded *)
Definition sc (s : str) : Prop := forallb is_scalar s = true.
Lemma sc_app a b : sc (a ++ b) <-> sc a /\ sc b.
Proof. unfold sc. rewrite forallb_app, andb_true_iff. tauto. Qed.
Lemma sc_cons c s : sc (c :: s) <-> is_scalar c = true /\ sc s.
Proof. unfold sc. cbn [forallb]. rewrite andb_true_iff. tauto. Qed.
Lemma sc_char s : Forall char s -> sc s.
Proof. intros H. apply forallb_forall. intros c Hc. rewrite Forall_forall in H. apply xml_scalar, char_ok, H, Hc. Qed.
Lemma sc_replace c new s : sc new -> sc s -> sc (replace_char c new s).
Proof.
  intros HN. unfold replace_char. induction s as [|x s IH]; intros H; [reflexivity|]. apply sc_cons in H as [H1 H2].
  cbn [flat_map]. apply sc_app. split; [destruct (N.eqb x c); [exact HN|apply sc_cons; split; [exact H1|reflexivity]]|apply IH, H2].
Qed.
Lemma sc_escape s : sc s -> sc (lxml_escape_for_html s).
Proof. intros H. unfold lxml_escape_for_html. cbv zeta. repeat apply sc_replace; try reflexivity. exact H. Qed.
Lemma anonymize_sc sha s : sc s -> exists r, anonymize_string sha s = Ok r.
Proof. intros H. unfold anonymize_string, utf8_encode. rewrite H. eauto. Qed.

Definition sc_def (d : nsref) : Prop := sc (snd d) /\ match fst d with Some p => sc p | None => True end.
Inductive clean : node -> Prop :=
| clean_chr c : is_scalar c = true -> clean (Chr c)
| clean_cmt s : clean (Cmt s)
| clean_pin s : clean (Pin s)
| clean_el ns l d i a ks :
    sc l -> sc (clark ns l) -> Forall sc_def (extend d i) -> extend d i <> [] ->
    Forall (fun x => sc (a_key x) /\ sc (a_val x)) a -> Forall clean ks -> clean (El ns l d i a ks).
Lemma sc_get m k u : Forall sc_def m -> ns_get m k = Some u -> sc u.
Proof.
  unfold ns_get. induction 1 as [|[k' v] m [H1 _] _ IH]; cbn [dict_get]; [discriminate|].
  destruct (ostr_eqb _ _); [intros E; injection E as <-; exact H1|exact IH].
Qed.
Lemma fmt_sc o : match o with Some p => sc p | None => True end -> sc (fmt o).
Proof. destruct o; [auto|reflexivity]. Qed.
Lemma print_attrs_sc n : clean n -> sc (print_attrs n).
Proof.
  intros [| | |ns l d i a ks _ _ _ _ H _]; try reflexivity. unfold print_attrs, attrib.
  induction H as [|x a [H1 H2] _ IH]; [reflexivity|]. cbn [map flat_map fst snd]. rewrite !sc_app.
  repeat split; try reflexivity; try exact H1; [apply sc_escape, H2|exact IH].
Qed.

(** ** The markup of a formatted value *)
Fixpoint bareb (n : node) : bool :=
  match n with Chr _ => true | El _ _ _ _ _ ks => forallb bareb ks | _ => false end.
Lemma bareb_bare n : bareb n = true <-> bare n.
Proof.
  induction n as [c|s|s|ns l d i a ks IH] using node_ind'; cbn [bareb].
  - split; [constructor|reflexivity].
  - split; [discriminate|inversion 1].
  - split; [discriminate|inversion 1].
  - rewrite forallb_forall. rewrite Forall_forall in IH. split.
    + intros H. constructor. rewrite Forall_forall. intros k Hk. apply IH; auto.
    + intros H. inversion H; subst. rewrite Forall_forall in *. intros k Hk. apply IH; auto.
Qed.
Definition go_kids (nskey : option str) (forced : bool) : list node -> result str :=
  fix go (ks : list node) : result str :=
     match ks with
     | [] => Ok []
     | Chr c :: ks' => let! r := go ks' in Ok (lxml_escape_for_html [c] ++ r)
     | k :: ks' => let! s := stringify_ns_node nskey forced k in
                   let! r := go ks' in Ok (s ++ r)
     end.
Definition stringifies (nskey : option str) (forced : bool) (n : node) : Prop :=
  match n with
  | Chr _ => True
  | _ => if bareb n then exists s, stringify_ns_node nskey forced n = Ok s /\ sc s
         else stringify_ns_node nskey forced n = Raise EValueError
  end.
Lemma go_kids_outcome nskey forced ks : Forall clean ks -> Forall (stringifies nskey forced) ks ->
  if forallb bareb ks then exists s, go_kids nskey forced ks = Ok s /\ sc s
  else go_kids nskey forced ks = Raise EValueError.
Proof.
  intros HC HS. revert HC. induction HS as [|k ks Hk _ IH]; intros HC; [exists []; split; reflexivity|].
  inversion HC as [|? ? C1 C2]; subst. specialize (IH C2). cbn [forallb].
  destruct k as [c|ns l d i a kk|s|s]; cbn [go_kids].
  - change (bareb (Chr c)) with true. cbn [andb]. fold (go_kids nskey forced). destruct (forallb bareb ks).
    + destruct IH as (s & -> & H). eexists. split; [reflexivity|]. apply sc_app. split; [|exact H].
      apply sc_escape. inversion C1; subst. apply sc_cons. split; [assumption|reflexivity].
    + rewrite IH. reflexivity.
  - unfold stringifies in Hk. fold (go_kids nskey forced). destruct (bareb (El ns l d i a kk)).
    + destruct Hk as (s1 & -> & H1). cbn [andb bind]. destruct (forallb bareb ks).
      * destruct IH as (s & -> & H). eexists. split; [reflexivity|]. apply sc_app. auto.
      * rewrite IH. reflexivity.
    + cbn [andb]. rewrite Hk. reflexivity.
  - unfold stringifies in Hk. change (bareb (Cmt s)) with false in *. cbn [andb]. rewrite Hk. reflexivity.
  - unfold stringifies in Hk. change (bareb (Pin s)) with false in *. cbn [andb]. rewrite Hk. reflexivity.
Qed.
Lemma stringify_outcome nskey forced : sc (fmt nskey) -> forall n, clean n -> stringifies nskey forced n.
Proof.
  intros HF. induction n as [c|s|s|ns l d i a ks IH] using node_ind'; intros HC; try exact I; try reflexivity.
  inversion HC as [| | |? ? ? ? ? ? H1 H2 H3 H4 H5 H6]; subst. pose proof (print_attrs_sc _ HC) as HP.
  assert (G : if forallb bareb ks then exists s, go_kids nskey forced ks = Ok s /\ sc s
              else go_kids nskey forced ks = Raise EValueError).
  { apply go_kids_outcome; [exact H6|]. rewrite Forall_forall in *. intros k Hk. apply IH; auto. }
  unfold stringifies. cbn [bareb stringify_ns_node]. fold (go_kids nskey forced).
  set (own_ns := match ns with Some (_, u) => _ | None => false end).
  set (tag_ := if own_ns then l else _).
  assert (HT : sc tag_).
  { unfold tag_. destruct own_ns; [exact H1|]. destruct (_ || _); [|exact H2]. rewrite !sc_app. repeat split; auto. }
  set (head := "<" ++ tag_ ++ _ ++ _).
  assert (HH : sc head).
  { unfold head. rewrite !sc_app. repeat split; auto. destruct own_ns; [|reflexivity]. rewrite !sc_app. repeat split.
    destruct (ns_get (extend d i) None) as [u|] eqn:E; [apply (sc_get _ _ _ H3 E)|reflexivity]. }
  unfold needs_close. destruct ks as [|k ks].
  - cbn [forallb]. destruct (str_eqb _ _); eexists; (split; [reflexivity|]).
    + rewrite !sc_app. repeat split; auto.
    + rewrite !sc_app. repeat split; auto.
  - destruct (forallb bareb (k :: ks)).
    + destruct G as (s & -> & HS). eexists. split; [reflexivity|]. rewrite !sc_app. repeat split; auto.
    + rewrite G. reflexivity.
Qed.

(** ** Parsed documents are clean *)
Lemma extend_env d m : Forall sc_def d -> Forall sc_def m -> Forall sc_def (extend d m).
Proof. intros H1 H2. unfold extend. apply Forall_app. split; [exact H1|].
  rewrite Forall_forall in *. intros x HX. apply filter_In in HX as [HX _]. auto. Qed.
Lemma extend_nil d m : extend d m = [] -> d = [] /\ m = [].
Proof.
  unfold extend. intros H. apply app_eq_nil in H as [-> H]. split; [reflexivity|].
  destruct m as [|x m]; [reflexivity|discriminate H].
Qed.
Lemma name_sc n : name n -> sc n.
Proof. intros H. apply sc_char, GrammarDoc.name_chars, H. Qed.
Lemma qualified_sc p l : sc (qualified p l) -> sc l /\ match p with Some q => sc q | None => True end.
Proof. destruct p as [q|]; cbn [qualified]; [|auto]. rewrite !sc_app. tauto. Qed.
Lemma elem_ns_sc m p ns : Forall sc_def m -> elem_ns m p = Some ns -> forall q u, ns = Some (q, u) -> sc u.
Proof.
  intros HM. unfold elem_ns. intros H q u ->. destruct p as [x|].
  - destruct (str_eqb x "xml"); [injection H as <- <-; reflexivity|].
    destruct (ns_get m (Some x)) as [v|] eqn:E; [|discriminate]. injection H as <- <-. apply (sc_get _ _ _ HM E).
  - destruct (ns_get m None) as [v|] eqn:E; [|discriminate]. pose proof (sc_get _ _ _ HM E) as V. destruct v; [discriminate|]. injection H as <- <-. exact V.
Qed.
Lemma clark_sc ns l : (forall q u, ns = Some (q, u) -> sc u) -> sc l -> sc (clark ns l).
Proof. intros H HL. destruct ns as [[q u]|]; cbn [clark]; [|exact HL]. rewrite !sc_app. repeat split; auto. apply (H q u eq_refl). Qed.
Lemma attrs_sc m raw : forall aa, Forall sc_def m -> map_opt (resolve_attr m) raw = Some aa ->
  forall x, In x (concat aa) -> forall q u, a_ns x = Some (q, u) -> sc u.
Proof.
  induction raw as [|kv raw IH]; intros aa HM H x HX q u HU.
  - injection H as <-. destruct HX.
  - change (map_opt (resolve_attr m) (kv :: raw)) with (match resolve_attr m kv with Some z => match map_opt (resolve_attr m) raw with Some zs => Some (z :: zs) | None => None end | None => None end) in H.
    destruct (resolve_attr m kv) as [z|] eqn:EZ; [|discriminate]. destruct (map_opt (resolve_attr m) raw) as [zs|] eqn:ES; [|discriminate]. injection H as <-.
    cbn [concat] in HX. apply in_app_iff in HX as [HX|HX]; [|apply (IH zs HM eq_refl x HX q u HU)].
    unfold resolve_attr in EZ. destruct (decl_of (fst kv)); [injection EZ as <-; destruct HX|].
    destruct (qname (fst kv)) as [[p l]|]; [|discriminate]. destruct (attr_ns m p) as [n|] eqn:EN; [|discriminate]. injection EZ as <-.
    destruct HX as [<-|[]]. cbn [a_ns] in HU. unfold attr_ns in EN. destruct p as [p|]; [|congruence]. apply (elem_ns_sc _ _ _ HM EN q u HU).
Qed.
Lemma sound_clean : forall n env, sound n -> resolvable env n -> Forall sc_def env -> (is_el_ n -> node_nsmap n <> []) -> clean n.
Proof.
  induction n as [c|s|s|ns l d i a ks IH] using node_ind'; intros env HS HR HE HN; try constructor.
  - inversion HS; subst. apply xml_scalar, char_ok. assumption.
  - inversion HS as [| | |? ? ? ? ? ? S1 S2 S3 S4]; subst. apply name_sc, qualified_sc in S1. apply S1.
  - inversion HS as [| | |? ? ? ? ? ? S1 S2 S3 S4]; subst. inversion HR as [| | |? ? ? ? ? ? R1 R2]; subst.
    assert (HD : Forall sc_def d).
    { eapply Forall_impl; [|exact S2]. intros [p u] [D1 D2]. split; [apply sc_char, D2|]. cbn [fst] in *. destruct p as [p|]; [|exact I].
      apply name_sc in D1. unfold def_name in D1. change (sc ("xmlns:" ++ p)) in D1. apply sc_app in D1. apply D1. }
    apply clark_sc; [|apply name_sc, qualified_sc in S1; apply S1]. intros q u ->.
    unfold head_resolves in R1. cbn [resolve] in R1. destruct (nodupb _); [|discriminate]. cbn [negb] in R1. destruct (forallb decl_allowed _); [|discriminate]. cbn [negb] in R1.
    destruct (qname _) as [[p0 l0]|]; [|discriminate]. destruct (elem_ns _ p0) as [n0|] eqn:EN; [|discriminate].
    destruct (map_opt _ _) as [aa|] eqn:EA; [|discriminate]. destruct (nodupb _); [|discriminate]. cbn [negb] in R1.
    change (map_opt (resolve _) []) with (Some (@nil node)) in R1. cbv iota in R1.
    assert (E1 : n0 = Some (q, u)) by congruence. assert (E2 : decls (raw_attrs d a) = d) by congruence. rewrite E2 in EN.
    apply (elem_ns_sc _ _ _ (extend_env _ _ HD HE) EN q u E1).
  - inversion HS as [| | |? ? ? ? ? ? S1 S2 S3 S4]; subst. inversion HR as [| | |? ? ? ? ? ? R1 R2]; subst.
    apply extend_env; [|exact HE].
    eapply Forall_impl; [|exact S2]. intros [p u] [D1 D2]. split; [apply sc_char, D2|]. cbn [fst] in *. destruct p as [p|]; [|exact I].
    apply name_sc in D1. unfold def_name in D1. change (sc ("xmlns:" ++ p)) in D1. apply sc_app in D1. apply D1.
  - apply HN. exact I.
  - inversion HS as [| | |? ? ? ? ? ? S1 S2 S3 S4]; subst. inversion HR as [| | |? ? ? ? ? ? R1 R2]; subst.
    assert (HD : Forall sc_def d).
    { eapply Forall_impl; [|exact S2]. intros [p u] [D1 D2]. split; [apply sc_char, D2|]. cbn [fst] in *. destruct p as [p|]; [|exact I].
      apply name_sc in D1. unfold def_name in D1. change (sc ("xmlns:" ++ p)) in D1. apply sc_app in D1. apply D1. }
    unfold head_resolves in R1. cbn [resolve] in R1. destruct (nodupb _); [|discriminate]. cbn [negb] in R1. destruct (forallb decl_allowed _); [|discriminate]. cbn [negb] in R1.
    destruct (qname _) as [[p0 l0]|]; [|discriminate]. destruct (elem_ns _ p0) as [n0|] eqn:EN; [|discriminate].
    destruct (map_opt _ _) as [aa|] eqn:EA; [|discriminate]. destruct (nodupb _); [|discriminate]. cbn [negb] in R1.
    change (map_opt (resolve _) []) with (Some (@nil node)) in R1. cbv iota in R1.
    assert (E1 : concat aa = a) by congruence. assert (E2 : decls (raw_attrs d a) = d) by congruence. rewrite E2 in EA.
    rewrite Forall_forall in S3 |- *. intros x HX. destruct (S3 x HX) as [N1 N2]. split; [|apply sc_char, N2].
    apply name_sc, qualified_sc in N1. apply clark_sc; [|apply N1]. intros q u HU.
    apply (attrs_sc _ _ aa (extend_env _ _ HD HE) EA x) with (q := q); [rewrite E1; exact HX|exact HU].
  - inversion HS as [| | |? ? ? ? ? ? S1 S2 S3 S4]; subst. inversion HR as [| | |? ? ? ? ? ? R1 R2]; subst.
    assert (HD : Forall sc_def d).
    { eapply Forall_impl; [|exact S2]. intros [p u] [D1 D2]. split; [apply sc_char, D2|]. cbn [fst] in *. destruct p as [p|]; [|exact I].
      apply name_sc in D1. unfold def_name in D1. change (sc ("xmlns:" ++ p)) in D1. apply sc_app in D1. apply D1. }
    specialize (HN I). cbn [node_nsmap] in HN.
    pose proof (extend_env _ _ HD HE) as HX. rewrite Forall_forall in IH, S4, R2 |- *. intros k Hk. apply (IH k Hk (extend d i)); auto.
    intros HK E. pose proof (R2 k Hk) as RK. destruct k as [|ns' l' d' i' a' ks'| |]; try contradiction. inversion RK; subst.
    cbn [node_nsmap] in E. apply extend_nil in E as [_ E]. contradiction.
Qed.

(** ** One pass *)
Definition nonchr (ks : list node) : list node := filter (fun k => negb (is_chr k)) ks.
Inductive shape : node -> node -> Prop :=
| shape_chr c c' : shape (Chr c) (Chr c')
| shape_cmt s : shape (Cmt s) (Cmt s)
| shape_pin s : shape (Pin s) (Pin s)
| shape_el ns l d i a a' ks ks' :
    (lead ks = [] <-> lead ks' = []) -> Forall2 shape (nonchr ks) (nonchr ks') -> shape (El ns l d i a ks) (El ns l d i a' ks').
Lemma shape_is_chr n n' : shape n n' -> is_chr n = is_chr n'.
Proof. intros []; reflexivity. Qed.
Lemma shape_kids ks ks' : Forall2 shape ks ks' -> (lead ks = [] <-> lead ks' = []) /\ Forall2 shape (nonchr ks) (nonchr ks').
Proof.
  induction 1 as [|k k' ks ks' H _ [IH1 IH2]]; [split; [tauto|constructor]|].
  unfold nonchr in *. cbn [filter]. rewrite <- (shape_is_chr _ _ H).
  split; [|destruct (is_chr k); cbn [negb]; [exact IH2|constructor; assumption]].
  destruct H; cbn [lead]; split; intros; congruence.
Qed.
Fixpoint okb (sel : option node -> node -> bool) (bad : node -> bool) (par : option node) (n : node) : bool :=
  match n with
  | El _ _ _ _ _ ks => forallb (okb sel bad (Some n)) ks && negb (sel par n && bad n)
  | _ => true
  end.
Section Pass.
  Context (R : node -> node -> Prop) (sel : option node -> node -> bool) (act : node -> node -> result node)
          (bad : node -> bool) (e : exn).
  Context (R_leaf : forall n, match n with El _ _ _ _ _ _ => True | _ => R n n end).
  Context (R_el : forall ns l d i a ks ks', Forall2 R ks ks' -> R (El ns l d i a ks) (El ns l d i a ks')).
  Context (fails : forall ns l d i a ks ks', Forall2 R ks ks' -> clean (El ns l d i a ks) -> bad (El ns l d i a ks) = true ->
             act (El ns l d i a ks) (El ns l d i a ks') = Raise e).
  Context (works : forall ns l d i a ks ks', Forall2 R ks ks' -> clean (El ns l d i a ks) -> Forall clean ks' -> bad (El ns l d i a ks) = false ->
             exists n', act (El ns l d i a ks) (El ns l d i a ks') = Ok n' /\ clean n' /\ R (El ns l d i a ks) n').
  Lemma pass_outcome : forall n par, clean n ->
    if okb sel bad par n then exists n', update_each sel act par n = Ok n' /\ clean n' /\ R n n'
    else update_each sel act par n = Raise e.
  Proof.
    induction n as [c|s|s|ns l d i a ks IH] using node_ind'; intros par HC; cbn [okb];
      try match goal with |- context [update_each _ _ _ ?m] => exists m; split; [reflexivity|]; split; [exact HC|exact (R_leaf m)] end.
    cbn [update_each]. set (self := El ns l d i a ks).
    inversion HC as [| | |? ? ? ? ? ? H1 H2 H3 H4 H5 H6]; subst.
    assert (K : if forallb (okb sel bad (Some self)) ks
                then exists ks', mapM (update_each sel act (Some self)) ks = Ok ks' /\ Forall clean ks' /\ Forall2 R ks ks'
                else mapM (update_each sel act (Some self)) ks = Raise e).
    { clearbody self. clear - IH H6. induction IH as [|k ks Hk _ IHk]; [exists []; repeat constructor|].
      inversion H6; subst. cbn [forallb mapM]. specialize (Hk (Some self) H1). specialize (IHk H2).
      destruct (okb sel bad (Some self) k).
      - destruct Hk as (k' & -> & C & RR). cbn [andb bind]. destruct (forallb (okb sel bad (Some self)) ks).
        + destruct IHk as (ks' & -> & CC & RK). exists (k' :: ks'). split; [reflexivity|]. split; constructor; assumption.
        + rewrite IHk. reflexivity.
      - rewrite Hk. reflexivity. }
    destruct (forallb (okb sel bad (Some self)) ks).
    - destruct K as (ks' & -> & CC & RK). cbn [bind andb]. change (with_kids self ks') with (El ns l d i a ks').
      destruct (sel par self); cbn [andb negb].
      + destruct (bad self) eqn:EB; cbn [negb].
        * apply fails; assumption.
        * apply works; assumption.
      + eexists. split; [reflexivity|]. split; [constructor; assumption|apply R_el, RK].
    - rewrite K. reflexivity.
  Qed.
End Pass.

(** ** The five passes *)
Definition textless (n : node) : bool := match text n with None => true | Some _ => false end.
Lemma clean_lead ks : Forall clean ks -> sc (lead ks).
Proof. induction 1 as [|k ks H _ IH]; [reflexivity|]. destruct k; try reflexivity. cbn [lead]. apply sc_cons. inversion H; auto. Qed.
Lemma clean_chars s : sc s -> Forall clean (map Chr s).
Proof. induction s as [|c s IH]; intros H; [constructor|]. apply sc_cons in H as [H1 H2]. constructor; [constructor; exact H1|apply IH, H2]. Qed.
Lemma shape_leaf n : match n with El _ _ _ _ _ _ => True | _ => shape n n end.
Proof. destruct n; constructor. Qed.
Lemma shape_els ns l d i a a' ks ks' : Forall2 shape ks ks' -> shape (El ns l d i a ks) (El ns l d i a' ks').
Proof. intros H. apply shape_kids in H as [H1 H2]. constructor; assumption. Qed.
Lemma anonymized_sc sha s r : anonymize_string sha s = Ok r -> sc r /\ r <> [].
Proof. intros H. apply anonymized_text in H as (A & _ & B). split; [apply sc_char, B|exact A]. Qed.
Lemma text_pass sha sel n : clean n ->
  if okb sel textless None n then exists n', update_each sel (act_text sha) None n = Ok n' /\ clean n' /\ shape n n'
  else update_each sel (act_text sha) None n = Raise EAttributeError.
Proof.
  apply (pass_outcome shape sel (act_text sha) textless EAttributeError shape_leaf).
  - intros. apply shape_els. assumption.
  - intros ns l d i a ks ks' H _ HB. apply shape_kids in H as [H _]. unfold textless, act_text in *. cbn [text] in *.
    destruct (lead ks); [|discriminate]. rewrite (proj1 H eq_refl). reflexivity.
  - intros ns l d i a ks ks' H HC HK HB. apply shape_kids in H as [H H']. unfold textless, act_text in *. cbn [text] in *.
    destruct (lead ks') as [|c s] eqn:EL.
    { rewrite (proj2 H eq_refl) in HB. discriminate. }
    cbn [opt_text]. pose proof (clean_lead _ HK) as SL. rewrite EL in SL. destruct (anonymize_sc sha _ SL) as [r ER]. rewrite ER.
    destruct (anonymized_sc _ _ _ ER) as [SR NR]. cbn [bind]. eexists. split; [reflexivity|]. unfold set_text. cbn [with_kids kids_of].
    inversion HC; subst. split.
    + constructor; auto. apply Forall_app. split; [apply clean_chars, SR|]. rewrite Forall_forall in HK |- *. intros k Hk. apply HK, in_after_lead, Hk.
    + constructor.
      * destruct r as [|x r]; [congruence|]. cbn [map app lead]. split; [intros E; rewrite E in HB; discriminate|discriminate].
      * unfold nonchr. rewrite filter_app, no_chr, children_after_lead. exact H'.
Qed.
Lemma replace_clean k v a : sc v -> Forall (fun x => sc (a_key x) /\ sc (a_val x)) a -> Forall (fun x => sc (a_key x) /\ sc (a_val x)) (replace_attr k v a).
Proof.
  intros HV. induction 1 as [|x a [H1 H2] H IH]; cbn [replace_attr]; [constructor|]. destruct (str_eqb k (a_key x)); constructor; auto.
Qed.
Lemma attr_pass sha k sel n : clean n ->
  exists n', update_each sel (act_attr sha k) None n = Ok n' /\ clean n' /\ shape n n'.
Proof.
  intros HC.
  assert (G : if okb sel (fun _ => false) None n then exists n', update_each sel (act_attr sha k) None n = Ok n' /\ clean n' /\ shape n n'
    else update_each sel (act_attr sha k) None n = Raise EAttributeError).
  { apply (pass_outcome shape sel (act_attr sha k) (fun _ => false) EAttributeError shape_leaf); [| | |exact HC].
    - intros. apply shape_els. assumption.
    - discriminate.
    - intros ns l d i a ks ks' H C HK _. unfold act_attr. inversion C as [| | |? ? ? ? ? ? H1 H2 H3 H4 H5 H6]; subst.
      destruct (attr_opt k (El ns l d i a ks')) as [s|] eqn:EA.
      2:{ eexists. split; [reflexivity|]. split; [constructor; assumption|apply shape_els, H]. }
      assert (SS : sc s).
      { unfold attr_opt, attrib in EA. clear - EA H5. induction H5 as [|x a [_ X] _ IH]; [discriminate|]. cbn [map assoc] in EA.
        destruct (str_eqb k (a_key x)); [injection EA as <-; exact X|apply IH, EA]. }
      destruct (anonymize_sc sha _ SS) as [r ER]. rewrite ER. cbn [bind set_attr]. eexists. split; [reflexivity|].
      split; [|apply shape_els, H]. constructor; auto. apply replace_clean; [apply (anonymized_sc _ _ _ ER)|exact H5]. }
  assert (T : forall n par, okb sel (fun _ => false) par n = true).
  { clear. induction n as [c|s|s|ns l d i a ks IH] using node_ind'; intros par; try reflexivity. cbn [okb]. rewrite andb_false_r. cbn [negb].
    rewrite andb_true_r. apply forallb_forall. intros k Hk. rewrite Forall_forall in IH. apply IH, Hk. }
  rewrite T in G. exact G.
Qed.
Definition unbare (n : node) : bool := negb (bareb n).
Lemma xhtml_pass sha sel n : clean n ->
  if okb sel unbare None n then exists n', update_each sel (act_xhtml sha) None n = Ok n' /\ clean n' /\ True
  else update_each sel (act_xhtml sha) None n = Raise EValueError.
Proof.
  assert (ST : forall ns l d i a ks, clean (El ns l d i a ks) ->
    if forallb bareb ks then exists s, stringify_namespaced_children (El ns l d i a ks) None = Ok s /\ sc s
    else stringify_namespaced_children (El ns l d i a ks) None = Raise EValueError).
  { intros ns l d i a ks HC. inversion HC as [| | |? ? ? ? ? ? H1 H2 H3 H4 H5 H6]; subst.
    unfold stringify_namespaced_children. cbn [node_nsmap]. destruct (extend d i) as [|[k v] m] eqn:E; [congruence|].
    change (stringify_ns_kids k false (kids_of (El ns l d i a ks))) with (go_kids k false ks).
    apply go_kids_outcome; [exact H6|]. rewrite Forall_forall in *. intros x Hx. apply stringify_outcome; [|apply H6, Hx].
    apply fmt_sc. apply (H3 (k, v)). left. reflexivity. }
  apply (pass_outcome (fun _ _ => True) sel (act_xhtml sha) unbare EValueError).
  - intros []; exact I.
  - auto.
  - intros ns l d i a ks ks' _ HC HB. unfold unbare in HB. cbn [bareb] in HB. specialize (ST _ _ _ _ _ _ HC).
    destruct (forallb bareb ks); [discriminate|]. unfold act_xhtml. rewrite ST. reflexivity.
  - intros ns l d i a ks ks' _ HC HK HB. unfold unbare in HB. cbn [bareb] in HB. specialize (ST _ _ _ _ _ _ HC).
    destruct (forallb bareb ks); [|discriminate]. unfold act_xhtml. destruct ST as (s & -> & SS). cbn [bind].
    destruct (anonymize_sc sha _ SS) as [r ER]. rewrite ER. cbn [bind with_kids]. eexists. split; [reflexivity|]. split; [|exact I].
    inversion HC; subst. constructor; auto. apply clean_chars, (anonymized_sc _ _ _ ER).
Qed.

(** ** The outcome does not depend on the earlier passes *)
Lemma textless_shape n n' : shape n n' -> textless n = textless n'.
Proof.
  intros []; try reflexivity. unfold textless. cbn [text]. destruct (lead ks), (lead ks'); try reflexivity; destruct H as [H H'].
  - specialize (H eq_refl). discriminate.
  - specialize (H' eq_refl). discriminate.
Qed.
Lemma forallb_nonchr (f : node -> bool) ks : (forall c, f (Chr c) = true) -> forallb f ks = forallb f (nonchr ks).
Proof.
  intros H. induction ks as [|k ks IH]; [reflexivity|]. unfold nonchr in *. cbn [forallb filter]. destruct k as [c|? ? ? ? ? ?|s|s]; cbn [is_chr negb forallb]; rewrite IH; try reflexivity.
  rewrite H. reflexivity.
Qed.
Lemma forallb_shape (f g : node -> bool) ks ks' : (forall c, f (Chr c) = true) -> (forall c, g (Chr c) = true) ->
  Forall (fun k => forall k', shape k k' -> f k = g k') ks -> Forall2 shape (nonchr ks) (nonchr ks') -> forallb f ks = forallb g ks'.
Proof.
  intros HF HG IH H. rewrite (forallb_nonchr f) by exact HF. rewrite (forallb_nonchr g) by exact HG.
  assert (IH' : Forall (fun k => forall k', shape k k' -> f k = g k') (nonchr ks)).
  { rewrite Forall_forall in *. intros k Hk. apply filter_In in Hk as [Hk _]. apply IH, Hk. }
  clear IH. induction H as [|k k' l l' S _ IHl]; [reflexivity|]. inversion IH'; subst. cbn [forallb]. rewrite (H1 _ S), IHl by assumption. reflexivity.
Qed.
Lemma unbare_shape n : forall n', shape n n' -> bareb n = bareb n'.
Proof.
  induction n as [c|s|s|ns l d i a ks IH] using node_ind'; intros n' H; inversion H; subst; try reflexivity. cbn [bareb].
  apply forallb_shape; auto.
Qed.
Definition by_tag (sel : option node -> node -> bool) : Prop :=
  forall par par' n n', match par, par' with Some m, Some m' => shape m m' | None, None => True | _, _ => False end ->
    shape n n' -> sel par n = sel par' n'.
Lemma is_el_shape uri t n n' : shape n n' -> is_el uri t n = is_el uri t n'.
Proof. intros []; reflexivity. Qed.
Lemma child_by_tag uri p t : by_tag (child_el uri p t).
Proof.
  intros par par' n n' HP H. unfold child_el. destruct par as [m|], par' as [m'|]; try contradiction; [|reflexivity].
  rewrite (is_el_shape uri p _ _ HP), (is_el_shape uri t _ _ H). reflexivity.
Qed.
Lemma okb_shape sel bad : by_tag sel -> (forall n n', shape n n' -> bad n = bad n') ->
  forall n par par' n', match par, par' with Some m, Some m' => shape m m' | None, None => True | _, _ => False end ->
    shape n n' -> okb sel bad par n = okb sel bad par' n'.
Proof.
  intros HS HB. induction n as [c|s|s|ns l d i a ks IH] using node_ind'; intros par par' n' HP H; inversion H as [| | |? ? ? ? ? a' ? ks' H1 H2]; subst; try reflexivity.
  cbn [okb]. rewrite (HS par par' _ _ HP H), (HB _ _ H). f_equal. apply forallb_shape; auto.
  rewrite Forall_forall in *. intros k Hk k' Sk. apply IH; auto.
Qed.
Lemma shape_trans : forall a b c, shape a b -> shape b c -> shape a c.
Proof.
  induction a as [x|s|s|ns l d i a ks IH] using node_ind'; intros b c H1 H2; inversion H1; subst; inversion H2; subst; constructor.
  - tauto.
  - assert (IH' : Forall (fun a => forall b c, shape a b -> shape b c -> shape a c) (nonchr ks)).
    { rewrite Forall_forall in *. intros k Hk. apply filter_In in Hk as [Hk _]. apply IH, Hk. }
    match goal with [ A : Forall2 shape (nonchr ks) ?m, B : Forall2 shape ?m ?z |- _ ] => revert A B; generalize m z end.
    clear -IH'. induction IH' as [|k l Hk _ IHl]; intros m z A B; inversion A; subst; inversion B; subst; constructor; eauto.
Qed.

(** ** Paths *)
Lemma okb_paths sel bad : (forall par n, sel par n = true -> is_el_ n) -> forall n par,
  okb sel bad par n = true <-> forall p pn, at_path par n p = Some pn -> sel (fst pn) (snd pn) = true -> bad (snd pn) = false.
Proof.
  intros HS. induction n as [c|s|s|ns l d i a ks IH] using node_ind'; intros par;
    try (split; [|reflexivity]; intros _ p pn HP HT; destruct p as [|[|k] p]; try discriminate HP; injection HP as <-; destruct (HS _ _ HT)).
  cbn [okb]. rewrite andb_true_iff. split.
  - intros [HK HN] p pn HP HT. destruct p as [|k p].
    + injection HP as <-. cbn [fst snd] in *. rewrite HT in HN. cbn [andb] in HN. apply negb_true_iff, HN.
    + cbn [at_path] in HP. destruct (nth_error (children (El ns l d i a ks)) k) as [m|] eqn:EK; [|discriminate].
      apply nth_error_In in EK. apply filter_In in EK as [EK _]. cbn [kids_of] in EK. rewrite Forall_forall in IH. rewrite forallb_forall in HK.
      apply (proj1 (IH m EK _) (HK m EK) p pn HP HT).
  - intros H. split.
    + apply forallb_forall. intros k Hk. destruct (is_chr k) eqn:EC; [destruct k; try discriminate; reflexivity|].
      rewrite Forall_forall in IH. apply (IH k Hk). intros p pn HP HT.
      assert (HI : In k (children (El ns l d i a ks))) by (apply filter_In; split; [exact Hk|rewrite EC; reflexivity]).
      apply In_nth_error in HI as (j & HJ). apply (H (j :: p)); [|exact HT]. cbn [at_path]. rewrite HJ. exact HP.
    + apply negb_true_iff. destruct (sel par (El ns l d i a ks)) eqn:ES; [|reflexivity]. cbn [andb]. apply (H [] (par, El ns l d i a ks) eq_refl ES).
Qed.
Lemma child_el_is uri p t par n : child_el uri p t par n = true -> is_el_ n.
Proof. unfold child_el. destruct par; [|discriminate]. rewrite andb_true_iff. intros [_ H]. destruct n; try discriminate. exact I. Qed.
Definition header_okb (uri t : str) (root : node) : bool := okb (child_el uri "REQ-IF-HEADER" t) textless None root.
Definition value_okb (uri : str) (root : node) : bool := okb (child_el uri "ATTRIBUTE-VALUE-XHTML" "THE-VALUE") unbare None root.
Lemma textless_none n : textless n = false <-> text n <> None.
Proof. unfold textless. destruct (text n); split; congruence. Qed.
Lemma header_okb_texts uri root :
  header_okb uri "COMMENT" root && header_okb uri "TITLE" root = true <-> header_texts uri root.
Proof.
  unfold header_okb, header_texts. rewrite andb_true_iff, !okb_paths by apply child_el_is. split.
  - intros [H1 H2] p pn HP [HH [HT|HT]]; apply textless_none; [apply (H1 p)|apply (H2 p)]; auto; apply header_sel; auto.
  - intros H. split; intros p pn HP HT; apply textless_none, (H p pn HP); apply header_sel in HT; split; try apply HT; destruct HT; auto.
Qed.
Lemma value_okb_values uri root : value_okb uri root = true <-> bare_values uri root.
Proof.
  unfold value_okb, bare_values. rewrite okb_paths by apply child_el_is. unfold unbare. split.
  - intros H p pn HP HT. apply bareb_bare. specialize (H p pn HP). apply negb_false_iff, H, xhtml_sel, HT.
  - intros H p pn HP HT. apply negb_false_iff, bareb_bare, (H p pn HP), xhtml_sel, HT.
Qed.
Lemma tree_outcome sha root : clean root ->
  match ns_get (node_nsmap root) None with
  | None => anonymize_tree sha root = Raise EKeyError
  | Some uri =>
      if header_okb uri "COMMENT" root && header_okb uri "TITLE" root
      then if value_okb uri root then exists r, anonymize_tree sha root = Ok r else anonymize_tree sha root = Raise EValueError
      else anonymize_tree sha root = Raise EAttributeError
  end.
Proof.
  intros HC. unfold anonymize_tree. destruct (ns_get (node_nsmap root) None) as [uri|]; [|reflexivity].
  unfold header_okb, value_okb.
  pose proof (text_pass sha (child_el uri "REQ-IF-HEADER" "COMMENT") root HC) as P1.
  destruct (okb (child_el uri "REQ-IF-HEADER" "COMMENT") textless None root); [|rewrite P1; reflexivity].
  destruct P1 as (r1 & -> & C1 & S1). cbn [bind andb].
  rewrite (okb_shape _ _ (child_by_tag uri "REQ-IF-HEADER" "TITLE") textless_shape root None None r1 I S1).
  rewrite (okb_shape _ _ (child_by_tag uri "ATTRIBUTE-VALUE-XHTML" "THE-VALUE")
            (fun n n' H => f_equal negb (unbare_shape n n' H)) root None None r1 I S1 : okb _ unbare _ _ = okb _ unbare _ _).
  pose proof (text_pass sha (child_el uri "REQ-IF-HEADER" "TITLE") r1 C1) as P2.
  destruct (okb (child_el uri "REQ-IF-HEADER" "TITLE") textless None r1); [|rewrite P2; reflexivity].
  destruct P2 as (r2 & -> & C2 & S2). cbn [bind].
  destruct (attr_pass sha "LONG-NAME" (any_el uri "SPECIFICATION") r2 C2) as (r3 & -> & C3 & S3). cbn [bind].
  destruct (attr_pass sha "THE-VALUE" (any_el uri "ATTRIBUTE-VALUE-STRING") r3 C3) as (r4 & -> & C4 & S4). cbn [bind].
  rewrite (okb_shape _ _ (child_by_tag uri "ATTRIBUTE-VALUE-XHTML" "THE-VALUE")
            (fun n n' H => f_equal negb (unbare_shape n n' H)) r1 None None r4 I (shape_trans _ _ _ (shape_trans _ _ _ S2 S3) S4) : okb _ unbare _ _ = okb _ unbare _ _).
  pose proof (xhtml_pass sha (child_el uri "ATTRIBUTE-VALUE-XHTML" "THE-VALUE") r4 C4) as P5.
  destruct (okb (child_el uri "ATTRIBUTE-VALUE-XHTML" "THE-VALUE") unbare None r4); [|exact P5].
  destruct P5 as (r5 & -> & _). eauto.
Qed.
Lemma parsed_clean s decl root uri : lxml_parse s = Some (decl, root) -> ns_get (node_nsmap root) None = Some uri -> clean root.
Proof.
  intros H HU. destruct (parsed_sound _ _ _ H) as (S1 & S2 & _). apply (sound_clean root [] S1 S2); [constructor|].
  intros _ E. rewrite E in HU. discriminate.
Qed.
