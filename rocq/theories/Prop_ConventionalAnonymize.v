(** Prop_ConventionalAnonymize.v -- conventional files stay conventional when they
    are anonymised (C80) *)
From Verif Require Import Base Xml Utf8 Lxml Py LxmlStr Models AttrDef Header AttrValue SpecObj Hierarchy SpecTypes Progress Parser Unparser Serialise Validate Zip Anonymize Dump Commands
  SpecCommands Prop_Commands SpecAccept SpecXml SpecEscape SpecPrint SpecXhtml SpecDocument SpecFormat SpecAnonymize SpecLayout SpecHidden SpecSettle SpecParse SpecKeep SpecConventional
  XmlProofs DictProofs SettleProofs ProgressProofs ParserProofs WritesProofs EscapeProofs FormatProofs LayoutProofs HideProofs HideDoc HideOut Utf8Proofs LineProofs AcceptProofs
  Prop_Accept Prop_Document Prop_Settle Prop_Keep Prop_Format Prop_Anonymize Prop_Reformat Prop_AnonymizeFile Prop_AnonymizeBundle Prop_Conventional Prop_ConventionalFormat.
From Verif Require SpaceProofs FaithProofs ConventionalCheck.
Notation placed := SpecConventional.placed.

(** ** The replacement texts can be written anywhere *)
Lemma dull_xml c : dull c -> is_xml_char c = true.
Proof.
  intros (H & _). unfold is_xml_char. rewrite (proj2 (N.leb_le 32 c)) by lia. rewrite (proj2 (N.leb_le c 55295)) by lia. rewrite !orb_true_r. reflexivity.
Qed.
Lemma dull_without bad t : Forall (fun b => (b < 33)%N \/ In b [38; 60; 62; 34; 39]%N) bad -> Forall dull t -> xml_text_without bad t.
Proof.
  intros HB H. apply Forall_impl with (2 := H). intros c HC. split; [apply dull_xml, HC|]. intros HI. rewrite Forall_forall in HB.
  destruct HC as (H0 & H1 & H2 & H3 & H4 & H5). destruct (HB c HI) as [X|X]; [lia|]. cbn [In] in X. intuition congruence.
Qed.
Lemma dull_attr t : Forall dull t -> attr_raw t.
Proof. apply dull_without. repeat constructor; cbn [In]; auto; left; lia. Qed.
Lemma dull_text t : Forall dull t -> text_raw t.
Proof.
  intros H. split; [apply dull_without; [repeat constructor; cbn [In]; auto; left; lia|exact H]|].
  intros a b ->. rewrite !Forall_app in H. destruct H as (_ & H & _). inversion H as [|? ? _ H']; subst. inversion H' as [|? ? _ H'']; subst.
  inversion H'' as [|? ? X]; subst. destruct X as (_ & _ & _ & X & _). congruence.
Qed.
Lemma leading_text t : leading (map XT t) = t.
Proof. induction t as [|c t IH]; [reflexivity|]. cbn [map leading]. rewrite IH. reflexivity. Qed.
Lemma dull_substitute t : Forall dull t -> substitute lxml_table t = t.
Proof.
  intros H. induction H as [|c t HC _ IH]; [reflexivity|]. change (c :: t) with ([c] ++ t) at 1. unfold substitute in *. rewrite flat_map_app, IH.
  pose proof (lxml_escape_eq [c]) as E. rewrite (dull_escape c HC) in E. unfold substitute in E. rewrite <- E. reflexivity.
Qed.

(** ** Trees with hidden values *)
Section Tree.
Variable sha : bytes -> N.
Notation hid := (hid sha).
(** the tool extensions: what is inside them does not matter *)
Definition tools (x x' : node) : Prop :=
  tag x = Some "TOOL-EXTENSIONS" /\ tag x' = tag x /\ is_comment x' = is_comment x /\ is_chr x = false /\ is_chr x' = false
  /\ (forall k, attr_opt k x' = attr_opt k x) /\ text x' = text x.
Definition top_pair (x x' : node) : Prop := hid ["REQ-IF"] x x' \/ tools x x'.
Variables root root' : node.
(** the comment and the title in the header hold text only *)
Hypothesis HT : forall x, placed root "REQ-IF-HEADER" x -> In (tag x) [Some "COMMENT"; Some "TITLE"] -> children x = [].
Hypothesis K : Forall2 top_pair (kids_of root) (kids_of root').
Lemma top_kids : Forall2 top_pair (children root) (children root').
Proof.
  unfold children. induction K as [|x y l l' H T IH]; [constructor|]. specialize (IH T). cbn [filter].
  assert (E : is_chr y = is_chr x) by (destruct H as [H|(_ & _ & _ & E1 & E2 & _)]; [apply (hid_chr_same _ _ _ _ H)|congruence]). rewrite E.
  destruct (negb (is_chr x)); [constructor; assumption|exact IH].
Qed.
Lemma top_pair_top x x' : top_pair x x' -> hid_top sha x x'.
Proof. intros [H|(T & T' & _ & C & C' & _)]; [left; exact H|right]. rewrite T' , T. repeat split; try assumption; discriminate. Qed.
Lemma hid_not_masked p up n n' : hid (p :: up) n n' -> tag n <> None -> masked_here (p :: up) (tg n) = false ->
  Forall2 (hid (tg n :: p :: up)) (children n) (children n').
Proof.
  intros H T M. apply (o_kids sha (p :: up)). apply hid_open; [exact H|]. intros t E. unfold tg in M. rewrite E in M. exact M.
Qed.
Lemma hid_placed t x' : placed root' t x' ->
  exists x up, placed root t x /\ (hid (t :: up) x x' \/ t = "REQ-IF" /\ tools x x').
Proof.
  intros P. induction P as [x' HI|t x' t' k' P (x & up & IP & IR) NX NT ET HI].
  - destruct (Forall2_in_r _ _ _ _ top_kids HI) as (x & HX & [H|H]); exists x, []; (split; [apply placed_top, HX|auto]).
  - destruct IR as [IR|[-> IR]].
    2: { exfalso. apply NT. split; [reflexivity|]. destruct IR as (T & T' & _). congruence. }
    pose proof (hid_tag _ _ _ _ IR) as E. assert (TX : tag x = Some t') by congruence.
    destruct (masked_here (t :: up) t') eqn:M.
    + (* header texts have no children that count *)
      inversion IR as [| |? l0 d i a ? ? kids kids' s0 t0 L T1 T2 D PF AC|? ? ? ? ? ? ? s0 t0 D N|? ? ns l d i a d' i' a' kids kids' anc' M' PL A F]; subst; try discriminate TX.
      * exfalso. assert (CX : children (El None l0 d i a kids) = []).
        { apply HT; [exact IP|]. cbn [tag clark] in TX. destruct L as [-> | ->]; cbn [tag clark In]; auto. }
        assert (CC : forallb is_chr kids = true).
        { apply forallb_forall. intros k HK. destruct (is_chr k) eqn:EC; [reflexivity|]. exfalso.
          assert (IN : In k (children (El None l0 d i a kids))) by (apply filter_In; split; [exact HK|rewrite EC; reflexivity]). rewrite CX in IN. exact IN. }
        specialize (AC CC). unfold children in HI. cbn [kids_of] in HI. apply filter_In in HI. destruct HI as [HI HN]. rewrite forallb_forall in AC. rewrite (AC _ HI) in HN. discriminate.
      * exfalso. apply NX. split; reflexivity.
      * cbn [tag] in TX. injection TX as TX. rewrite TX in M'. unfold anc' in M'. rewrite M' in M. discriminate M.
    + assert (MT : masked_here (t :: up) (tg x) = false) by (unfold tg; rewrite TX; exact M).
      pose proof (hid_not_masked _ _ _ _ IR ltac:(congruence) MT) as C. unfold tg in C. rewrite TX in C.
      destruct (Forall2_in_r _ _ _ _ C HI) as (k & HK & KH). exists k, (t :: up). split; [|left; exact KH].
      apply (placed_below root t x t'); [exact IP| | |exact TX|exact HK].
      * intros [X1 X2]. apply NX. split; [exact X1|]. congruence.
      * intros [X1 X2]. apply NT. split; [exact X1|]. congruence.
Qed.

Section Conventional.
Variables (r : SpecDocument.root_tag) (p u : str).
Hypothesis C : conventional r p u root.
Hypothesis V : visible r p false <> []
  \/ forall t x tv, placed root t x -> tag x = Some "DEFAULT-VALUE" -> path_node ["ATTRIBUTE-VALUE-XHTML"; "THE-VALUE"] x = Some tv -> False.
Lemma secret_tag own k : secret own k = true -> own = "SPECIFICATION" \/ own = "ATTRIBUTE-VALUE-STRING".
Proof.
  unfold secret. intros H. apply orb_true_iff in H. destruct H as [H|H]; apply andb_true_iff in H; destruct H as [H _]; apply str_eqb_eq in H; auto.
Qed.
Lemma hid_conventional : conventional r p u root'.
Proof.
  split.
  - intros t x' own k v P T A. destruct (hid_placed _ _ P) as (x & up & PX & [H|(-> & HT1 & HT2 & _ & _ & _ & HA & _)]).
    2: { apply (cv_attributes _ _ _ _ C "REQ-IF" x own k v PX); [congruence|]. rewrite <- HA. exact A. }
    assert (TX : tag x = Some own) by (rewrite <- T; symmetry; apply (hid_tag _ _ _ _ H)).
    destruct (secret own k) eqn:S.
    + assert (M : masked_here (t :: up) own = false) by (destruct (secret_tag _ _ S) as [-> | ->]; apply masked_other; reflexivity).
      pose proof (hid_secret _ _ _ _ _ _ H TX S M) as B. rewrite A in B. destruct (attr_opt k x) as [w|]; [|contradiction]. cbn in B.
      left. apply dull_attr, (digest_dull _ _ _ B).
    + apply (cv_attributes _ _ _ _ C t x own k v PX TX). rewrite <- A. symmetry. apply (hid_name _ _ _ _ _ _ H TX S).
  - intros t x' v P (NX & NC) T. destruct (hid_placed _ _ P) as (x & up & PX & [H|(-> & HT1 & HT2 & HT3 & _ & _ & _ & HA)]).
    2: { destruct (cv_texts _ _ _ _ C "REQ-IF" x v PX) as (V1 & V2); [|congruence|].
         - split; [intros [E _]; discriminate E|]. rewrite <- HT3. exact NC.
         - split; [exact V1|]. destruct V2 as [V2|(E & _)]; [left; exact V2|discriminate E]. }
    inversion H as [anc c E1 E2 E3|anc s E1 E2 E3|? l0 d i a ? ? kids kids' s0 t0 L T1 T2 D PF AC E1 E2 E3|? d i a ? ? kids s0 t0 D N E1 E2 E3|? ? ns l d i a d' i' a' kids kids' anc' M' PL A F E1 E2 E3].
    + subst. apply (cv_texts _ _ _ _ C t (Chr c) v PX); [split; assumption|exact T].
    + subst. apply (cv_texts _ _ _ _ C t (Cmt s) v PX); [split; assumption|exact T].
    + subst x x' t. cbn [text] in T. assert (v = t0) by congruence. subst t0. destruct (digest_dull _ _ _ D) as [D1 D2].
      split; [exact D2|left; apply dull_text, D1].
    + subst x x' t. exfalso. apply NX. split; reflexivity.
    + subst x x' p0 anc'. cbn [text] in T. destruct (cv_texts _ _ _ _ C t (El ns l d i a kids) v PX) as (V1 & V2).
      * split; [|cbn; discriminate]. intros [X1 X2]. apply NX. split; [exact X1|exact X2].
      * cbn [text]. rewrite <- (kids_lead _ _ _ _ F). exact T.
      * split; assumption.
  - intros t x' P (-> & T). destruct (hid_placed _ _ P) as (x & up & PX & [H|(E & _)]); [|discriminate E].
    inversion H as [anc c E1 E2 E3|anc s E1 E2 E3|? l0 d i a ? ? kids kids' s0 t0 L T1 T2 D PF AC E1 E2 E3|? d i a ? ? kids s0 t0 D N E1 E2 E3|? ? ns l d i a d' i' a' kids kids' anc' M' PL A F E1 E2 E3]; subst x'; try discriminate T.
    + destruct (digest_dull _ _ _ D) as [D1 D2]. exists (map XT t0). cbn [kids_of]. split; [|split; [apply text_markup|split]].
      * unfold forest_ok. rewrite Forall_map. apply Forall_impl with (2 := D1). intros c HC. split; [apply dull_xml, HC|]. destruct HC as (HC & _). lia.
      * rewrite has_markup_text. discriminate.
      * intros _. right. rewrite leading_text. apply dull_substitute, D1.
    + cbn [tag] in T. injection T as T. subst p0. unfold anc' in M'. rewrite T in M'. discriminate M'.
  - intros t x' tv' P T E. destruct V as [V1|V1]; [right; left; exact V1|exfalso].
    destruct (hid_placed _ _ P) as (x & up & PX & [H|(-> & HT1 & HT2 & _)]); [|rewrite HT2, HT1 in T; discriminate T].
    assert (TX : tag x = Some "DEFAULT-VALUE") by (rewrite <- T; symmetry; apply (hid_tag _ _ _ _ H)).
    assert (O : opened sha (t :: up) x x') by (apply hid_open; [exact H|]; intros t' T'; assert (t' = "DEFAULT-VALUE") by congruence; subst t'; apply masked_other; reflexivity).
    pose proof (o_kids _ _ _ _ O) as OK. unfold tg in OK. rewrite TX in OK. cbn [path_node] in E.
    pose proof (find_into _ _ "ATTRIBUTE-VALUE-XHTML" _ _ OK ltac:(apply masked_other; reflexivity)) as F1.
    destruct (find_child "ATTRIBUTE-VALUE-XHTML" x') as [y'|]; [|discriminate E]. destruct (find_child "ATTRIBUTE-VALUE-XHTML" x) as [y|] eqn:EY; [|contradiction].
    cbn in F1. destruct F1 as (_ & _ & _ & K2). pose proof (find_both _ _ "THE-VALUE" _ _ K2) as F2.
    destruct (find_child "THE-VALUE" y') as [z'|]; [|discriminate E]. destruct (find_child "THE-VALUE" y) as [z|] eqn:EZ; [|contradiction].
    apply (V1 t x z PX TX). cbn [path_node]. rewrite EY, EZ. reflexivity.
  - intros t x' d' more' P T E.
    destruct (hid_placed _ _ P) as (x & up & PX & [H|(-> & HT1 & HT2 & _)]).
    2: { exfalso. rewrite HT2, HT1 in T. destruct T as [T|[T|[]]]; discriminate T. }
    rewrite (hid_tag _ _ _ _ H) in T.
    assert (O : opened sha (t :: up) x x').
    { apply hid_open; [exact H|]. intros t' T'. rewrite T' in T. assert (TT : t' = "ATTRIBUTE-VALUE-STRING" \/ t' = "ATTRIBUTE-VALUE-INTEGER") by (destruct T as [T|[T|[]]]; [left|right]; congruence).
      destruct TT as [-> | ->]; apply masked_other; reflexivity. }
    pose proof (o_kids _ _ _ _ O) as OK. rewrite E in OK. inversion OK as [|d ? more ? HD HM E1 E2]; subst.
    rewrite (hid_tag _ _ _ _ HD). apply (cv_definitions _ _ _ _ C t x d more PX T). symmetry. exact E1.
Qed.
End Conventional.

(** ** Documents that can be written *)
Lemma hid_every anc t (P P' : node -> Prop) n n' : Forall2 (hid anc) (children n) (children n') -> masked_here anc t = false ->
  (forall x x', hid (t :: anc) x x' -> P x -> P' x') -> every t P n -> every t P' n'.
Proof.
  intros H M HP HE ks' k' E HI. unfold section_items in E. pose proof (find_into _ _ t _ _ H M) as F.
  destruct (find_child t n') as [y'|]; [|discriminate E]. destruct (find_child t n) as [y|] eqn:EY; [|contradiction].
  destruct F as (_ & _ & _ & KK). cbn in E. assert (ks' = children y') by congruence. subst ks'.
  destruct (Forall2_in_r _ _ _ _ KK HI) as (k & HK & HH). apply (HP _ _ HH). apply (HE (children y) k); [|exact HK]. unfold section_items. rewrite EY. reflexivity.
Qed.
Lemma hid_path_text anc t q n n' : Forall2 (hid anc) (children n) (children n') -> masked_here anc t = false -> masked_here (t :: anc) q = false ->
  path_text [t; q] n' = path_text [t; q] n.
Proof.
  intros H M1 M2. pose proof (hid_opt_ref _ _ t q _ _ H M1 M2) as E. unfold opt_ref in E. unfold path_text. cbn [path_node].
  destruct (find_child t n') as [y'|], (find_child t n) as [y|]; try exact E;
    repeat match goal with |- context [find_child q ?z] => destruct (find_child q z) end; exact E.
Qed.
Lemma hid_definition_writes up n n' : hid ("SPEC-ATTRIBUTES" :: up) n n' -> definition_writes n -> definition_writes n'.
Proof.
  intros H [D1 D2]. assert (O : opened sha ("SPEC-ATTRIBUTES" :: up) n n') by (apply hid_open; [exact H|]; reflexivity).
  pose proof (o_kids _ _ _ _ O) as OK. split.
  - apply Forall_forall. intros k' HK. destruct (Forall2_in_r _ _ _ _ OK HK) as (k & HI & HH). rewrite (hid_tag _ _ _ _ HH). rewrite Forall_forall in D1. apply D1, HI.
  - intros t v' HT' T E EN. rewrite (hid_tag _ _ _ _ H) in T. cbn [path_node] in E.
    pose proof (find_into _ _ "DEFAULT-VALUE" _ _ OK ltac:(apply masked_other; reflexivity)) as F1.
    destruct (find_child "DEFAULT-VALUE" n') as [y'|]; [|discriminate E]. destruct (find_child "DEFAULT-VALUE" n) as [y|] eqn:EY; [|contradiction].
    destruct F1 as (_ & _ & _ & K1).
    assert (M2 : masked_here ("DEFAULT-VALUE" :: tg n :: "SPEC-ATTRIBUTES" :: up) ("ATTRIBUTE-VALUE-" ++ t) = false)
      by (destruct HT' as [<-|[<-|[<-|[]]]]; apply masked_other; reflexivity).
    pose proof (find_into _ _ ("ATTRIBUTE-VALUE-" ++ t) _ _ K1 M2) as F2.
    destruct (find_child ("ATTRIBUTE-VALUE-" ++ t) y') as [z'|]; [|discriminate E]. destruct (find_child ("ATTRIBUTE-VALUE-" ++ t) y) as [z|] eqn:EZ; [|contradiction].
    destruct F2 as (_ & _ & _ & K2). assert (v' = z') by congruence. subst v'.
    rewrite (hid_path_text _ "DEFINITION" _ _ _ K2); [|apply masked_other; reflexivity|destruct HT' as [<-|[<-|[<-|[]]]]; apply masked_other; reflexivity].
    apply (D2 t z HT' T); [cbn [path_node]; rewrite EY, EZ; reflexivity|]. intros ET. rewrite <- (hid_path_text _ "VALUES" "ENUM-VALUE-REF" _ _ K2); [apply EN, ET|apply masked_other; reflexivity..].
Qed.
Lemma hid_incomplete up n n' : hid ("SPEC-RELATIONS" :: up) n n' -> incomplete n' = incomplete n.
Proof.
  intros H. assert (O : opened sha ("SPEC-RELATIONS" :: up) n n') by (apply hid_open; [exact H|]; reflexivity).
  pose proof (o_kids _ _ _ _ O) as OK. unfold incomplete, lacks.
  assert (HC : forall t, masked_here (tg n :: "SPEC-RELATIONS" :: up) t = false -> has_child t n' = has_child t n).
  { intros t M. unfold has_child. pose proof (find_both _ _ t _ _ OK) as F. destruct (find_child t n'), (find_child t n); cbn in F; try contradiction; reflexivity. }
  rewrite ?HC by (apply masked_other; reflexivity). reflexivity.
Qed.
Lemma hid_writes : writes root -> writes root'.
Proof.
  intros [W1 W2 W3 W4].
  assert (KT : Forall2 (hid_top sha) (kids_of root) (kids_of root')) by (clear - K; induction K; constructor; auto using top_pair_top).
  assert (CC : forall rc', path_node ["CORE-CONTENT"; "REQ-IF-CONTENT"] root' = Some rc' ->
    exists rc anc, path_node ["CORE-CONTENT"; "REQ-IF-CONTENT"] root = Some rc /\ Forall2 (hid ("REQ-IF-CONTENT" :: "CORE-CONTENT" :: anc)) (children rc) (children rc')).
  { intros rc' E. cbn [path_node] in *. unfold find_child in E at 1 |- * at 1. pose proof (top_find sha "CORE-CONTENT" _ _ KT (or_intror eq_refl)) as F.
    destruct (find_list "CORE-CONTENT" (kids_of root')) as [y'|]; [|discriminate E]. destruct (find_list "CORE-CONTENT" (kids_of root)) as [y|]; [|contradiction].
    destruct F as [F TY]. assert (O : opened sha ["REQ-IF"] y y') by (apply hid_open; [exact F|]; reflexivity). pose proof (o_kids _ _ _ _ O) as OK. unfold tg in OK. rewrite TY in OK.
    pose proof (find_into _ _ "REQ-IF-CONTENT" _ _ OK ltac:(apply masked_other; reflexivity)) as G.
    destruct (find_child "REQ-IF-CONTENT" y') as [z'|]; [|discriminate E]. destruct (find_child "REQ-IF-CONTENT" y) as [z|]; [|contradiction].
    destruct G as (_ & _ & _ & G). assert (rc' = z') by congruence. subst rc'. eauto. }
  split.
  - intros h' E. cbn [path_node] in *. unfold find_child in E at 1. unfold find_child in W1 at 1. pose proof (top_find sha "THE-HEADER" _ _ KT (or_introl eq_refl)) as F.
    destruct (find_list "THE-HEADER" (kids_of root')) as [y'|]; [|discriminate E]. destruct (find_list "THE-HEADER" (kids_of root)) as [y|]; [|contradiction].
    destruct F as [F TY]. assert (O : opened sha ["REQ-IF"] y y') by (apply hid_open; [exact F|]; reflexivity). pose proof (o_kids _ _ _ _ O) as OK.
    pose proof (find_both _ _ "REQ-IF-HEADER" _ _ OK) as G.
    destruct (find_child "REQ-IF-HEADER" y') as [z'|]; [|discriminate E]. destruct (find_child "REQ-IF-HEADER" y) as [z|]; [|contradiction].
    destruct G as [G _]. assert (h' = z') by congruence. subst h'. rewrite (hid_attr_other _ _ _ _ _ G) by reflexivity. apply W1. reflexivity.
  - intros rc' E. destruct (CC rc' E) as (rc & anc & E1 & H). specialize (W2 rc E1). revert W2. apply (hid_every _ _ _ _ _ _ H); [apply masked_other; reflexivity|].
    intros x x' HX. assert (O : opened sha ("SPEC-TYPES" :: "REQ-IF-CONTENT" :: "CORE-CONTENT" :: anc) x x') by (apply hid_open; [exact HX|]; reflexivity).
    apply (hid_every _ _ _ _ _ _ (o_kids _ _ _ _ O)); [apply masked_other; reflexivity|]. intros y y'. apply hid_definition_writes.
  - intros rc' E. destruct (CC rc' E) as (rc & anc & E1 & H). specialize (W3 rc E1). revert W3. apply (hid_every _ _ _ _ _ _ H); [apply masked_other; reflexivity|].
    intros x x' HX. rewrite (hid_comment _ _ _ _ HX). intros W HC. specialize (W HC). unfold object_writes in *.
    assert (O : opened sha ("SPEC-OBJECTS" :: "REQ-IF-CONTENT" :: "CORE-CONTENT" :: anc) x x') by (apply hid_open; [exact HX|]; reflexivity).
    pose proof (find_both _ _ "VALUES" _ _ (o_kids _ _ _ _ O)) as F. destruct (find_child "VALUES" x'); [discriminate|]. destruct (find_child "VALUES" x); [contradiction|exact W].
  - intros rc' E. destruct (CC rc' E) as (rc & anc & E1 & H). specialize (W4 rc E1). revert W4. apply (hid_every _ _ _ _ _ _ H); [apply masked_other; reflexivity|].
    intros x x' HX. rewrite (hid_incomplete _ _ _ HX). intros W HC. specialize (W HC). unfold relation_writes in *.
    assert (O : opened sha ("SPEC-RELATIONS" :: "REQ-IF-CONTENT" :: "CORE-CONTENT" :: anc) x x') by (apply hid_open; [exact HX|]; reflexivity).
    apply Forall_forall. intros k' HK. destruct (Forall2_in_r _ _ _ _ (o_kids _ _ _ _ O) HK) as (k & HI & HH). rewrite (hid_tag _ _ _ _ HH). rewrite Forall_forall in W. apply W, HI.
Qed.
End Tree.

(** ** C50 for documents given as a tree *)
Lemma writable_tree decl opened root b :
  strip_if_namespaced opened = Ok root -> pure_reqif decl opened = Ok b -> children root <> [] -> (writable_bundle b <-> writes root).
Proof.
  intros ES H HN. unfold pure_reqif in H. rewrite ES in H. cbn [bind] in H. destruct (tag_is "REQ-IF" root); [|discriminate H]. cbn [negb] in H.
  assert (H' : (let! hdr := (match find_child "THE-HEADER" root with None => Ok None | Some h => let! x := parse_header h in Ok (Some x) end) in
    let! (core, lk, exns) := match find_child "CORE-CONTENT" root with
          | None => Ok (None, lookup_empty, [])
          | Some c => match find_child "REQ-IF-CONTENT" c with
                      | None => Ok (Some None, lookup_empty, [])
                      | Some rc => let! (ct, lk, exns) := pure_content rc in Ok (Some (Some ct), lk, exns)
                      end
          end in
    Ok (Bundle (namespace_info_of decl opened root) hdr core (match find_child "TOOL-EXTENSIONS" root with Some _ => true | None => false end) lk exns)) = Ok b).
  { destruct (children root); [congruence|exact H]. }
  clear H. unfold writable_bundle.
  destruct (match find_child "THE-HEADER" root with None => Ok None | Some h => let! x := parse_header h in Ok (Some x) end) as [hdr|] eqn:EH; [|discriminate H']. cbn [bind] in H'.
  destruct (match find_child "CORE-CONTENT" root with
          | None => Ok (None, lookup_empty, [])
          | Some c => match find_child "REQ-IF-CONTENT" c with
                      | None => Ok (Some None, lookup_empty, [])
                      | Some rc => let! (ct, lk, exns) := pure_content rc in Ok (Some (Some ct), lk, exns)
                      end
          end) as [[[core lk] exns]|] eqn:EC; [|discriminate H']. cbn [bind] in H'. apply Ok_inj' in H'. subst b.
  cbn [b_header b_core_content b_namespace_info].
  assert (I1 : (forall h, path_node ["THE-HEADER"; "REQ-IF-HEADER"] root = Some h -> attr_opt "IDENTIFIER" h <> Some []) <-> (forall h, hdr = Some h -> writable_header h)).
  { cbn [path_node]. destruct (find_child "THE-HEADER" root) as [n|].
    - destruct (parse_header n) as [h|] eqn:EP; [|discriminate EH]. cbn [bind] in EH. assert (hdr = Some h) by congruence. subst hdr. split.
      + intros G y E. assert (y = h) by congruence. subst y. apply (header_iff n h EP). intros x EX. apply G. rewrite EX. reflexivity.
      + intros G x EX. destruct (find_child "REQ-IF-HEADER" n) as [z|] eqn:EZ; [|discriminate]. injection EX as ->.
        apply (proj2 (header_iff n h EP) (G h eq_refl) x EZ).
    - assert (hdr = None) by congruence. subst hdr. split; discriminate. }
  assert (I2 : ((forall rc, path_node ["CORE-CONTENT"; "REQ-IF-CONTENT"] root = Some rc -> every "SPEC-TYPES" (every "SPEC-ATTRIBUTES" definition_writes) rc)
     /\ (forall rc, path_node ["CORE-CONTENT"; "REQ-IF-CONTENT"] root = Some rc -> every "SPEC-OBJECTS" (fun o => is_comment o = false -> object_writes o) rc)
     /\ (forall rc, path_node ["CORE-CONTENT"; "REQ-IF-CONTENT"] root = Some rc -> every "SPEC-RELATIONS" (fun x => incomplete x = false -> relation_writes x) rc))
     <-> (forall c, core = Some (Some c) -> writable_content c)).
  { cbn [path_node]. destruct (find_child "CORE-CONTENT" root) as [cc|]; [destruct (find_child "REQ-IF-CONTENT" cc) as [rc|]|].
    - destruct (pure_content rc) as [[[ct lk'] xs]|] eqn:EP; [|discriminate EC]. cbn [bind] in EC. assert (core = Some (Some ct)) by congruence. subst core.
      apply pure_content_facts in EP. pose proof (content_iff _ _ _ _ EP) as I. split.
      + intros (G1 & G2 & G3) c' E. assert (c' = ct) by congruence. subst c'. apply I. auto.
      + intros G. specialize (G ct eq_refl). apply I in G. destruct G as (G1 & G2 & G3). split; [|split]; intros x E; assert (x = rc) by congruence; subst x; assumption.
    - assert (core = Some None) by congruence. subst core. split; [intros _ c E; discriminate E|intros _; repeat split; discriminate].
    - assert (core = None) by congruence. subst core. split; [intros _ c E; discriminate E|intros _; repeat split; discriminate]. }
  rewrite <- I1, <- I2. split.
  - intros (_ & G1 & G2 & G3 & G4). split; assumption.
  - intros [G1 G2 G3 G4]. split; [left; cbn [namespace_info_of ni_dump]; discriminate|]. auto.
Qed.

(** ** The anonymised tree *)
(** the tool extensions are not elements of the XHTML namespace *)
Definition tools_apart (n : node) : Prop :=
  forall ns d i a kids, In (El ns "TOOL-EXTENSIONS" d i a kids) (kids_of n) -> contains "http://www.w3.org/1999/xhtml" (clark ns "TOOL-EXTENSIONS") = false.
Lemma tools_el uri t ns d i a ks : t <> "TOOL-EXTENSIONS" -> is_el uri t (El ns "TOOL-EXTENSIONS" d i a ks) = false.
Proof.
  intros N. cbn [is_el]. destruct ns as [[q v]|]; [|reflexivity]. destruct (str_eqb_spec "TOOL-EXTENSIONS" t) as [E|_]; [congruence|]. apply andb_false_r.
Qed.
Lemma tools_child uri u t o ns d i a ks : t <> "TOOL-EXTENSIONS" -> child_el uri u t o (El ns "TOOL-EXTENSIONS" d i a ks) = false.
Proof. intros N. unfold child_el. destruct o; [|reflexivity]. rewrite tools_el by exact N. apply andb_false_r. Qed.
Lemma tools_any uri t o ns d i a ks : t <> "TOOL-EXTENSIONS" -> any_el uri t o (El ns "TOOL-EXTENSIONS" d i a ks) = false.
Proof. intros N. apply tools_el, N. Qed.
Lemma changed_tools sha uri parent ns d i a ks n' : changed sha uri parent (El ns "TOOL-EXTENSIONS" d i a ks) n' ->
  exists ks', n' = El ns "TOOL-EXTENSIONS" d i a ks' /\ lead ks' = lead ks.
Proof.
  intros (q1 & q2 & q3 & q4 & q5 & n1 & n2 & n3 & n4 & _ & _ & _ & _ & _ & H1 & H2 & H3 & H4 & H5).
  apply update_el in H1. destruct H1 as (k1 & M1 & H1). rewrite tools_child in H1 by discriminate. subst n1.
  apply update_el in H2. destruct H2 as (k2 & M2 & H2). rewrite tools_child in H2 by discriminate. subst n2.
  apply update_el in H3. destruct H3 as (k3 & M3 & H3). rewrite tools_any in H3 by discriminate. subst n3.
  apply update_el in H4. destruct H4 as (k4 & M4 & H4). rewrite tools_any in H4 by discriminate. subst n4.
  apply update_el in H5. destruct H5 as (k5 & M5 & H5). rewrite tools_child in H5 by discriminate. subst n'.
  exists k5. split; [reflexivity|].
  rewrite (lead_pass _ _ _ _ _ (tg3 sha) M5), (lead_pass _ _ _ _ _ (tg2 sha _) M4), (lead_pass _ _ _ _ _ (tg2 sha _) M3), (lead_pass _ _ _ _ _ (tg1 sha) M2), (lead_pass _ _ _ _ _ (tg1 sha) M1). reflexivity.
Qed.
Notation bare := (SpaceProofs.bare false).
Lemma masked_tree sha uri opened opened' root :
  ns_get (node_nsmap opened) None = Some uri -> one_namespace uri opened -> prefix_in_use opened \/ no_xhtml_default opened -> tools_apart opened ->
  anonymize_tree sha opened = Ok opened' -> strip_if_namespaced opened = Ok root -> tag_is "REQ-IF" root = true ->
  exists q d i a ks ks', opened = El (Some (q, uri)) "REQ-IF" d i a ks /\ opened' = El (Some (q, uri)) "REQ-IF" d i a ks'
    /\ pi_free opened' = true
    /\ exists root', strip_if_namespaced opened' = Ok root' /\ tag_is "REQ-IF" root' = true
         /\ Forall2 (top_pair sha) (kids_of root) (kids_of root').
Proof.
  intros NS (ns & l & d & i & a & ks & -> & PL & INK) OK TA AT ES TR. pose proof PL as ((q & ->) & PX).
  unfold strip_if_namespaced in ES. rewrite NS, SpaceProofs.strip_bare in ES. destruct (pi_free (El (Some (q, uri)) l d i a ks)) eqn:PI; [|discriminate ES].
  apply Ok_inj' in ES. subst root. rewrite (plain_bare uri) in * by exact PL. cbn [cleanup] in TR. unfold tag_is in TR. cbn [tag clark] in TR.
  destruct (str_eqb_spec l "REQ-IF") as [->|NL]; [|discriminate TR]. clear TR.
  destruct (root_changed _ _ _ _ _ _ _ _ NS AT) as (ks5 & -> & F).
  assert (PI' : pi_free (El (Some (q, uri)) "REQ-IF" d i a ks5) = true).
  { cbn [pi_free] in PI |- *. clear - F PI. induction F as [|x y xs ys Hxy _ IH]; [reflexivity|]. cbn [forallb] in *. apply andb_true_iff in PI. destruct PI as [P1 P2].
    rewrite (changed_pi _ _ _ _ _ Hxy P1), (IH P2). reflexivity. }
  exists q, d, i, a, ks, ks5. split; [reflexivity|]. split; [reflexivity|]. split; [exact PI'|].
  exists (cleanup [] (bare (El (Some (q, uri)) "REQ-IF" d i a ks5))). split; [|split].
  - unfold strip_if_namespaced. change (node_nsmap (El (Some (q, uri)) "REQ-IF" d i a ks5)) with (node_nsmap (El (Some (q, uri)) "REQ-IF" d i a ks)).
    rewrite NS, SpaceProofs.strip_bare, PI'. reflexivity.
  - rewrite (plain_bare uri) by exact PL. reflexivity.
  - rewrite !(plain_bare uri) by exact PL. cbn [cleanup kids_of].
    match goal with |- Forall2 _ (map (cleanup ?m) _) (map (cleanup ?m') _) => generalize m; intros inh1; assert (C2 : m' <> [] \/ Forall (calm ["REQ-IF"]) ks); [|revert C2; generalize m'] end.
    { destruct OK as [(ns' & l' & d' & i' & a' & kids' & x & q' & u & E & HX & HN & HD)|ND].
      - left. injection E as <- <- <- <- <- <-. apply in_map_iff in HD. destruct HD as ([q'' v] & E & HD). cbn in E. subst q''.
        match goal with |- extend (filter ?f _) _ <> _ => assert (HF : In (q', v) (filter f d)) end.
        { apply filter_In. split; [exact HD|]. apply ostr_mem_In. cbn [fst]. apply in_or_app. left. unfold own_refs. apply in_or_app. right.
          apply in_flat_map. exists x. split; [exact HX|]. rewrite HN. left. reflexivity. }
        match type of HF with In _ ?f => destruct f eqn:EF end; [destruct HF|discriminate].
      - right. inversion ND as [| | |? ? ? ? ? ? ND' FD]; subst. apply Forall_forall. intros k HK. rewrite Forall_forall in FD. split; [apply FD, HK|].
        split; [intros up E; discriminate E|intros up E; discriminate E]. }
    intros inh2 C2. cbn [pi_free] in PI, PI'. unfold tools_apart in TA. cbn [kids_of] in TA. clear -F INK C2 PI PI' TA. induction F as [|x y xs ys Hxy _ IHF]; [constructor|].
    inversion INK as [|? ? IN1 IN2]; subst. cbn [forallb] in PI, PI'. apply andb_true_iff in PI, PI'. cbn [map]. constructor.
    + destruct IN1 as [IN1|(ns' & d' & i' & a' & kids' & ->)].
      * left. apply (hid_mask sha uri); [apply (changed_mask sha uri _ _ _ IN1 Hxy)|apply PI'|]. destruct C2 as [C2|C2]; [left; exact C2|right; inversion C2; assumption].
      * right. pose proof (TA _ _ _ _ _ (or_introl eq_refl)) as TX. apply changed_tools in Hxy. destruct Hxy as (ks'' & -> & L).
        cbn [SpaceProofs.bare negb andb]. change xhtml_uri with ("http://www.w3.org/1999/xhtml" : str). rewrite TX. cbn [cleanup]. unfold tools. cbn [tag clark is_comment is_chr text].
        rewrite !lead_bare, L. repeat split; reflexivity.
    + apply IHF; try tauto.
      * intros ns0 d0 i0 a0 kids0 HI. apply (TA ns0 d0 i0 a0 kids0). apply in_cons. exact HI.
      * destruct C2 as [C2|C2]; [left; exact C2|right; inversion C2; assumption].
Qed.

(** ** Visible namespaces and default values *)
Lemma in_use_visible r p opened : opens_with r opened -> prefix_in_use opened -> visible r p false <> [].
Proof.
  intros (attrs & kids & -> & F) (ns & l & d & i & a & ks & x & q & v & E & HX & HN & HD). injection E as <- <- <- <- <- <-.
  destruct (Forall2_in_r _ _ _ _ F HX) as ([[q' n'] v'] & HI & _ & _ & EN). cbn [fst snd] in EN. rewrite HN in EN. destruct q' as [q'|]; [|discriminate EN].
  assert (q = Some q') by congruence. subst q. apply in_map_iff in HD. destruct HD as ([q'' w] & E & HD). cbn [fst] in E. subst q''.
  unfold visible. destruct (existsb is_default (rt_decls r)).
  - match goal with |- filter ?f _ <> _ => assert (HF : In (Some q', w) (filter f (rt_decls r))) end.
    { apply filter_In. split; [exact HD|]. apply orb_true_iff. left. unfold attr_uses. apply existsb_exists. exists (Some q', n', v'). split; [exact HI|]. apply ostr_eqb_eq. reflexivity. }
    intros E. rewrite E in HF. destruct HF.
  - intros E. rewrite E in HD. destruct HD.
Qed.
Lemma default_bare n : no_xhtml_default n -> no_xhtml_default (bare n).
Proof.
  induction n as [c|s|s|ns l d i a kids IH] using node_ind'; intros H; try constructor.
  - intros -> ns' d' i' a' kids' HI. inversion H as [| | |? ? ? ? ? ? ND FD]; subst. apply in_map_iff in HI. destruct HI as (k & EK & HK).
    destruct k as [|ns0 l0 d0 i0 a0 k0| |]; try discriminate EK. cbn [SpaceProofs.bare] in EK. injection EK as _ -> _ _ _ _. apply (ND eq_refl _ _ _ _ _ HK).
  - inversion H as [| | |? ? ? ? ? ? ND FD]; subst. apply Forall_forall. intros k HK. apply in_map_iff in HK. destruct HK as (x & <- & HX). rewrite Forall_forall in IH, FD. auto.
Qed.
Lemma default_cleanup n : forall inh, no_xhtml_default n -> no_xhtml_default (cleanup inh n).
Proof.
  induction n as [c|s|s|ns l d i a kids IH] using node_ind'; intros inh H; try constructor.
  - intros -> ns' d' i' a' kids' HI. inversion H as [| | |? ? ? ? ? ? ND FD]; subst. apply in_map_iff in HI. destruct HI as (k & EK & HK).
    destruct k as [|ns0 l0 d0 i0 a0 k0| |]; try discriminate EK. cbn [cleanup] in EK. injection EK as _ -> _ _ _ _. apply (ND eq_refl _ _ _ _ _ HK).
  - inversion H as [| | |? ? ? ? ? ? ND FD]; subst. apply Forall_forall. intros k HK. apply in_map_iff in HK. destruct HK as (x & <- & HX). rewrite Forall_forall in IH, FD. auto.
Qed.
Lemma default_child n k : no_xhtml_default n -> In k (children n) -> no_xhtml_default k.
Proof.
  intros H HK. apply filter_In in HK. destruct HK as [HK _]. inversion H as [| | |? ? ? ? ? ? ND FD]; subst; try destruct HK. rewrite Forall_forall in FD. apply FD, HK.
Qed.
Lemma default_placed root t x : no_xhtml_default root -> placed root t x -> no_xhtml_default x.
Proof. intros H P. induction P as [x HI|t x t' k P IH _ _ _ HI]; [apply (default_child _ _ H HI)|apply (default_child _ _ IH HI)]. Qed.
Lemma default_none x tv : no_xhtml_default x -> tag x = Some "DEFAULT-VALUE" -> path_node ["ATTRIBUTE-VALUE-XHTML"; "THE-VALUE"] x = Some tv -> False.
Proof.
  intros H T E. cbn [path_node] in E. destruct (find_child "ATTRIBUTE-VALUE-XHTML" x) as [y|] eqn:EY; [|discriminate E].
  destruct x as [c|ns l d i a kids|s|s]; try discriminate T. cbn [tag] in T. injection T as T. apply (plain_clark ns l) in T; [|reflexivity]. subst l.
  inversion H as [| | |? ? ? ? ? ? ND FD]; subst. unfold find_child, find_list in EY. cbn [kids_of] in EY. apply find_some in EY. destruct EY as [HI TY].
  apply FaithProofs.tag_is_eq in TY. destruct y as [|ns' l' d' i' a' k'| |]; try discriminate TY. cbn [tag] in TY. injection TY as TY. apply (plain_clark ns' l') in TY; [|reflexivity]. subst l'.
  apply (ND eq_refl _ _ _ _ _ HI).
Qed.

(** ** C80
    [opened] is the document as XML, [root] what the parser makes of its
    namespaces.  The document is in one namespace and in the ReqIF structure, as
    for C64; the comment and the title of the header hold text only. *)
Definition header_texts (root : node) : Prop :=
  forall x, placed root "REQ-IF-HEADER" x -> In (tag x) [Some "COMMENT"; Some "TITLE"] -> children x = [].
Theorem C80_anonymized_files_are_conventional :
  forall tl raw text decl opened uri out r p u root,
    utf8_decode raw = Some text -> lxml_parse text = Some (decl, opened) -> portable false opened ->
    ns_get (node_nsmap opened) None = Some uri -> one_namespace uri opened -> orderly_root true opened ->
    prefix_in_use opened \/ no_xhtml_default opened -> tools_apart opened -> header_texts root ->
    anonymize_output tl raw = Ok out ->
    conventional_text r p u text root -> accepted_document root ->
    exists root', conventional_text r p u out root' /\ accepted_document root' /\ (writes root -> writes root').
Proof.
  intros tl raw text decl opened uri out r p u root HU HL HO NS ON OR PU TA HTX HX [(d0 & o0 & HL' & HOP) H2 H3 H4 HD HK HC] HA.
  assert (o0 = opened) by congruence. subst o0. clear HL' d0.
  assert (HD' := HD). unfold document_root in HD'. rewrite HL in HD'. destruct (strip_if_namespaced opened) as [r0|] eqn:ES; [|discriminate].
  destruct (tag_is "REQ-IF" r0) eqn:ET; [|discriminate]. assert (r0 = root) by congruence. subst r0. clear HD'.
  assert (HAT : exists om, anonymize_tree (t_sha tl) opened = Ok om).
  { destruct (anonymize_tree (t_sha tl) opened) as [om|e] eqn:E; [eauto|]. rewrite (C63_failure tl raw text decl opened e HU HL E) in HX. discriminate HX. }
  destruct HAT as [om HAT].
  destruct (C63_output_is_the_anonymized_document tl raw text decl opened om HU HL HO HAT) as (out' & d & opened' & E1 & _ & E3 & E4 & _).
  assert (out' = out) by congruence. subst out'. clear E1.
  destruct (masked_tree _ _ _ _ _ NS ON PU TA HAT ES ET) as (q & dd & i & a & ks & ks' & EO & EM & PM & rootm & ESM & ETM & KP).
  assert (CM : conventional r p u rootm).
  { apply (hid_conventional _ root rootm HTX KP r p u HC). destruct PU as [PU|PU]; [left; apply (in_use_visible r p opened HOP PU)|right].
    intros t x tv P T E. refine (default_none x tv _ T E). refine (default_placed root t x _ P).
    unfold strip_if_namespaced in ES. rewrite NS, SpaceProofs.strip_bare in ES. destruct (pi_free opened); [|discriminate ES]. apply Ok_inj' in ES. subst root.
    apply default_cleanup, default_bare, PU. }
  destruct (near_strip _ _ _ E4 PM ESM) as (root' & ES' & HN & PR). exists root'.
  assert (ET' : tag_is "REQ-IF" root' = true) by (unfold tag_is in *; rewrite <- (near_tag _ _ HN); exact ETM).
  assert (DR : document_root out = Some root') by (unfold document_root; rewrite E3, ES', ET'; reflexivity).
  assert (KNM : exists x, In x ["THE-HEADER"; "CORE-CONTENT"; "TOOL-EXTENSIONS"] /\ find_child x rootm <> None).
  { destruct HK as (x & X1 & X2). exists x. split; [exact X1|].
    assert (KT : Forall2 (hid_top (t_sha tl)) (kids_of root) (kids_of rootm)) by (clear - KP; induction KP; constructor; auto using top_pair_top).
    pose proof (top_exists (t_sha tl) x _ _ KT) as B. unfold find_child in *. destruct (find_list x (kids_of rootm)); [discriminate|]. destruct (find_list x (kids_of root)); [contradiction|exact X2]. }
  assert (KN : exists x, In x ["THE-HEADER"; "CORE-CONTENT"; "TOOL-EXTENSIONS"] /\ find_child x root' <> None).
  { destruct KNM as (x & X1 & X2). exists x. split; [exact X1|]. pose proof (near_find x _ _ HN) as F. destruct (find_child x rootm); [|congruence].
    destruct (find_child x root'); [discriminate|contradiction]. }
  assert (CH : forall x, (exists z, In z ["THE-HEADER"; "CORE-CONTENT"; "TOOL-EXTENSIONS"] /\ find_child z x <> None) -> children x <> []).
  { intros x (z & _ & HZ). destruct (find_child z x) as [k|] eqn:E; [apply (find_child_children _ _ _ E)|congruence]. }
  split; [|].
  { split; try assumption.
    - eexists _, opened'. split; [exact E3|]. destruct HOP as (attrs & kids & EO' & F). rewrite EO in EO'. injection EO' as Q1 Q2 Q3 Q4 Q5.
      subst om. apply SpaceProofs.respaced_near in E4. destruct E4 as (kids' & -> & _). exists attrs, kids'. split; [|exact F]. congruence.
    - exact (near_conventional r p u _ _ HN PR CM). }
  destruct (proj2 (C52_accepted_exactly_when text) (ex_intro _ root (conj HD HA))) as (b & HP).
  assert (RR : parse_reqif None decl opened [] = ([], Ok b)).
  { unfold parse_string in HP. destruct text as [|c s]; [discriminate HL|]. unfold parse_from_string in HP. rewrite HL in HP.
    destruct (reqif_traced decl opened) as [(evs & rest & _ & _ & TN & _) TP]. rewrite TN in HP |- *. cbn [snd] in HP. rewrite HP. reflexivity. }
  destruct (anonymized_parse (t_sha tl) None decl opened om uri NS ON PU HAT [] [] b RR) as (b1 & R1 & _).
  pose proof (anonymized_orderly _ _ _ _ _ _ _ _ _ NS ON OR HAT RR) as OR'.
  pose proof (reqif_rel false None (Some "xml version=""1.0"" encoding=""UTF-8""") om opened' (respaced_relaid_root false _ _ OR' E4) []) as [G1 G2].
  rewrite (declared_parse None decl om []), R1 in G1, G2. cbn [fst snd on_value] in G1, G2.
  destruct (parse_reqif None (Some "xml version=""1.0"" encoding=""UTF-8""") opened' []) as [h2 [b2|e]] eqn:E2; [|contradiction G2]. cbn [fst snd same_result] in G1, G2.
  assert (HP2 : parse_string out = Ok b2).
  { unfold parse_string, parse_from_string. destruct out as [|c s]; [discriminate E3|]. rewrite E3, E2. reflexivity. }
  split.
  - destruct (proj1 (C52_accepted_exactly_when out) (ex_intro _ b2 HP2)) as (x & D1 & D2). congruence.
  - intros W. assert (WM : writes rootm) by (apply (hid_writes (t_sha tl) root rootm KP), W).
    assert (PM1 : pure_reqif decl om = Ok b1).
    { destruct (reqif_traced decl om) as [(evs & rest & _ & _ & TN & _) TP]. rewrite TN in R1. rewrite TP in R1. congruence. }
    apply (writable_tree _ _ _ _ ESM PM1 (CH _ KNM)) in WM. apply (writable_related false b1 b2 G2) in WM.
    apply (C50_writable_exactly_when out b2 HP2) in WM. apply (C50_writable_exactly_when_the_tree_is out root' b2 DR HP2 (CH _ KN)). exact WM.
Qed.

(** ** With the commands
    Anonymised files that can be written are passed through, and the second
    command keeps the whole tree that the first one made. *)
Theorem C80_anonymize_then_passthrough :
  forall tl s cwd i m o raw text decl opened uri root r p u,
    fs_file s i = Some raw -> utf8_decode raw = Some text -> lxml_parse text = Some (decl, opened) -> portable false opened ->
    ns_get (node_nsmap opened) None = Some uri -> one_namespace uri opened -> orderly_root true opened ->
    prefix_in_use opened \/ no_xhtml_default opened -> tools_apart opened -> header_texts root ->
    conventional_text r p u text root -> accepted_document root -> writes root ->
    ends_with ".reqifz" m = false ->
    let first := perform tl s cwd (RAnonymize i m) in
    ended first = Exit 0 ->
    output_dir_missing (final s first) o = false -> fs_can_write (final s first) o = true ->
    let second := perform tl (final s first) cwd (RPassthrough m o) in
    ended second = Exit 0
    /\ exists out t anonymized root' root'',
         anonymize_output tl raw = Ok anonymized /\ document_root anonymized = Some root'
         /\ fs_file (final (final s first) second) o = Some out /\ utf8_decode out = Some t
         /\ document_root t = Some root'' /\ document_kept root' root'' /\ passthrough_reqif out = Ok out
         /\ (forall b, parse_string text = Ok b ->
               exists b', parse_string anonymized = Ok b' /\ hidden_bundle (t_sha tl) (SpecLayout.declared b) b').
Proof.
  intros tl s cwd i m o raw text decl opened uri root r p u HF HU HL HO NS ON OR PU TA HTX HC HAD HW EZ first EN OD CO second.
  destruct (C41_output_file tl s cwd (RAnonymize i m) m eq_refl EN) as (d & N & F & _). fold first in F. cbn [new_content] in N. rewrite HF in N.
  destruct (anonymize_output tl raw) as [a|e] eqn:EO; [|discriminate N].
  destruct (C80_anonymized_files_are_conventional tl raw text decl opened uri a r p u root HU HL HO NS ON OR PU TA HTX EO HC HAD) as (root' & HC' & AA & WW).
  assert (DE : utf8_decode d = Some a) by (apply decode_encode; congruence).
  destruct (C78_conventional_files_pass_through r p u d a root' DE HC' AA (WW HW)) as (out & t & root'' & G1 & G2 & G3 & G4 & G5).
  assert (NC : new_content tl (final s first) (RPassthrough m o) = Some out) by (cbn [new_content]; rewrite F, EZ, G1; reflexivity).
  pose proof (C41_success tl (final s first) cwd (RPassthrough m o) o out eq_refl NC OD CO) as N2. fold second in N2.
  destruct (C41_output_file tl (final s first) cwd (RPassthrough m o) o eq_refl N2) as (d' & N' & F2 & _). rewrite NC in N'. injection N' as <-.
  split; [exact N2|]. exists out, t, a, root', root''. split; [reflexivity|]. split; [apply HC'|]. split; [exact F2|].
  split; [exact G3|]. split; [exact G4|]. split; [exact G5|]. split; [exact G2|].
  intros b HB.
  unfold parse_string in HB. destruct (parse_from_string None text []) as [h1 b0] eqn:E. cbn [snd] in HB. subst b0.
  destruct (C64_anonymized_text_is_parsed tl None raw text decl opened uri a [] h1 b HU HL HO NS ON OR PU EO E) as (b' & H1 & H2).
  exists b'. split; [unfold parse_string; rewrite H1; reflexivity|exact H2].
Qed.

(** ** Examples *)
Definition anonymous_root (xsi : bool) : SpecDocument.root_tag :=
  RootTag ([(None, "http://www.omg.org/spec/ReqIF/20110401/reqif.xsd"); (Some "reqif-xhtml", "http://www.w3.org/1999/xhtml")]
            ++ (if xsi then [(Some "xsi", "http://www.w3.org/2001/XMLSchema-instance")] else []))
    (if xsi then [(Some "xsi", "schemaLocation", "a b")] else []).
Definition anonymous_example (xsi default : bool) : str :=
  "<?xml version='1.0' encoding='UTF-8'?>" ++ nl ++ "<REQ-IF xmlns='http://www.omg.org/spec/ReqIF/20110401/reqif.xsd' xmlns:reqif-xhtml='http://www.w3.org/1999/xhtml'"
  ++ (if xsi then location else []) ++ ">" ++ nl
  ++ "<THE-HEADER><REQ-IF-HEADER IDENTIFIER='h'><TITLE>t &amp; u</TITLE></REQ-IF-HEADER></THE-HEADER>" ++ nl
  ++ "<CORE-CONTENT><REQ-IF-CONTENT>" ++ nl
  ++ "<SPEC-TYPES><SPEC-OBJECT-TYPE IDENTIFIER='ot' LONG-NAME='a &lt; b'><SPEC-ATTRIBUTES><ATTRIBUTE-DEFINITION-XHTML IDENTIFIER='a'><TYPE><DATATYPE-DEFINITION-XHTML-REF>d</DATATYPE-DEFINITION-XHTML-REF></TYPE>"
  ++ (if default then "<DEFAULT-VALUE><ATTRIBUTE-VALUE-XHTML><DEFINITION><ATTRIBUTE-DEFINITION-XHTML-REF>a</ATTRIBUTE-DEFINITION-XHTML-REF></DEFINITION><THE-VALUE>a &lt; b</THE-VALUE></ATTRIBUTE-VALUE-XHTML></DEFAULT-VALUE>" else [])
  ++ "</ATTRIBUTE-DEFINITION-XHTML></SPEC-ATTRIBUTES></SPEC-OBJECT-TYPE></SPEC-TYPES>" ++ nl
  ++ "<SPEC-OBJECTS><SPEC-OBJECT IDENTIFIER='o'><VALUES><ATTRIBUTE-VALUE-XHTML><DEFINITION><ATTRIBUTE-DEFINITION-XHTML-REF>a</ATTRIBUTE-DEFINITION-XHTML-REF></DEFINITION>"
  ++ "<THE-VALUE><reqif-xhtml:div class='c'>1 &lt; 2<reqif-xhtml:br/>more</reqif-xhtml:div></THE-VALUE></ATTRIBUTE-VALUE-XHTML>"
  ++ "<ATTRIBUTE-VALUE-STRING THE-VALUE='x &amp; &quot;y&quot;'><DEFINITION><ATTRIBUTE-DEFINITION-STRING-REF>b</ATTRIBUTE-DEFINITION-STRING-REF></DEFINITION></ATTRIBUTE-VALUE-STRING></VALUES>"
  ++ "<TYPE><SPEC-OBJECT-TYPE-REF>ot</SPEC-OBJECT-TYPE-REF></TYPE></SPEC-OBJECT></SPEC-OBJECTS>" ++ nl
  ++ "</REQ-IF-CONTENT></CORE-CONTENT></REQ-IF>".
Definition tools_apartb (n : node) : bool :=
  forallb (fun k => match k with
                    | El ns l _ _ _ _ => negb (str_eqb l "TOOL-EXTENSIONS") || negb (contains "http://www.w3.org/1999/xhtml" (clark ns "TOOL-EXTENSIONS"))
                    | _ => true
                    end) (kids_of n).
Lemma tools_apartb_sound n : tools_apartb n = true -> tools_apart n.
Proof.
  unfold tools_apartb. rewrite forallb_forall. intros H ns d i a kids HI. specialize (H _ HI). cbn beta iota in H.
  rewrite str_eqb_refl in H. cbn [negb orb] in H. apply negb_true_iff, H.
Qed.
Definition header_textsb (root : node) : bool :=
  forallb (fun tx => negb (str_eqb (fst tx) "REQ-IF-HEADER" && (tag_is "COMMENT" (snd tx) || tag_is "TITLE" (snd tx)))
                     || match children (snd tx) with [] => true | _ => false end) (ConventionalCheck.all_places root).
Lemma header_textsb_sound root : header_textsb root = true -> header_texts root.
Proof.
  unfold header_textsb. rewrite forallb_forall. intros H x HP HT. apply ConventionalCheck.placed_listed in HP. specialize (H _ HP). cbn [fst snd] in H.
  assert (E : tag_is "COMMENT" x || tag_is "TITLE" x = true).
  { apply orb_true_iff. rewrite !FaithProofs.tag_is_eq. destruct HT as [HT|[HT|[]]]; auto. }
  rewrite str_eqb_refl, E in H. cbn [negb andb orb] in H. destruct (children x); [reflexivity|discriminate H].
Qed.
Definition conventional_case (r : SpecDocument.root_tag) (s : str) : Prop :=
  conventional_text r "reqif-xhtml" "http://www.w3.org/1999/xhtml" s (tree_of s) /\ accepted_document (tree_of s) /\ writes (tree_of s).
Definition anonymize_case (s : str) : Prop :=
  anonymizable s /\ tools_apart (snd (opened_of s)) /\ header_texts (tree_of s) /\ (exists out, anonymize_doc s = Ok out /\ out <> s).
Ltac conventional_case s :=
  let HD := fresh in
  assert (HD : document_root s = Some (tree_of s)) by (vm_compute; reflexivity);
  split; [|once (apply and_comm; split)];
  [split;
    [exists (fst (opened_of s)), (snd (opened_of s)); split; [vm_compute; reflexivity|];
     exists (match snd (opened_of s) with El _ _ _ _ a _ => a | _ => [] end), (kids_of (snd (opened_of s))); split; [vm_compute; reflexivity|once (vm_compute; repeat constructor)]
    |apply root_okb_ok; vm_compute; reflexivity
    |split; [reflexivity|discriminate]
    |vm_compute; reflexivity
    |exact HD
    |exists "THE-HEADER"; split; [left; reflexivity|vm_compute; discriminate]
    |apply ConventionalCheck.conventionalb_ok; vm_compute; reflexivity]
  |apply (C50_writable_exactly_when_the_tree_is _ _ (or_empty (parse_string s)) HD); [vm_compute; reflexivity|vm_compute; discriminate|];
   exists (match unparse_string (or_empty (parse_string s)) with Ok t => t | Raise _ => [] end); vm_compute; reflexivity
  |let HE := fresh in
   assert (HE : exists b, parse_string s = Ok b) by (exists (or_empty (parse_string s)); vm_compute; reflexivity);
   apply C52_accepted_exactly_when in HE; let r0 := fresh in let E := fresh in let H := fresh in let E2 := fresh in
   destruct HE as (r0 & E & H); assert (E2 : r0 = tree_of s) by congruence; rewrite <- E2; exact H].
Example C80_example :
  (conventional_case (anonymous_root false) (anonymous_example false false) /\ anonymize_case (anonymous_example false false))
  /\ (conventional_case (anonymous_root true) (anonymous_example true true) /\ anonymize_case (anonymous_example true true)).
Proof.
  split; (split; [|split; [eapply anonymizable_check; [vm_compute; reflexivity|vm_compute; reflexivity|]; vm_compute; reflexivity|];
    split; [apply tools_apartb_sound; vm_compute; reflexivity|]; split; [apply header_textsb_sound; vm_compute; reflexivity|];
    eexists; split; [vm_compute; reflexivity|vm_compute; discriminate]]).
  - conventional_case (anonymous_example false false).
  - conventional_case (anonymous_example true true).
Qed.

(** ** What happens otherwise
    Files with an XHTML default value and no attribute that keeps the prefixes
    alive can be passed through; once anonymised, they cannot even be parsed. *)
Theorem C80_anonymized_files_are_conventional_refuted :
  exists s out, conventional_case (anonymous_root false) s /\ anonymize_doc s = Ok out
    /\ tools_apart (snd (opened_of s)) /\ header_texts (tree_of s)
    /\ parse_string out = Raise EAssertionError
    /\ forall r p u root, conventional_text r p u out root -> ~ accepted_document root.
Proof.
  exists (anonymous_example false true), (match anonymize_doc (anonymous_example false true) with Ok t => t | Raise _ => [] end).
  split; [conventional_case (anonymous_example false true)|]. split; [vm_compute; reflexivity|].
  split; [apply tools_apartb_sound; vm_compute; reflexivity|]. split; [apply header_textsb_sound; vm_compute; reflexivity|].
  assert (E : parse_string (match anonymize_doc (anonymous_example false true) with Ok t => t | Raise _ => [] end) = Raise EAssertionError) by (vm_compute; reflexivity).
  split; [exact E|]. intros r p u root HC HA.
  assert (X : exists b, parse_string (match anonymize_doc (anonymous_example false true) with Ok t => t | Raise _ => [] end) = Ok b)
    by (apply C52_accepted_exactly_when; exists root; split; [apply HC|exact HA]).
  destruct X as [b X]. rewrite E in X. discriminate X.
Qed.

Print Assumptions C80_anonymized_files_are_conventional.
Print Assumptions C80_anonymize_then_passthrough.
Print Assumptions C80_anonymized_files_are_conventional_refuted.
