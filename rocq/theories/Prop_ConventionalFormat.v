(** Prop_ConventionalFormat.v -- conventional files stay conventional when they
    are formatted (C79) *)
From Verif Require Import Base Xml Utf8 Lxml Py LxmlStr Models AttrDef Header Progress Parser Unparser Serialise Validate Zip Anonymize Dump Commands
  SpecCommands Prop_Commands SpecAccept SpecXml SpecEscape SpecPrint SpecXhtml SpecDocument SpecFormat SpecLayout SpecSettle SpecParse SpecKeep SpecConventional
  DictProofs SettleProofs ProgressProofs ParserProofs EscapeProofs FormatProofs SpaceProofs LayoutProofs Utf8Proofs LineProofs AcceptProofs
  Prop_Accept Prop_Document Prop_Settle Prop_Keep Prop_Format Prop_Reformat Prop_Conventional.

(** ** What two elements that differ in white space have in common *)
Notation near_to := (respaced false).
Lemma near_tag n n' : near_to n n' -> tag n = tag n'.
Proof. intros H. inversion H; reflexivity. Qed.
Lemma near_attr k n n' : near_to n n' -> attr_opt k n = attr_opt k n'.
Proof. intros H. inversion H; reflexivity. Qed.
Lemma near_nsmap n n' : near_to n n' -> node_nsmap n = node_nsmap n'.
Proof. intros H. inversion H; reflexivity. Qed.
Lemma near_comment n n' : near_to n n' -> is_comment n = is_comment n'.
Proof. intros H. inversion H; reflexivity. Qed.
Lemma near_children n n' : near_to n n' -> Forall2 near_to (children n) (children n').
Proof.
  intros H. destruct n as [c|ns l d i a kids|s|s]; try (inversion H; subst; constructor).
  apply respaced_near in H. destruct H as (kids' & -> & [[H ->]|(t & t' & m & m' & A & -> & -> & D & E & F & G)]).
  - unfold children. cbn [kids_of]. induction kids as [|k kids IH]; [constructor|]. cbn [forallb filter] in *.
    apply andb_prop in H. destruct H as [H1 H2]. rewrite H1. cbn [negb]. apply IH, H2.
  - rewrite <- !items_children; cbn [kids_of]; rewrite !items_un by assumption. clear - G. induction G as [|x y m m' [G1 _] _ IH]; constructor; assumption.
Qed.
Lemma near_find t n n' : near_to n n' ->
  match find_child t n, find_child t n' with Some k, Some k' => near_to k k' | None, None => True | _, _ => False end.
Proof.
  intros H. apply near_children in H.
  assert (E : forall x, find_child t x = find (tag_is t) (children x)).
  { intros x. unfold find_child, find_list, children. induction (kids_of x) as [|k ks IH]; [reflexivity|]. cbn [filter find].
    destruct k; cbn [is_chr negb find]; [exact IH|destruct (tag_is _ _); [reflexivity|exact IH]..]. }
  rewrite !E. induction H as [|x y l l' H _ IH]; [exact I|]. cbn [find].
  assert (ET : tag_is t x = tag_is t y) by (unfold tag_is; rewrite (near_tag _ _ H); reflexivity). rewrite ET. destruct (tag_is t y); [exact H|exact IH].
Qed.
Lemma near_path p : forall n n', near_to n n' ->
  match path_node p n, path_node p n' with Some k, Some k' => near_to k k' | None, None => True | _, _ => False end.
Proof.
  induction p as [|t p IH]; intros n n' H; [exact H|]. cbn [path_node]. pose proof (near_find t n n' H) as F.
  destruct (find_child t n), (find_child t n'); try contradiction; first [apply IH, F|exact I].
Qed.
Lemma near_path_back p n n' k' : near_to n n' -> path_node p n' = Some k' -> exists k, path_node p n = Some k /\ near_to k k'.
Proof. intros H E. pose proof (near_path p n n' H) as P. rewrite E in P. destruct (path_node p n) as [k|]; [eauto|contradiction]. Qed.
Lemma near_items t n n' : near_to n n' ->
  match section_items t n, section_items t n' with Some l, Some l' => Forall2 near_to l l' | None, None => True | _, _ => False end.
Proof.
  intros H. unfold section_items. pose proof (near_find t n n' H) as F. destruct (find_child t n), (find_child t n'); try contradiction; cbn [option_map]; [apply near_children, F|exact I].
Qed.
Lemma lead_un t m : marks m -> lead (unpieces (t, m)) = t.
Proof.
  intros M. unfold unpieces. cbn [fst snd]. induction t as [|c t IH]; cbn; [|rewrite IH; reflexivity].
  destruct M as [|[n s] m HN _]; [reflexivity|]. cbn in *. destruct n; [discriminate|reflexivity..].
Qed.
(** the text is the same, or white space *)
Lemma near_text n n' v : near_to n n' -> pi_free n = true -> text n' = Some v -> text n = Some v \/ (is_comment n' = false /\ v <> [] /\ blank v).
Proof.
  intros H PF E. destruct n as [c|ns l d i a kids|s|s].
  - inversion H.
  - apply respaced_near in H. destruct H as (kids' & -> & [[H ->]|(t & t' & m & m' & A & -> & -> & D & E' & F & G)]); [left; exact E|].
    cbn [text] in *. rewrite lead_un in E |- * by assumption. destruct F as [->|[F1 F2]]; [left; exact E|]. right.
    destruct t' as [|c t']; [discriminate|]. cbn [opt_text] in E. assert (v = c :: t') by congruence. subst v. split; [reflexivity|]. split; [discriminate|exact F2].
  - left. revert E. inversion H as [? s' X| | |]; subst. assert (s' = s) by (clear - X; induction X as [|c s s' _ _ IH|c w s s' HB]; [reflexivity|congruence|discriminate HB]). subst s'. auto.
  - discriminate.
Qed.

(** ** Conventional trees *)
Lemma Forall2_in_r {A B} (R : A -> B -> Prop) l l' y : Forall2 R l l' -> In y l' -> exists x, In x l /\ R x y.
Proof.
  induction 1 as [|a b l l' H _ IH]; [contradiction|]. intros [->|HI]; [exists a; split; [left; reflexivity|exact H]|].
  destruct (IH HI) as (z & Z1 & Z2). exists z. split; [right; exact Z1|exact Z2].
Qed.
Lemma near_pi_children n k : pi_free n = true -> In k (children n) -> pi_free k = true.
Proof.
  intros H HI. destruct n as [c|ns l d i a kids|s|s]; try destruct HI. cbn [pi_free] in H. unfold children in HI. cbn [kids_of] in HI.
  apply filter_In in HI. rewrite forallb_forall in H. apply H, HI.
Qed.
Lemma near_places t n n' : near_to n n' -> (xhtml_place t n <-> xhtml_place t n') /\ (tool_place t n <-> tool_place t n').
Proof. intros H. unfold xhtml_place, tool_place. rewrite (near_tag _ _ H). tauto. Qed.
Lemma near_placed root root' : near_to root root' -> pi_free root = true ->
  forall t x', placed root' t x' -> exists x, placed root t x /\ near_to x x' /\ pi_free x = true.
Proof.
  intros H PF t x' P. induction P as [x' HI|t x' t' k' P (x & IP & IN & IF) NX NT ET HI].
  - apply near_children in H. destruct (Forall2_in_r _ _ _ _ H HI) as (x & HX & HN). exists x. split; [apply placed_top, HX|]. split; [exact HN|].
    exact (near_pi_children _ _ PF HX).
  - pose proof (near_children _ _ IN) as C. destruct (Forall2_in_r _ _ _ _ C HI) as (k & HK & KN). exists k. split; [|split; [exact KN|exact (near_pi_children _ _ IF HK)]].
    destruct (near_places t _ _ IN) as [P1 P2]. apply (placed_below root t x t'); [exact IP|tauto|tauto|rewrite (near_tag _ _ IN); exact ET|exact HK].
Qed.
Lemma blank_raw v : blank v -> text_raw v.
Proof.
  intros H. split.
  - apply Forall_impl with (2 := H). intros c HC. cbn [In] in HC. destruct HC as [<-|[<-|[<-|[]]]]; (split; [reflexivity|cbn [In]; intuition discriminate]).
  - intros a b ->. unfold blank in H. rewrite !Forall_app in H. destruct H as (_ & H & _). inversion H as [|? ? X]. cbn [In] in X. intuition discriminate.
Qed.

Lemma all_ok ks : (fix all ks := match ks with [] => True | k :: ks' => xh_ok k /\ all ks' end) ks <-> Forall xh_ok ks.
Proof. induction ks as [|k ks IH]; [split; auto|]. split; [intros [H1 H2]; constructor; [exact H1|apply IH, H2]|intros H; inversion H; subst; split; [assumption|apply IH; assumption]]. Qed.
Lemma markup_text u t f : Forall2 (markup u) (map Chr t) f -> f = map XT t.
Proof.
  revert f. induction t as [|c t IH]; intros f H; inversion H as [|? ? ? ? H1 H2]; subst; [reflexivity|]. inversion H1; subst. cbn [map]. f_equal. apply IH, H2.
Qed.
Lemma text_markup u t : Forall2 (markup u) (map Chr t) (map XT t).
Proof. induction t; constructor; [constructor|assumption]. Qed.
Lemma same_text_ok t t' : same_text t t' -> Forall xh_ok (map XT t) -> Forall xh_ok (map XT t').
Proof.
  intros [->|[_ B]] H; [exact H|]. rewrite Forall_map. apply Forall_impl with (2 := B). intros c HC. cbn [In] in HC.
  destruct HC as [<-|[<-|[<-|[]]]]; (split; [reflexivity|discriminate]).
Qed.
Lemma has_markup_app f g : has_markup (f ++ g) = has_markup f || has_markup g.
Proof. apply existsb_app. Qed.
Lemma has_markup_text t : has_markup (map XT t) = false.
Proof. induction t; [reflexivity|assumption]. Qed.
Section Markup.
Variable u : str.
Let P n n' := forall x, markup u n x -> xh_ok x -> exists x', markup u n' x' /\ xh_ok x'.
Lemma near_forest kids kids' f :
  near (fun x y => near_to x y /\ P x y) kids kids' -> Forall2 (markup u) kids f -> Forall xh_ok f ->
  exists f', Forall2 (markup u) kids' f' /\ Forall xh_ok f' /\ has_markup f' = has_markup f /\ (has_markup f = false -> f' = f /\ kids' = kids).
Proof.
  intros [[H ->]|(t & t' & m & m' & A & -> & -> & D & E & F & G)] HF HO; [exists f; auto|].
  unfold unpieces in HF |- *. cbn [fst snd] in *. apply Forall2_app_inv_l in HF. destruct HF as (f1 & f2 & F1 & F2 & ->).
  apply markup_text in F1. subst f1. rewrite Forall_app in HO. destruct HO as [O1 O2].
  assert (X : exists f2', Forall2 (markup u) (flat_map (fun y => fst y :: map Chr (snd y)) m') f2' /\ Forall xh_ok f2' /\ has_markup f2' = has_markup f2 /\ has_markup f2 = true).
  { destruct G as [|x y m m' G0 G]; [congruence|]. clear A.
    assert (X : exists f2', Forall2 (markup u) (flat_map (fun y => fst y :: map Chr (snd y)) (y :: m')) f2' /\ Forall xh_ok f2').
    { assert (G' := Forall2_cons _ _ G0 G). clear G0 G E F. revert f2 F2 O2 D. induction G' as [|x0 y0 l l' [[_ G1] G2] _ IH]; intros f2 F2 O2 D; [exists []; split; constructor|].
      cbn [flat_map app] in F2 |- *. inversion F2 as [|? z ? f3 M1 M2]; subst. apply Forall2_app_inv_l in M2. destruct M2 as (f4 & f5 & M3 & M4 & ->).
      apply markup_text in M3. subst f4. inversion O2 as [|? ? O3 O4]; subst. rewrite Forall_app in O4. destruct O4 as [O4 O5]. inversion D as [|? ? D1 D2]; subst.
      destruct (G1 z M1 O3) as (z' & Z1 & Z2). destruct (IH f5 M4 O5 D2) as (f5' & I1 & I2).
      exists (z' :: map XT (snd y0) ++ f5'). split; [constructor; [exact Z1|apply Forall2_app; [apply text_markup|exact I1]]|].
      constructor; [exact Z2|]. apply Forall_app. split; [apply (same_text_ok _ _ G2 O4)|exact I2]. }
    assert (HM : forall (x : node * str) l g, is_chr (fst x) = false -> Forall2 (markup u) (flat_map (fun y => fst y :: map Chr (snd y)) (x :: l)) g -> has_markup g = true).
    { intros [x0 s0] l g HC HG. cbn [flat_map app fst snd] in HG, HC. inversion HG as [|? z ? g' M1 M2]; subst. inversion M1; subst; [discriminate|reflexivity]. }
    destruct X as (f2' & X1 & X2). exists f2'. split; [exact X1|]. split; [exact X2|].
    inversion D as [|? ? D1 _]; inversion E as [|? ? E1 _]; subst. rewrite (HM _ _ _ E1 X1), (HM _ _ _ D1 F2). auto. }
  destruct X as (f2' & X1 & X2 & X3 & X4). exists (map XT t' ++ f2'). split; [apply Forall2_app; [apply text_markup|exact X1]|].
  split; [apply Forall_app; split; [apply (same_text_ok _ _ F O1)|exact X2]|]. rewrite !has_markup_app, !has_markup_text, X3, X4. split; [reflexivity|discriminate].
Qed.
Lemma near_markup n n' : near_to n n' -> P n n'.
Proof.
  revert n n'. apply respaced_rect.
  - intros s x H. inversion H.
  - intros s s' _ x H. inversion H.
  - intros ns l d i a kids kids' H x M OK. inversion M as [|q ? ? attrs ? f NI MF]; subst. cbn [xh_ok] in OK. destruct OK as (O1 & O2 & O3 & O4).
    apply all_ok in O4. destruct (near_forest kids kids' f H MF O4) as (f' & F1 & F2 & _). exists (XE l attrs f'). split; [constructor; assumption|].
    cbn [xh_ok]. do 3 (split; [assumption|]). apply all_ok, F2.
Qed.
End Markup.
Lemma near_value u n n' f : near_to n n' -> Forall2 (markup u) (kids_of n) f -> forest_ok f ->
  exists f', Forall2 (markup u) (kids_of n') f' /\ forest_ok f' /\ has_markup f' = has_markup f /\ (has_markup f = false -> f' = f).
Proof.
  intros H HF HO. destruct n as [c|ns l d i a kids|s|s].
  - inversion H.
  - apply respaced_near in H. destruct H as (kids' & -> & H). cbn [kids_of] in *.
    destruct (near_forest u kids kids' f) as (f' & F1 & F2 & F3 & F4); [|assumption|assumption|].
    + apply near_mono with (2 := H). intros x y G. split; [exact G|apply near_markup, G].
    + exists f'. split; [exact F1|]. split; [exact F2|]. split; [exact F3|]. intros X. apply F4, X.
  - inversion H; subst. cbn [kids_of] in *. exists f. auto.
  - inversion H; subst. cbn [kids_of] in *. exists f. auto.
Qed.
Lemma near_marked root root' : near_to root root' -> marked root -> marked root'.
Proof.
  intros H (rc & ks & o & vs & v & tv & k & M1 & M2 & M3 & M4 & M5 & M6 & M7 & M8).
  pose proof (near_path ["CORE-CONTENT"; "REQ-IF-CONTENT"] _ _ H) as X1. rewrite M1 in X1. destruct (path_node _ root') as [rc'|] eqn:E1; [|contradiction].
  pose proof (near_items "SPEC-OBJECTS" _ _ X1) as X2. rewrite M2 in X2. destruct (section_items "SPEC-OBJECTS" rc') as [ks'|] eqn:E2; [|contradiction].
  destruct (Forall2_in_l _ _ _ _ X2 M3) as (o' & E3 & X3).
  pose proof (near_items "VALUES" _ _ X3) as X4. rewrite M4 in X4. destruct (section_items "VALUES" o') as [vs'|] eqn:E4; [|contradiction].
  destruct (Forall2_in_l _ _ _ _ X4 M5) as (v' & E5 & X5).
  pose proof (near_find "THE-VALUE" _ _ X5) as X6. rewrite M7 in X6. destruct (find_child "THE-VALUE" v') as [tv'|] eqn:E6; [|contradiction].
  destruct (Forall2_in_l _ _ _ _ (near_children _ _ X6) M8) as (k' & E7 & _).
  exists rc', ks', o', vs', v', tv', k'. rewrite <- (near_tag _ _ X5). auto 10.
Qed.
Lemma near_visible r p root root' : near_to root root' -> stays_visible r p root -> stays_visible r p root'.
Proof. intros H [V|[M V]]; [left; exact V|right; split; [exact (near_marked _ _ H M)|exact V]]. Qed.
Lemma near_conventional r p u root root' :
  near_to root root' -> pi_free root = true -> conventional r p u root -> conventional r p u root'.
Proof.
  intros H PF [C1 C2 C3 C4 C5]. pose proof (near_placed _ _ H PF) as NP. split.
  - intros t x' own k v PL ET EA. destruct (NP t x' PL) as (x & HP & HN & _). rewrite <- (near_tag _ _ HN) in ET. rewrite <- (near_attr _ _ _ HN) in EA. eauto.
  - intros t x' v PL [T1 T2] ET. destruct (NP t x' PL) as (x & HP & HN & HF). destruct (near_places t _ _ HN) as [P1 _].
    destruct (near_text _ _ _ HN HF ET) as [E|(E1 & E2 & E3)].
    + destruct (C2 t x v HP) as [F1 F2]; [split; [tauto|rewrite (near_comment _ _ HN); exact T2]|exact E|]. split; [exact F1|]. rewrite <- (near_tag _ _ HN). exact F2.
    + split; [exact E2|]. left. apply blank_raw, E3.
  - intros t x' PL XP. destruct (NP t x' PL) as (x & HP & HN & _). destruct (near_places t _ _ HN) as [P1 _]. destruct (C3 t x HP (proj2 P1 XP)) as (f & F1 & F2 & F3 & F4).
    destruct (near_value u _ _ f HN F2 F1) as (f' & G1 & G2 & G3 & G4). exists f'. split; [exact G2|]. split; [exact G1|]. rewrite G3, <- (near_nsmap _ _ HN).
    split; [exact F3|]. intros E. rewrite (G4 E). destruct (F4 E) as [[V1 V2]|V]; [left; split; [exact V1|exact (near_visible _ _ _ _ H V2)]|right; exact V].
  - intros t x' tv' PL ET EP. destruct (NP t x' PL) as (x & HP & HN & _). rewrite <- (near_tag _ _ HN) in ET.
    destruct (near_path_back _ _ _ _ HN EP) as (tv & EV & HV). destruct (C4 t x tv HP ET EV) as [V|V]; [left|right; exact (near_visible _ _ _ _ H V)].
    pose proof (near_children _ _ HV) as X. intros E. rewrite E in X. inversion X. congruence.
  - intros t x' d' more PL ET EC. destruct (NP t x' PL) as (x & HP & HN & _). rewrite <- (near_tag _ _ HN) in ET.
    pose proof (near_children _ _ HN) as X. rewrite EC in X. inversion X as [|d ? mr ? X1 X2 X3]; subst. rewrite <- (near_tag _ _ X1). symmetry in X3. eauto.
Qed.

(** ** Documents *)
Lemma forallb_map {A B} (f : B -> bool) (g : A -> B) l : forallb f (map g l) = forallb (fun x => f (g x)) l.
Proof. induction l as [|x l IH]; [reflexivity|]. cbn. rewrite IH. reflexivity. Qed.
Lemma forallb_same {A} (f g : A -> bool) l : Forall (fun x => f x = g x) l -> forallb f l = forallb g l.
Proof. induction 1 as [|x l H _ IH]; [reflexivity|]. cbn. rewrite H, IH. reflexivity. Qed.
Lemma pi_bare full n : pi_free (bare full n) = pi_free n.
Proof.
  induction n as [c|s|s|ns l d i a kids IH] using node_ind'; try reflexivity. cbn [bare pi_free]. rewrite forallb_map. apply forallb_same, IH.
Qed.
Lemma pi_cleanup n : forall inh, pi_free (cleanup inh n) = pi_free n.
Proof.
  induction n as [c|s|s|ns l d i a kids IH] using node_ind'; intros inh; try reflexivity. cbn [cleanup pi_free]. rewrite forallb_map.
  apply forallb_same. apply Forall_impl with (2 := IH). intros k H. apply H.
Qed.
Lemma near_strip o o' r : near_to o o' -> pi_free o = true -> strip_if_namespaced o = Ok r ->
  exists r', strip_if_namespaced o' = Ok r' /\ near_to r r' /\ pi_free r = true.
Proof.
  intros H PF E. unfold strip_if_namespaced in *. rewrite <- (near_nsmap _ _ H). destruct (ns_get (node_nsmap o) None).
  - rewrite strip_bare in E |- *. rewrite <- (pi_respaced _ _ H), PF in *. apply Ok_inj' in E. subst r. eexists. split; [reflexivity|].
    split; [apply cleanup_respaced, bare_respaced, H|]. rewrite pi_cleanup, pi_bare. exact PF.
  - apply Ok_inj' in E. subst r. eauto.
Qed.
Lemma writable_ad w a : writable_attr_def (k_ad w a) <-> writable_attr_def a.
Proof.
  assert (EO : ad_order (k_ad w a) = ad_order a).
  { unfold ad_order, k_ad. destruct w; cbn [sk_ad ad_xml_node z_ad]; [unfold squeeze_attr_def; destruct (ad_type a)|]; cbn [ad_xml_node]; destruct (ad_xml_node a); cbn [option_map order_of]; rewrite ?skel_tags; reflexivity. }
  assert (ET : ad_type (k_ad w a) = ad_type a) by (unfold k_ad; destruct w; cbn [sk_ad ad_type z_ad]; [unfold squeeze_attr_def; destruct (ad_type a) eqn:E; cbn [ad_type]; rewrite ?E|]; reflexivity).
  assert (ER : ad_default_value_definition_ref (k_ad w a) = ad_default_value_definition_ref a)
    by (unfold k_ad; destruct w; cbn [sk_ad ad_default_value_definition_ref z_ad]; [unfold squeeze_attr_def; destruct (ad_type a)|]; reflexivity).
  assert (EV : (exists v, ad_default_value (k_ad w a) = DVStr v) <-> (exists v, ad_default_value a = DVStr v)).
  { unfold k_ad. destruct w; cbn [sk_ad ad_default_value z_ad]; [|tauto]. unfold squeeze_attr_def. destruct (ad_type a); try tauto. cbn [ad_default_value].
    destruct (ad_default_value a); split; intros [v E]; try discriminate; eauto. }
  unfold writable_attr_def. rewrite EO, ET, ER. split; intros [H1 H2]; (split; [exact H1|]); intros v HV.
  - destruct (proj2 EV (ex_intro _ v HV)) as (z & HW). exact (H2 z HW).
  - destruct (proj1 EV (ex_intro _ v HV)) as (z & HW). exact (H2 z HW).
Qed.
Lemma Forall_same {A} (P Q : A -> Prop) l : (forall x, P x <-> Q x) -> (Forall P l <-> Forall Q l).
Proof. intros H. rewrite !Forall_forall. split; intros X y HY; apply H, X, HY. Qed.
Lemma writable_k w c : writable_content (k_content w c) <-> writable_content c.
Proof.
  assert (IM : forall A B (f : A -> B) o, SpecDocument.items (map_list f o) = map f (SpecDocument.items o)) by (intros A B f [l|]; reflexivity).
  unfold writable_content, k_content, map_content. cbn [rc_spec_types rc_spec_objects rc_spec_relations].
  unfold writable_spec_object, writable_spec_relation.
  rewrite !IM, !Forall_map.
  assert (E1 : flat_map type_definitions (map (k_st w) (SpecDocument.items (rc_spec_types c))) = map (k_ad w) (flat_map type_definitions (SpecDocument.items (rc_spec_types c)))).
  { induction (SpecDocument.items (rc_spec_types c)) as [|t l IH]; [reflexivity|]. cbn [map flat_map]. rewrite IH, map_app. f_equal. destruct t; apply IM. }
  rewrite E1, Forall_map. rewrite (Forall_same _ _ _ (writable_ad w)).
  rewrite (Forall_same (fun x => In (Some "VALUES") (so_order (k_so w x))) (fun x => In (Some "VALUES") (so_order x)))
    by (intros o; unfold so_order, k_so; cbn [so_xml_node]; destruct (so_xml_node o); cbn [option_map order_of]; rewrite ?skel_tags; reflexivity).
  rewrite (Forall_same (fun x => Forall _ (sr_order (k_sr w x))) (fun x => Forall (fun t => In t (map Some ["TYPE"; "SOURCE"; "TARGET"; "VALUES"])) (sr_order x)));
    [reflexivity|]. intros o. unfold sr_order, k_sr. cbn [sr_xml_node]. destruct (sr_xml_node o); cbn [option_map order_of]; rewrite ?skel_tags; reflexivity.
Qed.
Lemma writable_related w b b' : bundle_rel w (SpecLayout.declared b) b' -> (writable_bundle b <-> writable_bundle b').
Proof.
  intros (H1 & H2 & H3 & _). unfold writable_bundle. rewrite <- H1, <- H2. cbn [SpecLayout.declared b_namespace_info b_header b_core_content ni_dump ni_namespace ni_configuration] in *.
  assert (HC : (forall c, b_core_content b = Some (Some c) -> writable_content c) <-> (forall c, b_core_content b' = Some (Some c) -> writable_content c)).
  { destruct (b_core_content b) as [[c|]|], (b_core_content b') as [[c'|]|]; cbn [option_map] in H3; try discriminate; try (split; intros _ x E; discriminate).
    assert (E : k_content w c = k_content w c') by congruence.
    assert (HC : writable_content c <-> writable_content c') by (rewrite <- (writable_k w c), E; apply writable_k).
    split; intros W x HX; [assert (x = c') by congruence|assert (x = c) by congruence]; subst x; apply HC, W; reflexivity. }
  tauto.
Qed.

(** ** C79
    [opened] is the document as XML, [root] what the parser makes of its
    namespaces.  Formatting leaves the document conventional, accepted and
    writable if it was, and changes white space only. *)
Theorem C79_formatted_files_are_conventional :
  forall r p u s decl opened root t,
    read_document s = Some (decl, opened) -> in_utf8 decl ->
    portable true opened -> Forall (portable true) (fst (surroundings s)) -> Forall (portable true) (snd (surroundings s)) ->
    tidy_root true opened -> ascii_markup opened -> pi_free opened = true ->
    format_text s = Ok t -> conventional_text r p u s root ->
    exists root', conventional_text r p u t root' /\ respaced false root root'
      /\ (accepted_document root <-> accepted_document root')
      /\ (accepted_document root -> (writes root <-> writes root')).
Proof.
  intros r p u s decl opened root t HR HE P1 P2 P3 HT HA PF HF [(d0 & o0 & HL & HO) H2 H3 H4 HD HK HC].
  destruct (C60_formatting_keeps_the_document s decl opened HR P1 P2 P3) as (t0 & opened' & E1 & _ & _ & E4 & E5 & _).
  assert (t0 = t) by congruence. subst t0. pose proof (utf8_document _ _ _ HR HE) as HL'. rewrite HL in HL'. assert (o0 = opened) by congruence. subst o0.
  apply (ascii_respaced _ _ HA) in E5.
  assert (HD' := HD). unfold document_root in HD'. rewrite HL in HD'. destruct (strip_if_namespaced opened) as [r0|] eqn:ES; [|discriminate].
  destruct (tag_is "REQ-IF" r0) eqn:ET; [|discriminate]. assert (r0 = root) by congruence. subst r0.
  destruct (near_strip _ _ _ E5 PF ES) as (root' & ES' & HN & PR). exists root'.
  assert (ET' : tag_is "REQ-IF" root' = true) by (unfold tag_is in *; rewrite <- (near_tag _ _ HN); exact ET).
  assert (DR : document_root t = Some root') by (unfold document_root; rewrite E4, ES', ET'; reflexivity).
  assert (KN : exists x, In x ["THE-HEADER"; "CORE-CONTENT"; "TOOL-EXTENSIONS"] /\ find_child x root' <> None).
  { destruct HK as (x & X1 & X2). exists x. split; [exact X1|]. pose proof (near_find x _ _ HN) as F. destruct (find_child x root); [|congruence].
    destruct (find_child x root'); [discriminate|contradiction]. }
  assert (CT : conventional_text r p u t root').
  { split; try assumption.
    - eexists _, opened'. split; [exact E4|]. destruct HO as (attrs & kids & -> & F). apply respaced_near in E5. destruct E5 as (kids' & -> & _). exists attrs, kids'. auto.
    - exact (near_conventional r p u _ _ HN PR HC). }
  split; [exact CT|]. split; [exact HN|].
  destruct (formatted_parse true None s decl opened t [] HR HE P1 P2 P3 HT HF) as [_ SR].
  fold (parse_string s) in SR. fold (parse_string t) in SR.
  assert (AC : forall x y, document_root x = Some y -> (accepted_document y <-> exists b, parse_string x = Ok b)).
  { intros x y HX. rewrite (C52_accepted_exactly_when x). split; [eauto|]. intros (y' & H5 & H6). congruence. }
  assert (CH : forall x, (exists z, In z ["THE-HEADER"; "CORE-CONTENT"; "TOOL-EXTENSIONS"] /\ find_child z x <> None) -> children x <> []).
  { intros x (z & _ & HZ). destruct (find_child z x) as [k|] eqn:E; [apply (find_child_children _ _ _ E)|congruence]. }
  split.
  - rewrite (AC s root HD), (AC t root' DR). destruct (parse_string s) as [b|], (parse_string t) as [b'|]; try contradiction; [split; eauto|split; intros [? ?]; discriminate].
  - intros A. apply (AC s root HD) in A. destruct A as (b & HP). rewrite HP in SR. destruct (parse_string t) as [b'|] eqn:HP'; [|contradiction]. cbn [same_result] in SR.
    rewrite <- (C50_writable_exactly_when_the_tree_is s root b HD HP (CH _ HK)), <- (C50_writable_exactly_when_the_tree_is t root' b' DR HP' (CH _ KN)).
    rewrite (C50_writable_exactly_when s b HP), (C50_writable_exactly_when t b' HP'). apply (writable_related true), SR.
Qed.

(** ** Without elements in XHTML values *)
Lemma unparse_declared cb b h : unparse cb (SpecLayout.declared b) h = unparse cb b h.
Proof. reflexivity. Qed.
(** Then it makes no difference for passthrough whether the file has been
    formatted before. *)
Theorem C79_formatting_makes_no_difference :
  forall raw s decl opened t,
    utf8_decode raw = Some s -> read_document s = Some (decl, opened) -> in_utf8 decl ->
    portable true opened -> Forall (portable true) (fst (surroundings s)) -> Forall (portable true) (snd (surroundings s)) ->
    tidy_root false opened -> format_text s = Ok t ->
    forall out, passthrough_reqif raw = Ok out <-> passthrough_reqif t = Ok out.
Proof.
  intros raw s decl opened t HU HR HE P1 P2 P3 HT HF out.
  destruct (C60_formatting_keeps_the_document s decl opened HR P1 P2 P3) as (t0 & opened' & E1 & E2 & _).
  assert (t0 = t) by congruence. subst t0. pose proof (utf8_document _ _ _ HR HE) as HL.
  destruct (formatted_parse false None s decl opened t [] HR HE P1 P2 P3 HT HF) as [_ SR].
  assert (EU : forall x, parse_string (universal_newlines x) = parse_string x)
    by (intros x; unfold parse_string; rewrite parse_from_string_un; reflexivity).
  unfold passthrough_reqif. rewrite HU, (ascii_bytes _ E2), !EU. fold (parse_string s) in SR. fold (parse_string t) in SR.
  destruct (parse_string s) as [b|] eqn:HP, (parse_string t) as [b'|]; try contradiction; [|split; discriminate]. cbn [same_result bind] in *.
  unfold unparse_string. rewrite <- (bundle_rel_text None _ b' [] SR), unparse_declared. reflexivity.
Qed.

(** ** The commands one after the other
    [reqif format i m] and then [reqif passthrough m o]: both succeed, and [o]
    holds a file with the document of [i], up to white space. *)
Theorem C79_format_then_passthrough :
  forall tl s cwd i m o raw text decl opened root r p u,
    fs_file s i = Some raw -> utf8_decode raw = Some text -> read_document text = Some (decl, opened) -> in_utf8 decl ->
    portable true opened -> Forall (portable true) (fst (surroundings text)) -> Forall (portable true) (snd (surroundings text)) ->
    tidy_root true opened -> ascii_markup opened -> pi_free opened = true ->
    conventional_text r p u text root -> accepted_document root -> writes root ->
    fs_can_write s m = true -> ends_with ".reqifz" m = false ->
    let first := perform tl s cwd (RFormat i m) in
    output_dir_missing (final s first) o = false -> fs_can_write (final s first) o = true ->
    let second := perform tl (final s first) cwd (RPassthrough m o) in
    ended first = Exit 0 /\ ended second = Exit 0
    /\ exists out t root' root'', fs_file (final (final s first) second) o = Some out /\ utf8_decode out = Some t
         /\ document_root t = Some root'' /\ respaced false root root' /\ document_kept root' root'' /\ passthrough_reqif out = Ok out.
Proof.
  intros tl s cwd i m o raw text decl opened root r p u HF HU HR HE P1 P2 P3 HT HA HI HC HAD HW CW EZ first OD CO second.
  destruct (C60_same_document raw text decl opened HU HR HE) as [HX _].
  destruct (C60_formatting_keeps_the_document text decl opened HR P1 P2 P3) as (t1 & opened' & E1 & E2 & _).
  destruct (C79_formatted_files_are_conventional r p u text decl opened root t1 HR HE P1 P2 P3 HT HA HI E1 HC) as (root' & HC' & HS & AA & WW).
  assert (N1 : ended first = Exit 0).
  { unfold first. cbn [perform]. unfold format. rewrite HF. unfold format_bytes. rewrite HX, E1. unfold write_bytes. rewrite CW. reflexivity. }
  destruct (C41_output_file tl s cwd (RFormat i m) m eq_refl N1) as (d & N & F & _). fold first in F.
  cbn [new_content] in N. rewrite HF in N. unfold format_bytes in N. rewrite HX, E1 in N. injection N as <-.
  destruct (C78_conventional_files_pass_through r p u t1 t1 root' (ascii_bytes _ E2) HC' (proj1 AA HAD) (proj1 (WW HAD) HW))
    as (out & t & root'' & G1 & G2 & G3 & G4 & G5).
  assert (NC : new_content tl (final s first) (RPassthrough m o) = Some out) by (cbn [new_content]; rewrite F, EZ, G1; reflexivity).
  pose proof (C41_success tl (final s first) cwd (RPassthrough m o) o out eq_refl NC OD CO) as N2. fold second in N2.
  destruct (C41_output_file tl (final s first) cwd (RPassthrough m o) o eq_refl N2) as (d & N & F2 & _). rewrite NC in N. injection N as <-.
  split; [exact N1|]. split; [exact N2|]. exists out, t, root', root''. auto 10.
Qed.

(** ** Examples *)
Example C79_example : let s := conventional_example in
  formattable true s /\ ascii_markup (snd (opened_of s)) /\ pi_free (snd (opened_of s)) = true
  /\ (exists t, format_text s = Ok t /\ t <> s)
  /\ conventional_text conventional_root "reqif-xhtml" "http://www.w3.org/1999/xhtml" s (tree_of s)
  /\ accepted_document (tree_of s) /\ writes (tree_of s).
Proof.
  cbv zeta. split; [apply formattableb_sound; vm_compute; reflexivity|].
  split; [apply ascii_markupb_sound; vm_compute; reflexivity|]. split; [vm_compute; reflexivity|].
  split; [eexists; split; [vm_compute; reflexivity|vm_compute; discriminate]|]. exact C78_example.
Qed.
(** a file whose XHTML value is plain text, and which comes out of passthrough the
    same whether or not it was formatted *)
Definition encoded (s : str) : bytes := match utf8_encode s with Some x => x | None => [] end.
Definition formatted (s : str) : bytes := match format_text s with Ok t => t | Raise _ => [] end.
Definition passed_on (raw : bytes) : bytes := match passthrough_reqif raw with Ok x => x | Raise _ => [] end.
Example C79_plain_example : let s := with_value "some text" in
  formattable false s /\ formatted s <> encoded s
  /\ passthrough_reqif (encoded s) = Ok (passed_on (formatted s))
  /\ passthrough_reqif (formatted s) = Ok (passed_on (formatted s)).
Proof.
  cbv zeta. split; [apply formattableb_sound; vm_compute; reflexivity|].
  split; [vm_compute; discriminate|]. split; vm_compute; reflexivity.
Qed.
(** With elements in an XHTML value it does make a difference. *)
Theorem C79_formatting_makes_no_difference_refuted :
  exists s t out out', s = with_value "<h:div><h:p>a</h:p></h:div>"
    /\ formattable true s /\ format_text s = Ok t
    /\ passthrough_reqif (encoded s) = Ok out /\ passthrough_reqif t = Ok out' /\ out <> out'.
Proof.
  eexists _, _, _, _. split; [reflexivity|]. split; [apply formattableb_sound; vm_compute; reflexivity|].
  split; [vm_compute; reflexivity|]. split; [vm_compute; reflexivity|]. split; [vm_compute; reflexivity|]. discriminate.
Qed.
Print Assumptions C79_formatted_files_are_conventional.
Print Assumptions C79_format_then_passthrough.
Print Assumptions C79_formatting_makes_no_difference.
Print Assumptions C79_formatting_makes_no_difference_refuted.
