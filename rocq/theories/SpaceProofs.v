(** SpaceProofs.v -- elements that differ in white space next to markup are
    stripped and stringified alike *)
From Verif Require Import Base Xml Lxml Py LxmlStr Models SpecParse SpecFormat SpecLayout XmlProofs DictProofs ParserProofs
  AcceptProofs FormatProofs.

(** ** Squeezing *)
Definition nows (s : str) : str := filter (fun c => negb (py_space c)) s.
Definition outer (c : N) : Prop := c <> 35%N /\ c <> 57%N /\ c <> 59%N.
Lemma starts_outer a b : (match b with [] => True | h :: _ => outer h end) ->
  starts_with "&#9;" (a ++ b) = true -> a = [] \/ exists r, a = "&#9;" ++ r.
Proof.
  intros HB H. destruct a as [|c0 a]; [left; reflexivity|right].
  assert (L : forall (x c : N) p s, starts_with (x :: p) (c :: s) = true -> c = x /\ starts_with p s = true).
  { intros x c p s E. cbn [starts_with] in E. apply andb_prop in E. destruct E as [E1 E2]. apply N.eqb_eq in E1. auto. }
  assert (M : forall (x : N) p s, starts_with (x :: p) s = true -> exists s', s = x :: s' /\ starts_with p s' = true).
  { intros x p [|c s] E; [discriminate E|]. apply L in E. destruct E as [-> E]. eauto. }
  cbn [app] in H. change ("&#9;" : str) with (38 :: 35 :: 57 :: 59 :: [])%N in *.
  apply L in H. destruct H as [-> H].
  destruct a as [|c1 a]; cbn [app] in H.
  { destruct b as [|h b]; [discriminate H|]. apply L in H. destruct H as [-> _]. destruct HB as (HB & _). contradiction. }
  apply L in H. destruct H as [-> H]. destruct a as [|c2 a]; cbn [app] in H.
  { destruct b as [|h b]; [discriminate H|]. apply L in H. destruct H as [-> _]. destruct HB as (_ & HB & _). contradiction. }
  apply L in H. destruct H as [-> H]. destruct a as [|c3 a]; cbn [app] in H.
  { destruct b as [|h b]; [discriminate H|]. apply L in H. destruct H as [-> _]. destruct HB as (_ & _ & HB). contradiction. }
  apply L in H. destruct H as [-> H]. exists a. reflexivity.
Qed.
Lemma starts_app p r : starts_with p (p ++ r) = true.
Proof. induction p as [|c p IH]; [reflexivity|]. cbn [app starts_with]. rewrite N.eqb_refl. exact IH. Qed.
Lemma untab_app b : (match b with [] => True | h :: _ => outer h end) ->
  forall a k, k <= length a -> untab k (a ++ b) = untab k a ++ untab 0 b.
Proof.
  intros HB. induction a as [|c a IH]; intros k HK.
  - cbn [length] in HK. replace k with 0 by lia. reflexivity.
  - destruct k as [|k]; [|cbn [app untab]; apply IH; cbn [length] in HK; lia].
    cbn [app]. assert (E : starts_with "&#9;" (c :: a ++ b) = starts_with "&#9;" (c :: a)).
    { destruct (starts_with "&#9;" (c :: a)) eqn:E1.
      - assert (G : exists r, c :: a = "&#9;" ++ r).
        { destruct (starts_outer (c :: a) [] I) as [G|G]; [rewrite app_nil_r; exact E1|discriminate G|exact G]. }
        destruct G as [r G]. change (c :: a ++ b) with ((c :: a) ++ b). rewrite G, <- app_assoc. apply starts_app.
      - destruct (starts_with "&#9;" (c :: a ++ b)) eqn:E2; [|reflexivity]. exfalso.
        destruct (starts_outer (c :: a) b HB E2) as [G|[r G]]; [discriminate G|]. rewrite G, starts_app in E1. discriminate E1. }
    cbn [untab]. rewrite E. destruct (starts_with "&#9;" (c :: a)) eqn:E1.
    + apply IH. destruct (starts_outer (c :: a) [] I) as [G|[r G]]; [rewrite app_nil_r; exact E1|discriminate G|].
      apply (f_equal (@length N)) in G. rewrite app_length in G. change (length ("&#9;" : str)) with 4 in G. cbn [length] in G. lia.
    + rewrite IH by lia. reflexivity.
Qed.
Definition opens (s : str) : Prop := s = [] \/ exists r, s = "<" ++ r.
Lemma squeeze_opens a b : opens b -> squeeze (a ++ b) = squeeze a ++ squeeze b.
Proof.
  intros H. unfold squeeze. rewrite filter_app. apply untab_app; [|lia].
  destruct H as [->|[r ->]]; [exact I|]. change ("<" ++ r) with (60%N :: r). cbn [filter]. change (py_space 60) with false. cbn [negb].
  repeat split; discriminate.
Qed.
Definition closes (s : str) : Prop := exists r, s = r ++ ">".
Lemma squeeze_closes a b : closes a -> squeeze (a ++ b) = squeeze a ++ squeeze b.
Proof.
  intros [r ->]. unfold squeeze. rewrite !filter_app. set (x := filter _ r). set (y := filter _ b). rewrite <- app_assoc.
  assert (G : forall z, untab 0 (x ++ ">" ++ z) = untab 0 x ++ ">" ++ untab 0 z).
  { intros z. rewrite (untab_app (">" ++ z)); [reflexivity|repeat split; discriminate|lia]. }
  change (filter (fun c => negb (py_space c)) ">") with (">" : str). rewrite G.
  specialize (G []). rewrite !app_nil_r in G. rewrite G, <- app_assoc. reflexivity.
Qed.
Lemma squeeze_lstrip s : squeeze (lstrip s) = squeeze s.
Proof.
  unfold squeeze. f_equal. induction s as [|c s IH]; [reflexivity|]. cbn [lstrip filter].
  destruct (py_space c) eqn:E; cbn [negb]; [exact IH|]. cbn [filter]. rewrite E. reflexivity.
Qed.
Lemma nows_rev s : nows (rev s) = rev (nows s).
Proof.
  unfold nows. induction s as [|c s IH]; [reflexivity|]. cbn [rev filter]. rewrite filter_app, IH. cbn [filter].
  destruct (negb (py_space c)); [reflexivity|]. apply app_nil_r.
Qed.
Lemma nows_lstrip s : nows (lstrip s) = nows s.
Proof.
  unfold nows. induction s as [|c s IH]; [reflexivity|]. cbn [lstrip filter].
  destruct (py_space c) eqn:E; cbn [negb]; [exact IH|]. cbn [filter]. rewrite E. reflexivity.
Qed.
Lemma squeeze_strip s : squeeze (strip s) = squeeze s.
Proof.
  unfold squeeze. f_equal. change (nows (strip s) = nows s). unfold strip, rstrip.
  rewrite nows_rev, nows_lstrip, nows_rev, rev_involutive. apply nows_lstrip.
Qed.
Lemma nows_spaces k : nows (spaces k) = [].
Proof. unfold spaces, nows. induction k; [reflexivity|]. cbn. assumption. Qed.
Lemma nows_sub s : forall k, nows (sub_sp16 k s) = nows s.
Proof.
  induction s as [|c s IH]; intros k; cbn [sub_sp16]; [apply nows_spaces|].
  destruct (N.eqb_spec c 32) as [->|NE].
  - change (nows (32%N :: s)) with (nows s). destruct (Nat.eqb k 15); apply IH.
  - unfold nows. rewrite filter_app. change (filter _ (spaces k)) with (nows (spaces k)). rewrite nows_spaces. cbn [app filter].
    change (filter _ (sub_sp16 0 s)) with (nows (sub_sp16 0 s)). rewrite IH. reflexivity.
Qed.
Lemma squeeze_unindent s : squeeze (reqif_unindent_xhtml_string s) = squeeze s.
Proof.
  unfold reqif_unindent_xhtml_string. rewrite squeeze_strip. unfold squeeze. f_equal. apply (nows_sub s 0).
Qed.
Lemma blank_nows t : blank t -> nows t = [].
Proof.
  intros H. unfold nows. induction H as [|c t HC _ IH]; [reflexivity|]. cbn [filter]. cbn [In] in HC.
  destruct HC as [<-|[<-|[<-|[]]]]; cbn; exact IH.
Qed.
Lemma squeeze_blank t : blank t -> squeeze t = [] /\ squeeze (lxml_escape_for_html t) = [].
Proof.
  intros H. pose proof (blank_nows t H) as A.
  split; [unfold squeeze; fold (nows t); rewrite A; reflexivity|].
  unfold lxml_escape_for_html.
  assert (R : forall x w t, ~ In x [0x20; 0x9; 0xA]%N -> blank t -> replace_char x w t = t).
  { intros x w u HX HU. unfold replace_char. induction HU as [|c u HC _ IH]; [reflexivity|]. cbn [flat_map]. rewrite IH.
    destruct (N.eqb_spec c x) as [->|]; [contradiction|reflexivity]. }
  rewrite (R 38%N), (R 60%N), (R 62%N), (R 34%N), (R 39%N), (R 160%N) by first [exact H|cbn [In]; intuition discriminate].
  clear A R. unfold squeeze. induction H as [|c t HC _ IH]; [reflexivity|]. unfold replace_char in *. cbn [flat_map].
  rewrite filter_app. cbn [In] in HC. destruct HC as [<-|[<-|[<-|[]]]].
  - change (filter _ (if N.eqb 32 9 then _ else _)) with ([] : str). exact IH.
  - change (filter _ (if N.eqb 9 9 then _ else _)) with ("&#9;" : str). cbn [app untab].
    change (untab 0 ("&#9;" ++ ?r)) with (untab 0 r). exact IH.
  - change (filter _ (if N.eqb 10 9 then _ else _)) with ([] : str). exact IH.
Qed.

(** ** Induction over two elements that differ in white space *)
Definition near (P : node -> node -> Prop) (kids kids' : list node) : Prop :=
  (forallb is_chr kids = true /\ kids' = kids)
  \/ exists t t' m m', m <> [] /\ kids = unpieces (t, m) /\ kids' = unpieces (t', m') /\ marks m /\ marks m' /\ same_text t t'
     /\ Forall2 (fun x y => P (fst x) (fst y) /\ same_text (snd x) (snd y)) m m'.
Lemma pieces_un kids t m : pieces kids = (t, m) -> kids = unpieces (t, m) /\ marks m.
Proof.
  intros E. split; [rewrite <- E; symmetry; apply unpieces_pieces|]. pose proof (pieces_marks kids) as H. rewrite E in H. exact H.
Qed.
Lemma respaced_rect (P : node -> node -> Prop) :
  (forall s, P (Cmt s) (Cmt s)) -> (forall s s', same_instruction false s s' -> P (Pin s) (Pin s')) ->
  (forall ns l d i a kids kids', near (fun x y => respaced false x y /\ P x y) kids kids' -> P (El ns l d i a kids) (El ns l d i a kids')) ->
  forall n n', respaced false n n' -> P n n'.
Proof.
  intros H1 H2 H3. fix F 3. intros n n' H. destruct H as [s s' E|s s' E|ns l d i a kids HK|ns l d i a kids kids' t t' m m' HM E E' HT HF].
  - assert (EQ : s = s').
    { clear - E. induction E as [|c s s' _ _ IH|c w s s' HB]; [reflexivity|congruence|discriminate HB]. }
    rewrite EQ. apply H1.
  - apply H2, E.
  - apply H3. left. split; [|reflexivity]. apply forallb_forall. intros k HI. rewrite Forall_forall in HK. destruct (HK k HI) as [c ->]. reflexivity.
  - apply H3. right. apply pieces_un in E, E'. destruct E as [E M], E' as [E' M']. exists t, t', m, m'. do 6 (split; [assumption|]).
    clear - HF F. induction HF as [|x y m m' [HX HT] _ IH]; constructor; [|exact IH]. split; [split; [exact HX|apply F, HX]|exact HT].
Qed.
Lemma near_mono (P Q : node -> node -> Prop) kids kids' : (forall x y, P x y -> Q x y) -> near P kids kids' -> near Q kids kids'.
Proof.
  intros H [L|(t & t' & m & m' & A & B & C & D & E & F & G)]; [left; exact L|right]. exists t, t', m, m'. do 6 (split; [assumption|]).
  clear - H G. induction G as [|x y m m' [G1 G2] _ IH]; constructor; auto.
Qed.
Lemma encoded_refl s : encoded false s s.
Proof. induction s; [apply encoded_nil|apply encoded_char; [discriminate|assumption]]. Qed.
Lemma respaced_refl n : is_chr n = false -> respaced false n n.
Proof.
  induction n as [c|s|s|ns l d i a kids IH] using node_ind'; intros HC; [discriminate HC|..].
  - apply respaced_comment, encoded_refl.
  - apply respaced_instruction. exists s, [], [], []. do 2 (split; [constructor|]). split; [tauto|]. cbn [app].
    rewrite app_nil_r. split; [reflexivity|]. apply encoded_refl.
  - destruct (pieces kids) as [t m] eqn:E. destruct m as [|y m].
    + apply respaced_text. assert (A : forallb is_chr kids = true) by (apply pieces_all; rewrite E; reflexivity).
      apply Forall_forall. intros k HK. rewrite forallb_forall in A. specialize (A k HK). destruct k; try discriminate A. eauto.
    + apply (respaced_element false _ _ _ _ _ _ _ t t (y :: m) (y :: m)); try assumption; try discriminate; [left; reflexivity|].
      assert (A : forall z, In z (y :: m) -> respaced false (fst z) (fst z) /\ same_text (snd z) (snd z)).
      { intros z HZ. split; [|left; reflexivity]. pose proof (pieces_marks kids) as M. rewrite E in M.
        unfold marks in M. rewrite Forall_forall in M, IH. apply IH; [|apply M; exact HZ]. apply (pieces_in kids). rewrite E. exact HZ. }
      clear E. induction (y :: m) as [|z l0 IHm]; constructor; [apply A; left; reflexivity|apply IHm; intros w HW; apply A; right; exact HW].
Qed.
Lemma near_respaced ns l d i a kids kids' :
  near (respaced false) kids kids' -> respaced false (El ns l d i a kids) (El ns l d i a kids').
Proof.
  intros [[L ->]|(t & t' & m & m' & A & -> & -> & D & E & F & G)].
  - apply respaced_text. apply Forall_forall. intros k HK. rewrite forallb_forall in L. specialize (L k HK). destruct k; try discriminate L. eauto.
  - apply (respaced_element false _ _ _ _ _ _ _ t t' m m'); try assumption; apply pieces_unpieces; assumption.
Qed.
Lemma respaced_near ns l d i a kids n' :
  respaced false (El ns l d i a kids) n' -> exists kids', n' = El ns l d i a kids' /\ near (respaced false) kids kids'.
Proof.
  intros H. inversion H as [| |? ? ? ? ? ? HK|? ? ? ? ? ? kids' t t' m m' HM E E' HT HF]; subst.
  - exists kids. split; [reflexivity|left]. split; [|reflexivity]. apply forallb_forall. intros k HI. rewrite Forall_forall in HK.
    destruct (HK k HI) as [c ->]. reflexivity.
  - exists kids'. split; [reflexivity|right]. apply pieces_un in E, E'. destruct E as [E M], E' as [E' M']. exists t, t', m, m'. auto 10.
Qed.

(** ** What does not depend on white space *)
Lemma flat_un {B} (f : node -> list B) t m :
  (forall c, f (Chr c) = []) -> flat_map f (unpieces (t, m)) = flat_map (fun x => f (fst x)) m.
Proof.
  intros H. unfold unpieces. rewrite flat_map_app. cbn [fst snd].
  assert (A : forall s, flat_map f (map Chr s) = []) by (induction s as [|c s IH]; [reflexivity|]; cbn; rewrite H; exact IH).
  rewrite A. cbn [app]. induction m as [|[n s] m IH]; [reflexivity|]. cbn [flat_map fst snd app]. rewrite flat_map_app, A, IH. reflexivity.
Qed.
Lemma Forall2_flat {A B} (f g : A -> list B) (R : A -> A -> Prop) l l' :
  (forall x y, R x y -> f x = g y) -> Forall2 R l l' -> flat_map f l = flat_map g l'.
Proof. intros H F. induction F as [|x y l l' HX _ IH]; [reflexivity|]. cbn. rewrite (H _ _ HX), IH. reflexivity. Qed.
Lemma uses_near (kids kids' : list node) :
  near (fun x y => uses x = uses y) kids kids' -> flat_map uses kids = flat_map uses kids'.
Proof.
  intros [[_ ->]|(t & t' & m & m' & _ & -> & -> & _ & _ & _ & G)]; [reflexivity|]. rewrite !flat_un by reflexivity.
  apply (Forall2_flat _ _ _ _ _ (fun x y H => proj1 H) G).
Qed.
Lemma uses_respaced n n' : respaced false n n' -> uses n = uses n'.
Proof.
  revert n n'. apply respaced_rect; [reflexivity|reflexivity|]. intros ns l d i a kids kids' H. cbn [uses]. do 2 f_equal. apply uses_near.
  apply near_mono with (2 := H). tauto.
Qed.
Lemma items_un t m : marks m -> items (unpieces (t, m)) = map fst m.
Proof.
  intros H. unfold items, unpieces. cbn [fst snd]. rewrite filter_app.
  assert (A : forall s, filter (fun k => match k with Chr _ => false | _ => true end) (map Chr s) = []) by (induction s; [reflexivity|assumption]).
  rewrite A. cbn [app]. induction H as [|[n s] m HN _ IH]; [reflexivity|]. cbn [flat_map fst snd app map filter].
  cbn [fst] in HN. destruct n; [discriminate HN|..]; rewrite filter_app, A, IH; reflexivity.
Qed.
Lemma pi_respaced n n' : respaced false n n' -> pi_free n = pi_free n'.
Proof.
  revert n n'. apply respaced_rect; [reflexivity|reflexivity|]. intros ns l d i a kids kids' H. cbn [pi_free].
  destruct H as [[_ ->]|(t & t' & m & m' & _ & -> & -> & _ & _ & _ & G)]; [reflexivity|].
  assert (A : forall t m, forallb pi_free (unpieces (t, m)) = forallb (fun x => pi_free (fst x)) m).
  { clear. intros t m. unfold unpieces. rewrite forallb_app. cbn [fst snd].
    assert (A : forall s, forallb pi_free (map Chr s) = true) by (clear; induction s; [reflexivity|assumption]).
    rewrite A. cbn [andb]. induction m as [|[n s] m IH]; [reflexivity|]. cbn [flat_map fst snd app forallb]. rewrite forallb_app, A, IH. reflexivity. }
  rewrite !A. induction G as [|x y m m' [[_ G1] _] _ IH]; [reflexivity|]. cbn [forallb]. rewrite G1, IH. reflexivity.
Qed.
Lemma map_un f t m : (forall c, f (Chr c) = Chr c) -> map f (unpieces (t, m)) = unpieces (t, over f m).
Proof.
  intros H. unfold unpieces. rewrite map_app. cbn [fst snd]. assert (A : forall s, map f (map Chr s) = map Chr s) by (intros s; rewrite map_map; apply map_ext; exact H).
  rewrite A. f_equal. unfold over. induction m as [|[n s] m IH]; [reflexivity|]. cbn [flat_map map fst snd app]. rewrite map_app, A, IH. reflexivity.
Qed.
Lemma map_near f (R : node -> node -> Prop) kids kids' :
  (forall c, f (Chr c) = Chr c) -> (forall n, is_chr (f n) = is_chr n) ->
  near (fun x y => R (f x) (f y)) kids kids' -> near R (map f kids) (map f kids').
Proof.
  intros FC FI [[L ->]|(t & t' & m & m' & A & -> & -> & D & E & F & G)].
  - left. split; [|reflexivity]. rewrite forallb_forall in *. intros k HK. apply in_map_iff in HK. destruct HK as (k0 & <- & HK). rewrite FI. apply L, HK.
  - right. exists t, t', (over f m), (over f m'). rewrite !map_un by exact FC.
    assert (MK : forall m, marks m -> marks (over f m)).
    { clear - FI. intros m H. unfold marks, over in *. rewrite Forall_map. apply Forall_impl with (2 := H). intros [n s]; cbn; rewrite FI; auto. }
    split; [destruct m; [contradiction|discriminate]|]. do 2 (split; [reflexivity|]). do 2 (split; [apply MK; assumption|]). split; [exact F|].
    unfold over. clear - G. induction G as [|x y m m' [G1 G2] _ IH]; constructor; [|exact IH]. split; [apply G1|exact G2].
Qed.
Lemma cleanup_chr inh n : is_chr (cleanup inh n) = is_chr n.
Proof. destruct n; reflexivity. Qed.
Lemma cleanup_respaced n n' : respaced false n n' -> forall inh, respaced false (cleanup inh n) (cleanup inh n').
Proof.
  revert n n'. apply (respaced_rect (fun n n' => forall inh, respaced false (cleanup inh n) (cleanup inh n'))).
  - intros s inh. apply (respaced_refl (Cmt s)). reflexivity.
  - intros s s' H inh. apply respaced_instruction, H.
  - intros ns l d i a kids kids' H inh. cbn [cleanup].
    rewrite (uses_near kids kids') by (apply near_mono with (2 := H); intros x y [G _]; apply uses_respaced, G).
    apply near_respaced, map_near; [reflexivity|apply cleanup_chr|]. apply near_mono with (2 := H). intros x y [_ G]. apply G.
Qed.
(** [strip_ns] when there is no processing instruction *)
Fixpoint bare (full : bool) (n : node) : node :=
  match n with
  | El ns l defs inh attrs kids =>
      El (if negb full && contains xhtml_uri (clark ns l) then ns else None) l defs inh attrs (map (bare full) kids)
  | _ => n
  end.
Lemma strip_bare full n : strip_ns full n = if pi_free n then Some (bare full n) else None.
Proof.
  induction n as [c|s|s|ns l d i a kids IH] using node_ind'; try reflexivity. cbn [strip_ns pi_free bare].
  assert (E : map_opt (strip_ns full) kids = if forallb pi_free kids then Some (map (bare full) kids) else None).
  { induction IH as [|k ks HK _ IHk]; [reflexivity|]. cbn [map_opt forallb map]. rewrite HK, IHk. destruct (pi_free k); [|reflexivity].
    destruct (forallb pi_free ks); reflexivity. }
  rewrite E. destruct (forallb pi_free kids); reflexivity.
Qed.
Lemma bare_respaced full n n' : respaced false n n' -> respaced false (bare full n) (bare full n').
Proof.
  revert n n'. apply respaced_rect.
  - intros s. apply (respaced_refl (Cmt s)). reflexivity.
  - intros s s' H. apply respaced_instruction, H.
  - intros ns l d i a kids kids' H. cbn [bare]. apply near_respaced, map_near; [reflexivity|intros []; reflexivity|].
    apply near_mono with (2 := H). intros x y [_ G]. exact G.
Qed.
Lemma deepcopy_respaced n n' : respaced false n n' -> respaced false (deepcopy n) (deepcopy n').
Proof.
  intros H. destruct n as [c|ns l d i a kids|s|s]; try (inversion H; subst; exact H).
  pose proof (uses_respaced _ _ H) as U. apply respaced_near in H. destruct H as (kids' & -> & H). cbn [deepcopy]. rewrite U.
  apply near_respaced, H.
Qed.

(** ** Strings *)
Definition alike_string (s s' : str) : Prop := squeeze s = squeeze s'.
Definition tagged (s : str) : Prop := closes s /\ exists r, s = "<" ++ r.
Definition part_rel (s s' : str) : Prop := alike_string s s' /\ tagged s /\ tagged s'.
Definition kids_string (f : node -> result str) : list node -> result str :=
  fix go (ks : list node) : result str :=
    match ks with
    | [] => Ok []
    | Chr c :: ks' => let! r := go ks' in Ok (lxml_escape_for_html [c] ++ r)
    | k :: ks' => let! s := f k in let! r := go ks' in Ok (s ++ r)
    end.
Lemma kids_chr f c ks : kids_string f (Chr c :: ks) = let! r := kids_string f ks in Ok (lxml_escape_for_html [c] ++ r).
Proof. reflexivity. Qed.
Lemma ns_kids_string k b ks : stringify_ns_kids k b ks = kids_string (stringify_ns_node k b) ks.
Proof. reflexivity. Qed.
Lemma replace_app x w a b : replace_char x w (a ++ b) = replace_char x w a ++ replace_char x w b.
Proof. apply flat_map_app. Qed.
Lemma html_app a b : lxml_escape_for_html (a ++ b) = lxml_escape_for_html a ++ lxml_escape_for_html b.
Proof. unfold lxml_escape_for_html. rewrite !replace_app. reflexivity. Qed.
Lemma same_text_html t t' : same_text t t' -> squeeze (lxml_escape_for_html t) = squeeze (lxml_escape_for_html t') /\ squeeze t = squeeze t'.
Proof.
  intros [->|[A B]]; [split; reflexivity|]. destruct (squeeze_blank t A) as [A1 A2], (squeeze_blank t' B) as [B1 B2]. split; congruence.
Qed.
Definition pieces_string (f : node -> result str) (m : list (node * str)) : result (list str) :=
  mapM (fun x => let! s := f (fst x) in Ok (s ++ lxml_escape_for_html (snd x))) m.
Lemma kids_text f t ks : kids_string f (map Chr t ++ ks) = let! r := kids_string f ks in Ok (lxml_escape_for_html t ++ r).
Proof.
  induction t as [|c t IH]; cbn [map app].
  - destruct (kids_string f ks); reflexivity.
  - rewrite kids_chr, IH. destruct (kids_string f ks) as [r|e]; [|reflexivity]. cbn [bind]. rewrite app_assoc, <- html_app. reflexivity.
Qed.
Lemma kids_pieces f t m : marks m ->
  kids_string f (unpieces (t, m)) = let! l := pieces_string f m in Ok (lxml_escape_for_html t ++ concat l).
Proof.
  intros H. unfold unpieces. cbn [fst snd]. rewrite kids_text.
  assert (E : kids_string f (flat_map (fun x => fst x :: map Chr (snd x)) m) = let! l := pieces_string f m in Ok (concat l)).
  { induction H as [|[n s] m HN _ IH]; [reflexivity|]. cbn [flat_map fst snd app] in *. unfold pieces_string in *. cbn [mapM fst snd].
    assert (K : forall r, kids_string f (n :: r) = let! s := f n in let! r := kids_string f r in Ok (s ++ r)) by (intros r; destruct n; [discriminate HN|reflexivity..]).
    rewrite K, kids_text, IH. destruct (f n) as [a|e]; [|reflexivity]. cbn [bind].
    destruct (mapM _ m) as [l|e]; [|reflexivity]. cbn [bind concat]. rewrite <- app_assoc. reflexivity. }
  rewrite E. destruct (pieces_string f m) as [l|e]; reflexivity.
Qed.
Definition opened (s s' : str) : Prop := alike_string s s' /\ opens s /\ opens s'.
Lemma tagged_opens s r : tagged s -> opens (s ++ r).
Proof. intros [_ [u ->]]. right. exists (u ++ r). reflexivity. Qed.
Lemma squeeze_concat l l' : Forall2 opened l l' -> squeeze (concat l) = squeeze (concat l') /\ opens (concat l) /\ opens (concat l').
Proof.
  intros H. induction H as [|x y l l' (E & OX & OY) _ (IH & O & O')]; [repeat split; left; reflexivity|]. cbn [concat].
  rewrite !squeeze_opens by assumption. unfold alike_string in E. rewrite E, IH. split; [reflexivity|].
  assert (G : forall a b, opens a -> opens b -> opens (a ++ b)).
  { intros a b [->|[r ->]] HB; [exact HB|]. right. exists (r ++ b). reflexivity. }
  auto.
Qed.
Lemma kids_alike f kids kids' :
  near (fun x y => same_result part_rel (f x) (f y)) kids kids' -> same_result alike_string (kids_string f kids) (kids_string f kids').
Proof.
  intros [[L ->]|(t & t' & m & m' & A & -> & -> & D & E & F & G)].
  - destruct (kids_string f kids) as [r|e]; cbn; [reflexivity|destruct e; reflexivity].
  - rewrite !kids_pieces by assumption.
    assert (P : same_result (Forall2 opened) (pieces_string f m) (pieces_string f m')).
    { clear - G. unfold pieces_string. induction G as [|x y m m' [G1 G2] _ IH]; [constructor|]. cbn [mapM].
      destruct (f (fst x)) as [a|e], (f (fst y)) as [a'|e']; cbn in G1; try contradiction; [|exact G1]. cbn [bind].
      destruct (mapM _ m) as [l|e], (mapM _ m') as [l'|e']; cbn in IH; try contradiction; [|exact IH]. cbn [bind].
      constructor; [|exact IH]. destruct G1 as (S & TA & TB). split; [|split; apply tagged_opens; assumption].
      unfold alike_string in *. rewrite (squeeze_closes a), (squeeze_closes a') by apply TA || apply TB. rewrite S, (proj1 (same_text_html _ _ G2)). reflexivity. }
    destruct (pieces_string f m) as [l|e], (pieces_string f m') as [l'|e']; cbn in P; try contradiction; [|exact P]. cbn.
    destruct (squeeze_concat _ _ P) as (S & O & O'). unfold alike_string. rewrite !squeeze_opens by assumption.
    rewrite S, (proj1 (same_text_html _ _ F)). reflexivity.
Qed.
Lemma tag_alike h t i i' : (exists r, h = "<" ++ r) -> alike_string i i' ->
  part_rel (h ++ ">" ++ i ++ "</" ++ t ++ ">") (h ++ ">" ++ i' ++ "</" ++ t ++ ">").
Proof.
  intros [r ->] E. unfold alike_string in E.
  assert (T : forall j, tagged (("<" ++ r) ++ ">" ++ j ++ "</" ++ t ++ ">")).
  { intros j. split; [exists ("<" ++ r ++ ">" ++ j ++ "</" ++ t); rewrite <- !app_assoc; reflexivity|].
    exists (r ++ ">" ++ j ++ "</" ++ t ++ ">"). rewrite <- !app_assoc. reflexivity. }
  split; [|split; apply T]. unfold alike_string.
  assert (Q : forall j, squeeze (("<" ++ r) ++ ">" ++ j ++ "</" ++ t ++ ">") = squeeze (("<" ++ r) ++ ">") ++ squeeze j ++ squeeze ("</" ++ t ++ ">")).
  { intros j. rewrite (app_assoc ("<" ++ r)), squeeze_closes by (exists ("<" ++ r); reflexivity).
    rewrite (squeeze_opens j) by (right; exists ("/" ++ t ++ ">"); reflexivity). reflexivity. }
  rewrite !Q, E. reflexivity.
Qed.
Lemma closed_alike h : (exists r, h = "<" ++ r) -> part_rel (h ++ "/>") (h ++ "/>").
Proof.
  intros [r ->]. assert (T : tagged (("<" ++ r) ++ "/>")).
  { split; [exists ("<" ++ r ++ "/"); rewrite <- !app_assoc; reflexivity|]. exists (r ++ "/>"). rewrite <- !app_assoc. reflexivity. }
  split; [reflexivity|split; exact T].
Qed.
Lemma near_close P t kids kids' : near P kids kids' -> needs_close t kids = needs_close t kids'.
Proof.
  intros [[_ ->]|(u & u' & m & m' & A & -> & -> & D & E & F & G)]; [reflexivity|].
  assert (X : forall u m, m <> [] -> exists k ks, unpieces (u, m) = k :: ks).
  { clear. intros u m H. unfold unpieces. cbn [fst snd]. destruct u; [|eexists; eexists; reflexivity].
    destruct m; [contradiction|]. eexists; eexists; reflexivity. }
  assert (A' : m' <> []) by (inversion G; subst; [contradiction|discriminate]).
  destruct (X u m A) as (k & ks & ->), (X u' m' A') as (k' & ks' & ->). reflexivity.
Qed.
Lemma cmt_alike s : part_rel ("<!--" ++ s ++ "-->") ("<!--" ++ s ++ "-->").
Proof.
  assert (T : tagged ("<!--" ++ s ++ "-->")).
  { split; [exists ("<!--" ++ s ++ "--"); rewrite <- !app_assoc; reflexivity|]. exists ("!--" ++ s ++ "-->"). reflexivity. }
  split; [reflexivity|split; exact T].
Qed.
Lemma node_alike n n' : respaced false n n' -> forall r, same_result part_rel (stringify_node r n) (stringify_node r n').
Proof.
  revert n n'. apply (respaced_rect (fun n n' => forall r, same_result part_rel (stringify_node r n) (stringify_node r n'))).
  - intros s r. apply cmt_alike.
  - intros s s' _ r. reflexivity.
  - intros ns l d i a kids kids' H r.
    assert (K : same_result alike_string (kids_string (stringify_node false) kids) (kids_string (stringify_node false) kids')).
    { apply kids_alike. apply near_mono with (2 := H). intros x y [_ G]. apply G. }
    cbn [stringify_node]. rewrite (near_close _ _ _ _ H).
    destruct (needs_close (clark ns l) kids'); [|apply closed_alike; eexists; reflexivity].
    change (print_attrs (El ns l d i a kids')) with (print_attrs (El ns l d i a kids)).
    change ((fix go (ks : list node) : result str := _) kids) with (kids_string (stringify_node false) kids).
    change ((fix go (ks : list node) : result str := _) kids') with (kids_string (stringify_node false) kids').
    destruct (kids_string _ kids) as [s|e], (kids_string _ kids') as [s'|e']; cbn in K; try contradiction; [|exact K]. cbn [bind].
    apply tag_alike; [eexists; reflexivity|exact K].
Qed.
Lemma ns_node_alike k b n n' : respaced false n n' -> same_result part_rel (stringify_ns_node k b n) (stringify_ns_node k b n').
Proof.
  revert n n'. apply respaced_rect.
  - intros s. reflexivity.
  - intros s s' _. reflexivity.
  - intros ns l d i a kids kids' H.
    assert (K : same_result alike_string (kids_string (stringify_ns_node k b) kids) (kids_string (stringify_ns_node k b) kids')).
    { apply kids_alike. apply near_mono with (2 := H). intros x y [_ G]. apply G. }
    cbn [stringify_ns_node]. rewrite (near_close _ _ _ _ H).
    destruct (needs_close (clark ns l) kids'); [|apply closed_alike; eexists; reflexivity].
    change (print_attrs (El ns l d i a kids')) with (print_attrs (El ns l d i a kids)).
    change ((fix go (ks : list node) : result str := _) kids) with (kids_string (stringify_ns_node k b) kids).
    change ((fix go (ks : list node) : result str := _) kids') with (kids_string (stringify_ns_node k b) kids').
    destruct (kids_string _ kids) as [s|e], (kids_string _ kids') as [s'|e']; cbn in K; try contradiction; [|exact K]. cbn [bind].
    apply tag_alike; [eexists; reflexivity|exact K].
Qed.
Lemma namespaced_alike n n' o : respaced false n n' ->
  same_result alike_string (stringify_namespaced_children n o) (stringify_namespaced_children n' o).
Proof.
  intros H. destruct n as [c|ns l d i a kids|s|s]; try (inversion H; subst; destruct o; reflexivity).
  apply respaced_near in H. destruct H as (kids' & -> & H). unfold stringify_namespaced_children. cbn [kids_of node_nsmap].
  assert (G : forall k b, same_result alike_string (stringify_ns_kids k b kids) (stringify_ns_kids k b kids')).
  { intros k b. apply kids_alike. apply near_mono with (2 := H). intros x y. apply ns_node_alike. }
  destruct o; [apply G|]. destruct (extend d i) as [|[k u] m]; [reflexivity|apply G].
Qed.
Lemma lead_un t m : marks m -> lead (unpieces (t, m)) = t.
Proof.
  intros H. unfold unpieces. cbn [fst snd]. induction t as [|c t IH]; [|cbn; rewrite IH; reflexivity]. cbn [map app].
  inversion H as [|[n s] m' HN]; subst; [reflexivity|]. cbn [flat_map fst] in *. destruct n; [discriminate HN|reflexivity..].
Qed.
Lemma tails_un t m : marks m -> tails (unpieces (t, m)) = m.
Proof.
  intros H. unfold unpieces. cbn [fst snd].
  assert (A : forall t ks, tails (map Chr t ++ ks) = tails ks) by (clear; induction t; [reflexivity|assumption]).
  rewrite A. induction H as [|[n s] m HN HM IH]; [reflexivity|]. cbn [flat_map fst snd app] in *.
  assert (K : forall r, tails (n :: r) = (n, lead r) :: tails r) by (intros r; destruct n; [discriminate HN|reflexivity..]).
  rewrite K, A, IH. do 2 f_equal. apply (lead_un s m HM).
Qed.
Lemma children_alike n n' : respaced false n n' -> same_result alike_string (stringify_children n) (stringify_children n').
Proof.
  intros H. destruct n as [c|ns l d i a kids|s|s]; try (inversion H; subst; reflexivity).
  apply respaced_near in H. destruct H as (kids' & -> & H). unfold stringify_children. cbn [kids_of].
  destruct H as [[L ->]|(t & t' & m & m' & A & -> & -> & D & E & F & G)].
  - destruct (bind _ _) as [r|e]; cbn; [reflexivity|destruct e; reflexivity].
  - rewrite !lead_un, !tails_un by assumption.
    assert (P : same_result (Forall2 opened)
       (mapM (fun kt => let! s := stringify_node true (fst kt) in Ok (s ++ lxml_escape_for_html (snd kt) ++ snd kt)) m)
       (mapM (fun kt => let! s := stringify_node true (fst kt) in Ok (s ++ lxml_escape_for_html (snd kt) ++ snd kt)) m')).
    { clear - G. induction G as [|x y m m' [G1 G2] _ IH]; [constructor|]. cbn [mapM]. apply node_alike with (r := true) in G1.
      destruct (stringify_node true (fst x)) as [a|e], (stringify_node true (fst y)) as [a'|e']; cbn in G1; try contradiction; [|exact G1]. cbn [bind].
      destruct (mapM _ m) as [l|e], (mapM _ m') as [l'|e']; cbn in IH; try contradiction; [|exact IH]. cbn [bind].
      constructor; [|exact IH]. destruct G1 as (S & TA & TB). split; [|split; apply tagged_opens; assumption].
      unfold alike_string in *. rewrite (squeeze_closes a), (squeeze_closes a') by apply TA || apply TB. rewrite S. f_equal.
      destruct G2 as [->|[B B']]; [reflexivity|]. 
      assert (X : forall s, blank s -> squeeze (lxml_escape_for_html s ++ s) = []); [|rewrite !X by assumption; reflexivity].
      intros s HS. destruct (squeeze_blank s HS) as [_ <-]. unfold squeeze. rewrite filter_app. fold (nows s).
      rewrite (blank_nows s HS), app_nil_r. reflexivity. }
    destruct (mapM _ m) as [l0|e], (mapM _ m') as [l'|e']; cbn in P; try contradiction; [|exact P]. cbn.
    destruct (squeeze_concat _ _ P) as (S & O & O'). unfold alike_string. rewrite !squeeze_opens by assumption.
    rewrite S, (proj2 (same_text_html _ _ F)). reflexivity.
Qed.
Lemma convert_alike n n' : respaced false n n' ->
  same_result alike_string (convert_children_from_reqif_ns n) (convert_children_from_reqif_ns n').
Proof.
  intros H. unfold convert_children_from_reqif_ns. apply deepcopy_respaced in H. rewrite !strip_bare, (pi_respaced _ _ H).
  destruct (pi_free (deepcopy n')); [|reflexivity]. apply children_alike, cleanup_respaced, bare_respaced, H.
Qed.
