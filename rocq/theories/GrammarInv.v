(** GrammarInv.v -- texts that are read follow the grammar *)
From Verif Require Import Base Xml DictProofs XmlProofs LineProofs SpecLines SpecXml GrammarProofs GrammarMachine.

(** ** The grammar, extended to the right *)
(** no "]]>" begins in [t] and ends in [u] *)
Definition joined (t u : str) : Prop :=
  forall x a b y, t = x ++ a -> u = b ++ y -> a ++ b = "]]>" -> a <> [] -> b <> [] -> False.
Lemma joined_tail p t u : joined (p ++ t) u -> joined t u.
Proof. intros H x a b y -> E. apply (H (p ++ x) a b y); [apply app_assoc|exact E]. Qed.
Lemma cut a b : a ++ b = "]]>" -> a <> [] -> b <> [] -> a = "]" /\ b = "]>" \/ a = "]]" /\ b = ">".
Proof.
  intros E H1 H2. destruct a as [|c [|c' [|c'' a]]]; [contradiction| | |].
  - left. injection E as -> E. auto.
  - right. injection E as -> -> E. auto.
  - exfalso. injection E as -> -> -> E. apply app_eq_nil in E. apply H2, E.
Qed.
(** [u] begins with neither "]" nor ">" *)
Lemma joined_first t c u : c <> 93%N -> c <> 62%N -> joined t (c :: u).
Proof. intros N1 N2 x a b y _ E EA HA HB. destruct (cut a b EA HA HB) as [[_ ->]|[_ ->]]; injection E; intros _ ->; contradiction. Qed.
Lemma joined_one t c : c <> 62%N -> joined t [c].
Proof.
  intros N x a b y _ E EA HA HB. destruct (cut a b EA HA HB) as [[_ ->]|[_ ->]]; [discriminate|]. injection E; intros _ ->; contradiction.
Qed.
Lemma joined_nil t : joined t [].
Proof. intros x a b y _ E EA HA HB. symmetry in E. apply app_eq_nil in E. apply HB, E. Qed.
(** [t] does not end with "]" *)
Lemma joined_last t u : (forall x, t <> x ++ "]") -> joined t u.
Proof.
  intros H x a b y E _ EA HA HB. destruct (cut a b EA HA HB) as [[-> _]|[-> _]]; [apply (H _ E)|].
  apply (H (x ++ "]")). rewrite E, <- app_assoc. reflexivity.
Qed.
Lemma joined_pair t u : (forall x, t <> x ++ "]]") -> (forall u', u <> "]>" ++ u') -> joined t u.
Proof. intros H G x a b y E EU EA HA HB. destruct (cut a b EA HA HB) as [[-> ->]|[-> ->]]; [apply (G _ EU)|apply (H _ E)]. Qed.
Lemma content_app t k : content t k -> forall t' k', joined t t' -> content t' k' -> content (t ++ t') (k ++ k').
Proof.
  induction 1 as [|c t k H1 H2 H3 H4 _ IH|b c t k H1 _ IH|e x t k H1 _ IH|s t k H1 _ IH|s t k H1 _ IH|s t k H1 _ IH]; intros t' k' HJ H'.
  - exact H'.
  - apply (content_char c (t ++ t') (k ++ k')); auto.
    + intros u E. destruct t as [|c1 [|c2 t]]; cbn [app] in E.
      * injection E as -> E. apply (HJ [] "]" "]>" u); auto; discriminate.
      * injection E as -> -> E. apply (HJ [] "]]" ">" u); auto; discriminate.
      * injection E as -> -> -> E. apply (H4 t). reflexivity.
    + apply IH; [|exact H']. apply (joined_tail [c] t). exact HJ.
  - rewrite <- !app_assoc. apply (content_reference b c (t ++ t') (k ++ k')); auto. apply IH; [|exact H'].
    apply (joined_tail ("&" ++ b ++ ";")). rewrite <- !app_assoc. exact HJ.
  - rewrite <- !app_assoc. apply (content_element e x (t ++ t') (k ++ k')); auto. apply IH; [|exact H']. apply (joined_tail e), HJ.
  - rewrite <- !app_assoc. apply (content_comment s (t ++ t') (k ++ k')); auto. apply IH; [|exact H'].
    apply (joined_tail ("<!--" ++ s ++ "-->")). rewrite <- !app_assoc. exact HJ.
  - rewrite <- !app_assoc. apply (content_cdata s (t ++ t') (k ++ k')); auto. apply IH; [|exact H'].
    apply (joined_tail ("<![CDATA[" ++ s ++ "]]>")). rewrite <- !app_assoc. exact HJ.
  - rewrite <- !app_assoc. apply (content_instruction s (t ++ t') (k ++ k')); auto. apply IH; [|exact H'].
    apply (joined_tail ("<?" ++ s ++ "?>")). rewrite <- !app_assoc. exact HJ.
Qed.
(** [u] begins with neither ">" nor "]>" *)
Definition free (u : str) : Prop := (forall v, u <> ">" ++ v) /\ (forall v, u <> "]>" ++ v).
Lemma joined_free t u : free u -> joined t u.
Proof. intros [F1 F2] x a b y _ EU EA HA HB. destruct (cut a b EA HA HB) as [[-> ->]|[-> ->]]; [apply (F2 _ EU)|apply (F1 _ EU)]. Qed.
Lemma free_nil : free [].
Proof. split; discriminate. Qed.
Lemma free_first c u : c <> 93%N -> c <> 62%N -> free (c :: u).
Proof. intros N1 N2. split; intros v E; injection E; intros; contradiction. Qed.
Lemma free_one c : c <> 62%N -> free [c].
Proof. intros N. split; intros v E; [injection E; intros; contradiction|discriminate]. Qed.
Lemma free_app a b : free a -> free b -> free (a ++ b).
Proof.
  intros [A1 A2] [B1 B2]. destruct a as [|c [|c' a]]; [split; assumption| |]; cbn [app] in *; split; intros v E.
  - injection E as -> E. apply (A1 []). reflexivity.
  - injection E as -> E. apply (B1 v), E.
  - injection E as -> E. apply (A1 (c' :: a)). reflexivity.
  - injection E as -> -> E. apply (A2 a). reflexivity.
Qed.
Lemma free_flat_map {A} (f : A -> str) l : (forall x, In x l -> free (f x)) -> free (flat_map f l).
Proof.
  induction l as [|x l IH]; intros H; [exact free_nil|]. cbn [flat_map]. apply free_app; [apply H; left; reflexivity|].
  apply IH. intros y Hy. apply H. right. exact Hy.
Qed.
Lemma content_free c t k : char c -> c <> 60%N -> c <> 38%N -> free t -> content t k -> content (c :: t) (XChar c :: k).
Proof. intros H1 H2 H3 [F1 F2] H. apply content_char; auto. intros u E. injection E as -> ->. apply (F2 u). reflexivity. Qed.
Lemma free_white s : Forall white s -> free s.
Proof.
  intros [|c s' H _]; [exact free_nil|]. apply free_first; intros ->; destruct H as [H|[H|[H|[H|[]]]]]; discriminate H.
Qed.
Lemma value_app q t v t' v' : value q t v -> value q t' v' -> value q (t ++ t') (v ++ v').
Proof.
  intros H H'. induction H as [|c t v H1 H2 H3 H4 H5 _ IH|c t v H1 _ IH|b c t v H1 _ IH].
  - exact H'.
  - apply (value_char q c (t ++ t') (v ++ v')); auto.
  - apply (value_white q c (t ++ t') (v ++ v')); auto.
  - rewrite <- !app_assoc. apply (value_reference q b c (t ++ t') (v ++ v')); auto.
Qed.
Lemma attributes_app t l t' l' : attributes t l -> attributes t' l' -> attributes (t ++ t') (l ++ l').
Proof.
  intros H H'. induction H as [|sp k w w' q t v rest l H1 H2 H3 H4 H5 H6 H7 _ IH].
  - exact H'.
  - rewrite <- !app_assoc. apply (attributes_cons sp k w w' q t v (rest ++ t') (l ++ l')); auto.
Qed.
Inductive mixed : str -> list xnode -> Prop :=
| mixed_nil : mixed [] []
| mixed_white c t l : white c -> mixed t l -> mixed (c :: t) (XChar c :: l)
| mixed_comment s t l : comment s -> mixed t l -> mixed ("<!--" ++ s ++ "-->" ++ t) (XComment s :: l)
| mixed_instruction s t l : instruction s -> mixed t l -> mixed ("<?" ++ s ++ "?>" ++ t) (XPI s :: l)
| mixed_element e n a k t l : element e (XElem n a k) -> mixed t l -> mixed (e ++ t) (XElem n a k :: l).
Lemma mixed_app t l t' l' : mixed t l -> mixed t' l' -> mixed (t ++ t') (l ++ l').
Proof.
  intros H H'. induction H as [|c t l H1 _ IH|s t l H1 _ IH|s t l H1 _ IH|e n a k t l H1 _ IH].
  - exact H'.
  - apply (mixed_white c (t ++ t') (l ++ l')); auto.
  - rewrite <- !app_assoc. apply (mixed_comment s (t ++ t') (l ++ l')); auto.
  - rewrite <- !app_assoc. apply (mixed_instruction s (t ++ t') (l ++ l')); auto.
  - rewrite <- !app_assoc. apply (mixed_element e n a k (t ++ t') (l ++ l')); auto.
Qed.
Definition toplevel (t : str) (l : list xnode) : Prop :=
  exists p t1 l0 l1, t = p ++ t1 /\ l = l0 ++ l1 /\ mixed t1 l1
    /\ (p = [] /\ l0 = []
        \/ exists s, p = "<?" ++ s ++ "?>" /\ l0 = [XPI s] /\ Forall char s /\ absent "?>" s /\ pi_target s = "xml").
Lemma toplevel_app t l t' l' : toplevel t l -> mixed t' l' -> toplevel (t ++ t') (l ++ l').
Proof.
  intros (p & t1 & l0 & l1 & -> & -> & HM & HP) H'. exists p, (t1 ++ t'), l0, (l1 ++ l'). rewrite <- !app_assoc.
  split; [reflexivity|]. split; [reflexivity|]. split; [apply mixed_app; assumption|exact HP].
Qed.
Lemma toplevel_empty t : toplevel t [] -> t = [].
Proof.
  intros (p & t1 & l0 & l1 & -> & HL & HM & HP). symmetry in HL. apply app_eq_nil in HL. destruct HL as [-> ->].
  assert (E : t1 = []) by (inversion HM; reflexivity). subst. destruct HP as [[-> _]|(s & _ & H & _)]; [reflexivity|discriminate].
Qed.

(** ** The text read so far *)
Inductive stack_text : list frame -> list xnode -> str -> Prop :=
| stack_top d t : toplevel t (rev d) -> stack_text [] d t
| stack_open n a sib st s0 att w t d :
    stack_text st sib s0 -> name n -> attributes att a -> Forall white w -> content t (rev d) ->
    stack_text ((n, a, sib) :: st) d (s0 ++ ("<" ++ n ++ att ++ w ++ ">") ++ t).
Definition head_text (n : str) (a : list (str * str)) (h : str) : Prop :=
  exists att, h = "<" ++ n ++ att /\ name n /\ attributes att (rev a).
Definition spaced (n : str) (a : list (str * str)) (h : str) : Prop :=
  exists h' w, h = h' ++ w /\ head_text n a h' /\ Forall white w /\ w <> [].
Definition mode_text (st : list frame) (d d0 : list xnode) (m : mode) (t : str) : Prop :=
  match m with
  | MCdata j =>
      st <> [] /\ j <= 2 /\ exists s, t = "<![CDATA[" ++ s ++ repeat 93%N j /\ cdata s /\ d = rev (map XChar s) ++ d0
        /\ (j < 2 -> forall s', s <> s' ++ [93%N])
  | _ =>
    d = d0 /\
    match m with
    | MText _ => t = []
    | MTextRef buf => st <> [] /\ t = "&" ++ rev buf
    | MLt => t = "<"
    | MName n => name (rev n) /\ t = "<" ++ rev n
    | MTag n a => head_text n a t
    | MTagSp n a => spaced n a t
    | MAttr n a k => exists h, spaced n a h /\ name (rev k) /\ t = h ++ rev k
    | MAttrSp n a k => exists h w, spaced n a h /\ name k /\ Forall white w /\ t = h ++ k ++ w
    | MEq n a k => exists h w w', spaced n a h /\ name k /\ Forall white w /\ Forall white w' /\ t = h ++ k ++ w ++ "=" ++ w'
    | MVal n a k q v =>
        exists h w w' s, spaced n a h /\ name k /\ Forall white w /\ Forall white w' /\ quote q /\ value q s (rev v)
          /\ t = h ++ k ++ w ++ "=" ++ w' ++ [q] ++ s
    | MValRef n a k q v buf =>
        exists h w w' s, spaced n a h /\ name k /\ Forall white w /\ Forall white w' /\ quote q /\ value q s (rev v)
          /\ t = h ++ k ++ w ++ "=" ++ w' ++ [q] ++ s ++ "&" ++ rev buf
    | MSlash n a => exists h w, head_text n a h /\ Forall white w /\ t = h ++ w ++ "/"
    | MClose n => (n = [] \/ name (rev n)) /\ t = "</" ++ rev n
    | MCloseSp n => exists w, name n /\ Forall white w /\ t = "</" ++ n ++ w
    | MBang buf => t = "<!" ++ rev buf
    | MCom acc j => comment (rev acc) /\ j <= 2 /\ t = "<!--" ++ rev acc ++ repeat 45%N j
    | MPI acc qu => Forall char (rev acc) /\ absent "?>" (rev acc) /\ (qu = true <-> hd_error acc = Some 63%N) /\ t = "<?" ++ rev acc
    | MErr => False
    | MCdata _ => True
    end
  end.
Definition inv (t : str) (st : conf) : Prop :=
  exists base d0 mt, stack_text (stk st) d0 base /\ mode_text (stk st) (done_ st) d0 (md st) mt /\ t = base ++ mt.

Lemma stack_push st d t u x : stack_text st d t -> joined t u -> content u [x] -> (st = [] -> mixed u [x]) -> stack_text st (x :: d) (t ++ u).
Proof.
  destruct 1 as [d t HT|n a sib st s0 att w t d H1 H2 H3 H4 H5]; intros HJ HC HM.
  - apply stack_top. cbn [rev]. apply toplevel_app; [exact HT|apply HM; reflexivity].
  - rewrite <- !app_assoc. rewrite (app_assoc s0). rewrite <- (app_assoc s0).
    replace (s0 ++ "<" ++ n ++ att ++ w ++ ">" ++ t ++ u) with (s0 ++ ("<" ++ n ++ att ++ w ++ ">") ++ (t ++ u)) by (rewrite <- !app_assoc; reflexivity).
    apply stack_open; auto. cbn [rev]. apply content_app; [assumption| |assumption].
    apply (joined_tail (s0 ++ "<" ++ n ++ att ++ w ++ ">")). rewrite <- !app_assoc in *. exact HJ.
Qed.
Lemma content_one_element e x : element e x -> content e [x].
Proof. intros H. rewrite <- (app_nil_r e). apply content_element; [exact H|constructor]. Qed.
Lemma inv_push t st base d0 mt u x :
  stack_text (stk st) d0 base -> done_ st = d0 -> t = base ++ mt -> u = mt -> joined base u ->
  content u [x] -> (stk st = [] -> mixed u [x]) -> inv t (push st x).
Proof.
  intros H1 H2 -> -> HJ H3 H4. unfold inv, push. cbn [stk done_ md]. exists (base ++ mt), (x :: done_ st), [].
  split; [|split; [split; reflexivity|rewrite app_nil_r; reflexivity]]. subst d0. apply stack_push; assumption.
Qed.
Lemma absent_snoc p s c : absent p s -> (forall a, s ++ [c] <> a ++ p) -> absent p (s ++ [c]).
Proof.
  intros H1 H2 a b E. destruct b as [|x b] using rev_ind.
  - rewrite app_nil_r in E. apply (H2 a E).
  - clear IHb. rewrite !app_assoc in E. apply app_inj_tail in E. destruct E as [E _]. apply (H1 a b). rewrite E, <- app_assoc. reflexivity.
Qed.
Lemma name_snoc n c : name n -> is_name_char c = true -> name (n ++ [c]).
Proof.
  intros (x & n' & -> & H1 & H2) HC. exists x, (n' ++ [c]). split; [reflexivity|]. split; [exact H1|].
  apply Forall_app. split; [exact H2|]. constructor; [apply name_char_ok, HC|constructor].
Qed.
Lemma name_single c : is_name_start c = true -> name [c].
Proof. intros H. exists c, []. split; [reflexivity|]. split; [apply name_start_ok, H|constructor]. Qed.
Lemma white_snoc w c : Forall white w -> is_ws c = true -> Forall white (w ++ [c]).
Proof. intros H HC. apply Forall_app. split; [exact H|]. constructor; [apply white_ok, HC|constructor]. Qed.
Lemma head_of_name n : name n -> head_text n [] ("<" ++ n).
Proof. intros H. exists []. rewrite app_nil_r. split; [reflexivity|]. split; [exact H|constructor]. Qed.
Lemma spaced_of_head n a h c : head_text n a h -> is_ws c = true -> spaced n a (h ++ [c]).
Proof. intros H HC. exists h, [c]. split; [reflexivity|]. split; [exact H|]. split; [constructor; [apply white_ok, HC|constructor]|discriminate]. Qed.
Lemma spaced_snoc n a h c : spaced n a h -> is_ws c = true -> spaced n a (h ++ [c]).
Proof.
  intros (h' & w & -> & H1 & H2 & H3) HC. exists h', (w ++ [c]). rewrite app_assoc. split; [reflexivity|]. split; [exact H1|].
  split; [apply white_snoc; assumption|]. destruct w; discriminate.
Qed.
(** the end of the head of a tag *)
Definition head_done (n : str) (a : list (str * str)) (h : str) : Prop :=
  exists h' w, h = h' ++ w /\ head_text n a h' /\ Forall white w.
Lemma head_done_head n a h : head_text n a h -> head_done n a h.
Proof. intros H. exists h, []. rewrite app_nil_r. auto. Qed.
Lemma head_done_spaced n a h : spaced n a h -> head_done n a h.
Proof. intros (h' & w & -> & H1 & H2 & _). exists h', w. auto. Qed.
Lemma inv_open base d0 st n a h :
  stack_text (stk st) d0 base -> done_ st = d0 -> head_done n a h -> inv (base ++ h ++ [62%N]) (open_elem st n a).
Proof.
  intros H1 <- (h' & w & -> & (att & -> & H2 & H3) & H4). unfold inv, open_elem. cbn [stk done_ md].
  exists (base ++ ("<" ++ n ++ att ++ w ++ ">") ++ []), [], []. split; [|split; [split; reflexivity|]].
  - apply stack_open; auto. constructor.
  - rewrite !app_nil_r, <- !app_assoc. reflexivity.
Qed.
Lemma inv_slash base d0 st n a h :
  stack_text (stk st) d0 base -> done_ st = d0 -> head_done n a h -> inv (base ++ h ++ [47%N]) (set_md st (MSlash n a)).
Proof.
  intros H1 <- (h' & w & -> & H2 & H3). unfold inv, set_md. cbn [stk done_ md]. exists base, (done_ st), ((h' ++ w) ++ [47%N]).
  split; [exact H1|]. split; [|reflexivity]. split; [reflexivity|]. exists h', w. rewrite <- app_assoc. auto.
Qed.
Lemma inv_mode st base m mt c : stack_text (stk st) (done_ st) base -> mode_text (stk st) (done_ st) (done_ st) m (mt ++ [c]) ->
  inv ((base ++ mt) ++ [c]) (set_md st m).
Proof. intros H1 H2. exists base, (done_ st), (mt ++ [c]). rewrite app_assoc. cbn [set_md stk done_ md]. auto. Qed.
Lemma quote_facts q : quote q -> q <> 60%N /\ q <> 38%N /\ ~ white q.
Proof. intros [-> | ->]; (split; [discriminate|split; [discriminate|]]); intros [H|[H|[H|[H|[]]]]]; discriminate. Qed.
