(** Frag.v -- printed fragments: a text together with what the XML reader,
    namespace resolution, namespace stripping and cleanup make of it.

    [p] and [u] are the prefix and the URI of the namespace of XHTML elements;
    all other elements are unprefixed. *)
From Verif Require Import Base Xml Lxml XmlProofs DictProofs.

Record frag := Frag {
  f_str : str;                      (* the text *)
  f_x : list xnode;                 (* as read *)
  f_n : nsmap -> list node;         (* as seen by the object parsers, below an element with that nsmap *)
  f_use : bool }.                   (* does it contain an XHTML element? *)

(** ** Strings *)
Definition no_colon (s : str) : bool := negb (existsb (N.eqb 58) s).
Definition okname (s : str) : bool := is_name s && no_colon s.
Definition okkeys (l : list str) : bool :=
  forallb (fun k => okname k && negb (str_eqb k "xmlns")) l && nodupb l.

Lemma split_no_colon s : no_colon s = true -> split_colon s = (s, None).
Proof.
  unfold no_colon. induction s as [|c s IH]; [reflexivity|]. cbn [existsb split_colon]. rewrite negb_orb, andb_true_iff, negb_true_iff.
  intros [H1 H2]. rewrite N.eqb_sym in H1. rewrite H1, IH by exact H2. reflexivity.
Qed.
Lemma qname_plain s : okname s = true -> qname s = Some (None, s).
Proof.
  unfold okname. rewrite andb_true_iff. intros [H1 H2]. unfold qname. rewrite split_no_colon by exact H2.
  destruct s; [discriminate|reflexivity].
Qed.
Lemma starts_with_app a b s : starts_with a (a ++ b ++ s) = true.
Proof. induction a as [|x a IH]; [reflexivity|]. cbn. rewrite N.eqb_refl. exact IH. Qed.
Lemma starts_with_iff a s : starts_with a s = true <-> exists r, s = a ++ r.
Proof.
  revert s. induction a as [|x a IH]; intros s; cbn.
  - split; eauto.
  - destruct s as [|y s]; [split; [discriminate|intros (r & H); discriminate]|].
    rewrite andb_true_iff, N.eqb_eq, IH. split.
    + intros [-> (r & ->)]. eauto.
    + intros (r & H). injection H as -> ->. eauto.
Qed.
Lemma contains_iff a s : contains a s = true <-> exists l r, s = l ++ a ++ r.
Proof.
  induction s as [|x s IH].
  - cbn. rewrite orb_false_r, starts_with_iff. split.
    + intros (r & H). exists [], r. exact H.
    + intros (l & r & H). symmetry in H. apply app_eq_nil in H. destruct H as [_ H]. eauto.
  - cbn [contains]. rewrite orb_true_iff, starts_with_iff, IH. split.
    + intros [(r & H)|(l & r & H)]; [exists [], r; exact H|exists (x :: l), r; cbn; congruence].
    + intros (l & r & H). destruct l as [|y l]; [left; eauto|]. cbn in H. injection H as -> H. right. eauto.
Qed.
Lemma app_split (a b c d : str) : a ++ b = c ++ d ->
  (exists m, a = c ++ m /\ d = m ++ b) \/ (exists m, c = a ++ m /\ b = m ++ d).
Proof.
  revert c. induction a as [|x a IH]; intros c H; cbn in H.
  - right. exists c. auto.
  - destruct c as [|y c]; cbn in H.
    + left. exists (x :: a). auto.
    + injection H as -> H. destruct (IH _ H) as [(m & -> & E)|(m & -> & E)]; [left|right]; exists m; auto.
Qed.
(** a text around a separator that the searched text does not contain *)
Lemma contains_sep sub a x b :
  ~ In x sub -> contains sub (a ++ x :: b) = true -> contains sub a = true \/ contains sub b = true.
Proof.
  rewrite !contains_iff. intros N (l & r & H).
  apply app_split in H. destruct H as [(m & -> & E)|(m & -> & E)].
  - apply app_split in E. destruct E as [(m2 & -> & E)|(m2 & -> & E)].
    + destruct m2 as [|y m2]; [|exfalso; apply N, in_or_app; right; cbn in E; injection E as -> _; left; reflexivity].
      left. exists l, []. rewrite !app_nil_r. reflexivity.
    + left. exists l, m2. reflexivity.
  - destruct m as [|y m]; cbn in E.
    + destruct sub as [|z sub]; [left; exists [], a; reflexivity|].
      cbn in E. injection E as -> _. exfalso. apply N. left. reflexivity.
    + injection E as -> ->. right. exists m, r. reflexivity.
Qed.
Lemma xhtml_not_in_name n : no_colon n = true -> contains xhtml_uri n = false.
Proof.
  intros H. destruct (contains xhtml_uri n) eqn:E; [|reflexivity]. exfalso.
  apply contains_iff in E. destruct E as (l & r & ->). unfold no_colon in H.
  rewrite !existsb_app in H. apply negb_true_iff in H. apply orb_false_iff in H. destruct H as [_ H].
  apply orb_false_iff in H. destruct H as [H _]. vm_compute in H. discriminate.
Qed.
Lemma xhtml_clark d n : contains xhtml_uri d = false -> no_colon n = true ->
  contains xhtml_uri ("{" ++ d ++ "}" ++ n) = false.
Proof.
  intros H1 H2. destruct (contains xhtml_uri ("{" ++ d ++ "}" ++ n)) eqn:E; [|reflexivity]. exfalso.
  change ("{" ++ d ++ "}" ++ n) with ([] ++ 123%N :: d ++ 125%N :: n) in E.
  apply contains_sep in E; [|vm_compute; intuition discriminate].
  destruct E as [E|E]; [discriminate|].
  apply contains_sep in E; [|vm_compute; intuition discriminate].
  destruct E as [E|E]; [congruence|]. rewrite xhtml_not_in_name in E by exact H2. discriminate.
Qed.
Lemma xhtml_clark_in u l : contains xhtml_uri u = true -> contains xhtml_uri ("{" ++ u ++ "}" ++ l) = true.
Proof.
  rewrite !contains_iff. intros (a & b & ->). exists ("{" ++ a), (b ++ "}" ++ l).
  rewrite <- !app_assoc. reflexivity.
Qed.

(** ** Lists *)
Lemma map_opt_app {A B} (f : A -> option B) l1 l2 r1 r2 :
  map_opt f l1 = Some r1 -> map_opt f l2 = Some r2 -> map_opt f (l1 ++ l2) = Some (r1 ++ r2).
Proof.
  revert r1. induction l1 as [|x l1 IH]; intros r1 H1 H2; cbn in *.
  - injection H1 as <-. exact H2.
  - destruct (f x); [|discriminate]. destruct (map_opt f l1) eqn:E; [|discriminate].
    injection H1 as <-. rewrite (IH _ eq_refl H2). reflexivity.
Qed.
Lemma map_opt_map {A B} (f : A -> option B) (g : A -> B) l :
  (forall x, In x l -> f x = Some (g x)) -> map_opt f l = Some (map g l).
Proof.
  induction l as [|x l IH]; intros H; [reflexivity|]. cbn. rewrite H, IH; [reflexivity| |left; reflexivity].
  intros y Hy. apply H. right. exact Hy.
Qed.
Lemma extend_nil m : extend [] m = m.
Proof. unfold extend. cbn. induction m as [|d m IH]; [reflexivity|]. cbn. f_equal. exact IH. Qed.
Lemma flat_map_nil {A B} (f : A -> list B) l : (forall x, In x l -> f x = []) -> flat_map f l = [].
Proof. induction l as [|x l IH]; intros H; [reflexivity|]. cbn. rewrite H by (left; reflexivity). apply IH. intros y Hy. apply H. right. exact Hy. Qed.
Lemma filter_true {A} (l : list A) : filter (fun _ => true) l = l.
Proof. induction l as [|x l IH]; [reflexivity|]. cbn. f_equal. exact IH. Qed.
Lemma ostr_mem_app q l1 l2 : ostr_mem q (l1 ++ l2) = ostr_mem q l1 || ostr_mem q l2.
Proof. apply existsb_app. Qed.

(** ** Attributes *)
Definition pnode (a : pattr) : attr := Attr None (pa_key a) (pa_val a).
Definition okattrs (l : list pattr) : Prop :=
  okkeys (map pa_key l) = true /\ Forall (fun a => aval (pa_raw a) (pa_val a)) l.
Lemma okkeys_in l a : okkeys (map pa_key l) = true -> In a l ->
  okname (pa_key a) = true /\ str_eqb (pa_key a) "xmlns" = false.
Proof.
  unfold okkeys. rewrite andb_true_iff, forallb_forall. intros [H _] HI.
  specialize (H (pa_key a) (in_map _ _ _ HI)). apply andb_prop in H. destruct H as [H1 H2].
  apply negb_true_iff in H2. auto.
Qed.
Lemma okname_decl k : okname k = true -> str_eqb k "xmlns" = false -> decl_of k = None.
Proof.
  unfold okname. rewrite andb_true_iff. intros [_ H1] H2. unfold decl_of. rewrite H2, split_no_colon by exact H1.
  reflexivity.
Qed.
Lemma okattrs_wf l : okattrs l -> Forall wf_attr l.
Proof.
  intros [H1 H2]. rewrite Forall_forall in *. intros a Ha. split; [|apply H2, Ha].
  destruct (okkeys_in _ _ H1 Ha) as [H _]. unfold okname in H. apply andb_prop in H. tauto.
Qed.
Lemma okattrs_decls l : okattrs l -> decls (map attr_of l) = [].
Proof.
  intros [H _]. unfold decls. apply flat_map_nil. intros kv Hk. apply in_map_iff in Hk. destruct Hk as (a & <- & Ha).
  destruct (okkeys_in _ _ H Ha) as [H1 H2]. unfold attr_of. cbn [fst]. rewrite okname_decl by assumption. reflexivity.
Qed.
Lemma okattrs_allowed l : okattrs l -> forallb decl_allowed (map attr_of l) = true.
Proof.
  intros [H _]. apply forallb_forall. intros kv Hk. apply in_map_iff in Hk. destruct Hk as (a & <- & Ha).
  destruct (okkeys_in _ _ H Ha) as [H1 H2]. unfold decl_allowed, attr_of. cbn [fst]. rewrite okname_decl by assumption. reflexivity.
Qed.
Lemma okattrs_resolve l env : okattrs l ->
  map_opt (resolve_attr env) (map attr_of l) = Some (map (fun a => [pnode a]) l).
Proof.
  intros [H _]. induction l as [|a l IH]; [reflexivity|]. cbn [map map_opt].
  destruct (okkeys_in (a :: l) a H) as [H1 H2]; [left; reflexivity|].
  assert (E : resolve_attr env (attr_of a) = Some [pnode a]).
  { unfold resolve_attr, attr_of. cbn [fst snd]. rewrite okname_decl, qname_plain by assumption. reflexivity. }
  rewrite E, IH; [reflexivity|].
  unfold okkeys in *. cbn [map forallb nodupb] in H. rewrite !andb_true_iff in *. tauto.
Qed.
Lemma concat_singles {A B} (g : A -> B) l : concat (map (fun a => [g a]) l) = map g l.
Proof. induction l as [|x l IH]; [reflexivity|]. cbn. f_equal. exact IH. Qed.
Lemma okattrs_nodup l : okattrs l -> nodupb (map fst (map attr_of l)) = true /\ nodupb (map a_key (map pnode l)) = true.
Proof.
  intros [H _]. unfold okkeys in H. apply andb_prop in H. destruct H as [_ H].
  rewrite !map_map. split; exact H.
Qed.

(** ** Good fragments *)
Section Good.
Variables p u : str.

Definition declared (f : frag) (env : nsmap) : Prop := f_use f = true -> ns_get env (Some p) = Some u.
Record good (f : frag) : Prop := Good {
  g_reads : reads (f_str f) (f_x f);
  (* no default namespace: nothing is stripped *)
  g_plain : forall env, declared f env -> ns_get env None = None ->
     map_opt (resolve env) (f_x f) = Some (f_n f env);
  (* a default namespace: stripped, then cleaned up *)
  g_strip : forall env d, declared f env -> ns_get env None = Some d -> d <> [] ->
     contains xhtml_uri d = false ->
     exists rs ss, map_opt (resolve env) (f_x f) = Some rs
       /\ map_opt (strip_ns false) rs = Some ss
       /\ (forall inh, map (cleanup inh) ss = f_n f inh)
       /\ (forall q, ostr_mem q (flat_map uses ss) = f_use f && ostr_eqb q (Some p)) }.

(** but for the text *)
Definition tree_good (f : frag) : Prop :=
  (forall env, declared f env -> ns_get env None = None -> map_opt (resolve env) (f_x f) = Some (f_n f env))
  /\ (forall env d, declared f env -> ns_get env None = Some d -> d <> [] -> contains xhtml_uri d = false ->
     exists rs ss, map_opt (resolve env) (f_x f) = Some rs
       /\ map_opt (strip_ns false) rs = Some ss
       /\ (forall inh, map (cleanup inh) ss = f_n f inh)
       /\ (forall q, ostr_mem q (flat_map uses ss) = f_use f && ostr_eqb q (Some p))).
Lemma good_tree f : good f -> tree_good f.
Proof. intros [_ H1 H2]. split; assumption. Qed.
Definition fnil : frag := Frag [] [] (fun _ => []) false.
Lemma good_nil : good fnil.
Proof.
  split; cbn.
  - apply reads_nil.
  - reflexivity.
  - intros env d _ _ _ _. exists [], []. repeat split; reflexivity.
Qed.
Definition fapp (f g : frag) : frag :=
  Frag (f_str f ++ f_str g) (f_x f ++ f_x g) (fun m => f_n f m ++ f_n g m) (f_use f || f_use g).
Lemma good_app f g : good f -> good g -> good (fapp f g).
Proof.
  intros [F1 F2 F3] [G1 G2 G3]. split; unfold declared; cbn [fapp f_str f_x f_n f_use].
  - apply reads_app; assumption.
  - intros env HD HN. apply map_opt_app; [apply F2|apply G2]; try exact HN; intros U; apply HD; rewrite U; [reflexivity|apply orb_true_r].
  - intros env d HD HN ND HX.
    destruct (F3 env d) as (r1 & s1 & A1 & A2 & A3 & A4); try assumption; [intros U; apply HD; rewrite U; reflexivity|].
    destruct (G3 env d) as (r2 & s2 & B1 & B2 & B3 & B4); try assumption; [intros U; apply HD; rewrite U; apply orb_true_r|].
    exists (r1 ++ r2), (s1 ++ s2). split; [apply map_opt_app; assumption|]. split; [apply map_opt_app; assumption|]. split.
    + intros inh. rewrite map_app, A3, B3. reflexivity.
    + intros q. rewrite flat_map_app, ostr_mem_app, A4, B4.
      destruct (f_use f), (f_use g), (ostr_eqb q (Some p)); reflexivity.
Qed.
Fixpoint fcat (l : list frag) : frag :=
  match l with [] => fnil | f :: l' => fapp f (fcat l') end.
Lemma good_cat l : Forall good l -> good (fcat l).
Proof. induction 1; [apply good_nil|]. apply good_app; assumption. Qed.
Lemma fcat_str l : f_str (fcat l) = concat (map f_str l).
Proof. induction l as [|f l IH]; [reflexivity|]. cbn. rewrite IH. reflexivity. Qed.
Lemma fcat_n l m : f_n (fcat l) m = concat (map (fun f => f_n f m) l).
Proof. induction l as [|f l IH]; [reflexivity|]. cbn. rewrite IH. reflexivity. Qed.
Lemma fcat_use l : f_use (fcat l) = existsb f_use l.
Proof. induction l as [|f l IH]; [reflexivity|]. cbn. rewrite IH. reflexivity. Qed.

(** character data *)
Definition ftxt (raw s : str) : frag := Frag raw (map XChar s) (fun _ => map Chr s) false.
Lemma tree_txt raw s : tree_good (ftxt raw s).
Proof.
  split; cbn.
  - intros env _ _. rewrite (map_opt_map (resolve env) (fun x => match x with XChar c => Chr c | _ => Chr 0 end)).
    + rewrite map_map. reflexivity.
    + intros x Hx. apply in_map_iff in Hx. destruct Hx as (c & <- & _). reflexivity.
  - intros env d _ _ _ _. exists (map Chr s), (map Chr s). split; [|split; [|split]].
    + rewrite (map_opt_map (resolve env) (fun x => match x with XChar c => Chr c | _ => Chr 0 end)).
      * rewrite map_map. reflexivity.
      * intros x Hx. apply in_map_iff in Hx. destruct Hx as (c & <- & _). reflexivity.
    + rewrite (map_opt_map (strip_ns false) (fun x => x)); [rewrite map_id; reflexivity|].
      intros x Hx. apply in_map_iff in Hx. destruct Hx as (c & <- & _). reflexivity.
    + intros inh. rewrite map_map. reflexivity.
    + intros q. rewrite flat_map_nil; [reflexivity|]. intros x Hx. apply in_map_iff in Hx. destruct Hx as (c & <- & _). reflexivity.
Qed.
Lemma good_txt raw s : reads raw (map XChar s) -> good (ftxt raw s).
Proof. intros H. destruct (tree_txt raw s) as [T1 T2]. split; [exact H|exact T1|exact T2]. Qed.
Definition fws (s : str) : frag := ftxt s s.
Lemma good_ws s : forallb text_plain s = true -> good (fws s).
Proof. intros H. apply good_txt, reads_raw, H. Qed.

(** an element: open and close tag, or self-closed *)
Definition el (n : str) (as_ : list pattr) (body : frag) (m : nsmap) : node :=
  El None n [] m (map pnode as_) (f_n body m).
Definition fel (n : str) (as_ : list pattr) (body : frag) : frag :=
  Frag ("<" ++ n ++ render_attrs as_ ++ ">" ++ f_str body ++ "</" ++ n ++ ">")
       [XElem n (map attr_of as_) (f_x body)] (fun m => [el n as_ body m]) (f_use body).
Definition fem (n : str) (as_ : list pattr) : frag :=
  Frag ("<" ++ n ++ render_attrs as_ ++ "/>")
       [XElem n (map attr_of as_) []] (fun m => [el n as_ fnil m]) false.

Lemma elem_tree n as_ body :
  okname n = true -> okattrs as_ -> tree_good body ->
  (forall env, declared body env -> ns_get env None = None ->
     map_opt (resolve env) [XElem n (map attr_of as_) (f_x body)] = Some [el n as_ body env]) /\
  (forall env d, declared body env -> ns_get env None = Some d -> d <> [] ->
     contains xhtml_uri d = false ->
     exists rs ss, map_opt (resolve env) [XElem n (map attr_of as_) (f_x body)] = Some rs
       /\ map_opt (strip_ns false) rs = Some ss
       /\ (forall inh, map (cleanup inh) ss = [el n as_ body inh])
       /\ (forall q, ostr_mem q (flat_map uses ss) = f_use body && ostr_eqb q (Some p))).
Proof.
  intros HN HA [G2 G3]. destruct (okattrs_nodup _ HA) as [D1 D2]. split.
  - intros env HD H0. cbn [map_opt]. cbn [resolve]. rewrite okattrs_decls, extend_nil, D1, okattrs_allowed, qname_plain by assumption.
    cbn [negb elem_ns]. rewrite H0, okattrs_resolve, concat_singles, D2 by exact HA. cbn [negb].
    change (map_opt (resolve env) (f_x body)) with (map_opt (resolve env) (f_x body)).
    rewrite G2 by assumption. reflexivity.
  - intros env d HD H0 ND HX. destruct (G3 env d HD H0 ND HX) as (rs & ss & A1 & A2 & A3 & A4).
    exists [El (Some (None, d)) n [] env (map pnode as_) rs], [El None n [] env (map pnode as_) ss].
    split; [|split; [|split]].
    + cbn [map_opt]. cbn [resolve]. rewrite okattrs_decls, extend_nil, D1, okattrs_allowed, qname_plain by assumption.
      cbn [negb elem_ns]. rewrite H0. destruct d as [|c d]; [congruence|].
      rewrite okattrs_resolve, concat_singles, D2 by exact HA. cbn [negb]. rewrite A1. reflexivity.
    + cbn [map_opt]. cbn [strip_ns]. unfold clark. rewrite xhtml_clark; [|exact HX|unfold okname in HN; apply andb_prop in HN; tauto].
      rewrite andb_false_r, A2. reflexivity.
    + intros inh. cbn [map cleanup filter]. rewrite extend_nil, A3. reflexivity.
    + intros q. cbn [flat_map]. rewrite app_nil_r. cbn [uses map].
      change (fun p0 : option str => negb (ostr_mem p0 [])) with (fun p0 : option str => true).
      rewrite filter_true, ostr_mem_app, A4.
      assert (O : own_refs None (map pnode as_) = []).
      { unfold own_refs. cbn. apply flat_map_nil. intros a Ha. apply in_map_iff in Ha. destruct Ha as (b & <- & _). reflexivity. }
      rewrite O. reflexivity.
Qed.
Lemma okname_name n : okname n = true -> is_name n = true.
Proof. unfold okname. rewrite andb_true_iff. tauto. Qed.
Lemma good_el n as_ body : okname n = true -> okattrs as_ -> good body -> good (fel n as_ body).
Proof.
  intros HN HA HB. destruct (elem_tree n as_ body HN HA (good_tree _ HB)) as [T1 T2].
  split; unfold declared; cbn [fel f_str f_x f_n f_use].
  - apply reads_elem; [apply okname_name, HN|apply okattrs_wf, HA|apply reads_reads0, HB].
  - exact T1.
  - exact T2.
Qed.
Lemma good_el_txt n as_ raw s : okname n = true -> okattrs as_ -> reads0 raw (map XChar s) -> good (fel n as_ (ftxt raw s)).
Proof.
  intros HN HA HB. destruct (elem_tree n as_ _ HN HA (tree_txt raw s)) as [T1 T2].
  split; unfold declared; cbn [fel f_str f_x f_n f_use].
  - apply reads_elem; [apply okname_name, HN|apply okattrs_wf, HA|exact HB].
  - exact T1.
  - exact T2.
Qed.
Lemma good_em n as_ : okname n = true -> okattrs as_ -> good (fem n as_).
Proof.
  intros HN HA. destruct (elem_tree n as_ fnil HN HA (good_tree _ good_nil)) as [T1 T2].
  split; unfold declared; cbn [fem f_str f_x f_n f_use].
  - apply reads_empty; [apply okname_name, HN|apply okattrs_wf, HA].
  - exact T1.
  - exact T2.
Qed.

(** ** XHTML elements *)
Definition xel (l : str) (as_ : list pattr) (body : frag) (m : nsmap) : node :=
  El (Some (Some p, u)) l [] m (map pnode as_) (f_n body m).
Definition fxel (l : str) (as_ : list pattr) (body : frag) : frag :=
  Frag ("<" ++ (p ++ ":" ++ l) ++ render_attrs as_ ++ ">" ++ f_str body ++ "</" ++ (p ++ ":" ++ l) ++ ">")
       [XElem (p ++ ":" ++ l) (map attr_of as_) (f_x body)] (fun m => [xel l as_ body m]) true.
Definition fxem (l : str) (as_ : list pattr) : frag :=
  Frag ("<" ++ (p ++ ":" ++ l) ++ render_attrs as_ ++ "/>")
       [XElem (p ++ ":" ++ l) (map attr_of as_) []] (fun m => [xel l as_ fnil m]) true.

Hypothesis p_ok : okname p = true.
Hypothesis p_xml : str_eqb p "xml" = false.
Hypothesis u_xhtml : contains xhtml_uri u = true.

Lemma split_prefixed a b : no_colon a = true -> split_colon (a ++ ":" ++ b) = (a, Some b).
Proof.
  induction a as [|c a IH]; [reflexivity|]. unfold no_colon. cbn [existsb]. rewrite negb_orb, andb_true_iff, negb_true_iff.
  intros [H1 H2]. rewrite N.eqb_sym in H1. rewrite <- app_comm_cons. cbn [split_colon]. rewrite H1, (IH H2). reflexivity.
Qed.
Lemma qname_prefixed l : okname l = true -> qname (p ++ ":" ++ l) = Some (Some p, l).
Proof.
  intros H. unfold okname, no_colon in *. apply andb_prop in p_ok. destruct p_ok as [P1 P2].
  apply andb_prop in H. destruct H as [L1 L2]. unfold qname. rewrite split_prefixed by exact P2.
  destruct p as [|c p']; [discriminate|]. destruct l as [|c' l']; [discriminate|].
  apply negb_true_iff in L2. rewrite L2. cbn in L1. apply andb_prop in L1. destruct L1 as [-> _]. reflexivity.
Qed.
Lemma name_char_all n : is_name n = true -> forallb is_name_char n = true.
Proof.
  destruct n as [|c n]; [discriminate|]. cbn. rewrite !andb_true_iff. intros [H1 H2]. split; [|exact H2].
  apply name_start_char, H1.
Qed.
Lemma name_prefixed l : okname l = true -> is_name (p ++ ":" ++ l) = true.
Proof.
  intros H. apply okname_name in H. pose proof (okname_name _ p_ok) as HP. apply name_char_all in H.
  destruct p as [|c p']; [discriminate|]. cbn in *. apply andb_prop in HP. destruct HP as [-> HP].
  rewrite forallb_app, HP. cbn. exact H.
Qed.
Lemma xelem_tree l as_ body :
  okname l = true -> okattrs as_ -> good body ->
  (forall env, ns_get env (Some p) = Some u -> ns_get env None = None ->
     map_opt (resolve env) [XElem (p ++ ":" ++ l) (map attr_of as_) (f_x body)] = Some [xel l as_ body env]) /\
  (forall env d, ns_get env (Some p) = Some u -> ns_get env None = Some d -> d <> [] ->
     contains xhtml_uri d = false ->
     exists rs ss, map_opt (resolve env) [XElem (p ++ ":" ++ l) (map attr_of as_) (f_x body)] = Some rs
       /\ map_opt (strip_ns false) rs = Some ss
       /\ (forall inh, map (cleanup inh) ss = [xel l as_ body inh])
       /\ (forall q, ostr_mem q (flat_map uses ss) = ostr_eqb q (Some p))).
Proof.
  intros HN HA [G1 G2 G3]. destruct (okattrs_nodup _ HA) as [D1 D2]. split.
  - intros env HP H0. cbn [map_opt]. cbn [resolve]. rewrite okattrs_decls, extend_nil, D1, okattrs_allowed, qname_prefixed by assumption.
    cbn [negb elem_ns]. rewrite p_xml, HP, okattrs_resolve, concat_singles, D2 by exact HA. cbn [negb].
    rewrite G2; [reflexivity|intros _; exact HP|exact H0].
  - intros env d HP H0 ND HX. destruct (G3 env d) as (rs & ss & A1 & A2 & A3 & A4); try assumption; [intros _; exact HP|].
    exists [El (Some (Some p, u)) l [] env (map pnode as_) rs], [El (Some (Some p, u)) l [] env (map pnode as_) ss].
    split; [|split; [|split]].
    + cbn [map_opt]. cbn [resolve]. rewrite okattrs_decls, extend_nil, D1, okattrs_allowed, qname_prefixed by assumption.
      cbn [negb elem_ns]. rewrite p_xml, HP.
      rewrite okattrs_resolve, concat_singles, D2 by exact HA. cbn [negb]. rewrite A1. reflexivity.
    + cbn [map_opt]. cbn [strip_ns]. unfold clark. rewrite xhtml_clark_in by exact u_xhtml. cbn [negb andb].
      rewrite A2. reflexivity.
    + intros inh. cbn [map cleanup filter]. rewrite extend_nil, A3. reflexivity.
    + intros q. cbn [flat_map]. rewrite app_nil_r. cbn [uses map].
      change (fun p0 : option str => negb (ostr_mem p0 [])) with (fun p0 : option str => true).
      rewrite filter_true, ostr_mem_app, A4.
      assert (O : own_refs (Some (Some p, u)) (map pnode as_) = [Some p]).
      { unfold own_refs. rewrite flat_map_nil; [reflexivity|]. intros a Ha. apply in_map_iff in Ha. destruct Ha as (b & <- & _). reflexivity. }
      rewrite O. cbn. destruct (ostr_eqb q (Some p)), (f_use body); reflexivity.
Qed.
Lemma good_xel l as_ body : okname l = true -> okattrs as_ -> good body -> good (fxel l as_ body).
Proof.
  intros HN HA HB. destruct (xelem_tree l as_ body HN HA HB) as [T1 T2].
  split; unfold declared; cbn [fxel f_str f_x f_n f_use andb].
  - apply reads_elem; [apply name_prefixed, HN|apply okattrs_wf, HA|apply reads_reads0, HB].
  - intros env HD. apply T1, HD. reflexivity.
  - intros env d HD. apply T2, HD. reflexivity.
Qed.
Lemma good_xem l as_ : okname l = true -> okattrs as_ -> good (fxem l as_).
Proof.
  intros HN HA. destruct (xelem_tree l as_ fnil HN HA good_nil) as [T1 T2].
  split; unfold declared; cbn [fxem f_str f_x f_n f_use andb].
  - apply reads_empty; [apply name_prefixed, HN|apply okattrs_wf, HA].
  - intros env HD. apply T1, HD. reflexivity.
  - intros env d HD. apply T2, HD. reflexivity.
Qed.
End Good.

(** ** The nodes of a fragment *)
Definition elements (l : list node) : list node := filter (fun k => negb (is_chr k)) l.
Lemma elements_app a b : elements (a ++ b) = elements a ++ elements b.
Proof. apply filter_app. Qed.
Lemma elements_chr s : elements (map Chr s) = [].
Proof. induction s; [reflexivity|exact IHs]. Qed.
Lemma find_list_elements t l : find_list t l = find_list t (elements l).
Proof.
  unfold find_list, elements. induction l as [|k l IH]; [reflexivity|].
  destruct k; cbn [filter is_chr negb find]; rewrite <- IH; reflexivity.
Qed.
Lemma find_child_elements t n : find_child t n = find_list t (children n).
Proof. apply find_list_elements. Qed.
Lemma lead_chr s : lead (map Chr s) = s.
Proof. induction s; cbn; congruence. Qed.
