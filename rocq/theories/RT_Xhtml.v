(** RT_Xhtml.v -- XHTML values are read back as they were written *)
From Verif Require Import Base Xml Lxml Py LxmlStr Models XmlProofs DictProofs SpecEscape EscapeProofs
  SpecPrint SpecXhtml SpecDocument Frag RT RT_Header RT_Values.

Lemma xh_ind' (P : xh -> Prop) :
  (forall c, P (XT c)) -> (forall n a k, Forall P k -> P (XE n a k)) -> forall x, P x.
Proof.
  intros H1 H2. fix F 1. intros [c|n a k]; [apply H1|]. apply H2.
  induction k as [|x k IH]; constructor; [apply F|exact IH].
Qed.
Lemma xh_ok_elem n a k : xh_ok (XE n a k) <->
  plain_name n = true /\ attr_names (map fst a) = true
  /\ Forall (fun kv => xml_text_without [10; 13]%N (snd kv)) a /\ forest_ok k.
Proof.
  cbn [xh_ok]. enough (E : (fix all ks := match ks with [] => True | k :: ks' => xh_ok k /\ all ks' end) k <-> forest_ok k) by tauto.
  unfold forest_ok. induction k as [|x k IH]; [split; constructor|]. split.
  - intros [H1 H2]. constructor; [exact H1|apply IH, H2].
  - intros H. inversion H; subst. split; [assumption|]. apply IH. assumption.
Qed.

Section X.
Variables p u : str.
Definition xattrs (a : list (str * str)) : list pattr :=
  map (fun kv => PA (fst kv) (lxml_escape_for_html (snd kv)) (snd kv)) a.
Lemma xattrs_render a : render_attrs (xattrs a) = show_attrs a.
Proof.
  unfold render_attrs, xattrs, show_attrs. induction a as [|kv a IH]; [reflexivity|]. cbn [map flat_map].
  rewrite IH. unfold render_attr. cbn [pa_key pa_raw]. rewrite lxml_escape_eq. reflexivity.
Qed.
Lemma distinct_nodupb l : distinct l = nodupb l.
Proof. induction l as [|x l IH]; [reflexivity|]. cbn. rewrite IH. reflexivity. Qed.
Lemma xattrs_ok a : attr_names (map fst a) = true ->
  Forall (fun kv => xml_text_without [10; 13]%N (snd kv)) a -> okattrs (xattrs a).
Proof.
  intros H1 H2. split.
  - unfold xattrs. rewrite map_map. unfold okkeys. unfold attr_names in H1. rewrite distinct_nodupb in H1. exact H1.
  - unfold xattrs. rewrite Forall_map. revert H2. apply Forall_impl. intros kv H. cbn [pa_raw pa_val]. apply lxml_aval, H.
Qed.

(** the fragment of a forest *)
Fixpoint fxh (x : xh) : frag :=
  match x with
  | XT c => ftxt (lxml_escape_for_html [c]) [c]
  | XE n a [] => fxem p u n (xattrs a)
  | XE n a ks => fxel p u n (xattrs a) (fcat (map fxh ks))
  end.
Definition fforest (f : list xh) : frag := fcat (map fxh f).

Hypothesis p_ok : okname p = true.
Hypothesis p_xml : str_eqb p "xml" = false.
Hypothesis u_xhtml : contains xhtml_uri u = true.

Lemma fxh_good x : xh_ok x -> good p u (fxh x).
Proof.
  induction x as [c|n a k IH] using xh_ind'; intros H.
  - cbn [fxh]. apply good_txt, lxml_reads. destruct H as [H1 H2]. constructor; [|constructor]. split; [exact H1|]. cbn. intuition congruence.
  - apply xh_ok_elem in H. destruct H as (H1 & H2 & H3 & H4). cbn [fxh]. destruct k as [|x k].
    + apply good_xem; [assumption..| |]; [exact H1|apply xattrs_ok; assumption].
    + apply good_xel; [assumption..| | |]; [exact H1|apply xattrs_ok; assumption|].
      apply good_cat. rewrite Forall_map. rewrite Forall_forall in *. intros y Hy. apply IH; [exact Hy|]. unfold forest_ok in H4.
      rewrite Forall_forall in H4. apply H4, Hy.
Qed.
Lemma fforest_good f : forest_ok f -> good p u (fforest f).
Proof. intros H. apply good_cat. rewrite Forall_map. revert H. apply Forall_impl, fxh_good. Qed.

Lemma flat_map_concat {A B} (g : A -> list B) l : concat (map g l) = flat_map g l.
Proof. induction l as [|x l IH]; [reflexivity|]. cbn. rewrite IH. reflexivity. Qed.
Lemma fxh_str x : f_str (fxh x) = show_node (fun _ => false) (p ++ ":") x.
Proof.
  induction x as [c|n a k IH] using xh_ind'.
  - cbn [fxh ftxt f_str show_node]. apply lxml_escape_eq.
  - cbn [show_node]. destruct k as [|x k].
    + cbn [fxh fxem f_str]. rewrite xattrs_render, <- !app_assoc. reflexivity.
    + change (f_str (fxh (XE n a (x :: k)))) with ("<" ++ (p ++ ":" ++ n) ++ render_attrs (xattrs a) ++ ">" ++ f_str (fcat (map fxh (x :: k))) ++ "</" ++ (p ++ ":" ++ n) ++ ">").
      rewrite xattrs_render, fcat_str, map_map, <- flat_map_concat, <- !app_assoc.
      rewrite (map_ext_Forall _ _ IH). reflexivity.
Qed.
Lemma fforest_str f : f_str (fforest f) = show p f.
Proof.
  unfold fforest, show, show_forest. rewrite fcat_str, map_map, <- flat_map_concat. f_equal. apply map_ext, fxh_str.
Qed.
Lemma fforest_use f : f_use (fforest f) = has_markup f.
Proof.
  unfold fforest, has_markup. rewrite fcat_use. induction f as [|x f IH]; [reflexivity|]. cbn [map existsb]. rewrite IH. f_equal.
  destruct x as [c|n a [|y k]]; reflexivity.
Qed.

(** the nodes of a forest below an element with namespaces [m] *)
Fixpoint xnodes (q : option nsref) (m : nsmap) (x : xh) : node :=
  match x with
  | XT c => Chr c
  | XE n a ks => El q n [] m (map (fun kv => Attr None (fst kv) (snd kv)) a) (map (xnodes q m) ks)
  end.
Lemma fxh_n m x : f_n (fxh x) m = [xnodes (Some (Some p, u)) m x].
Proof.
  assert (HA : forall a, map pnode (xattrs a) = map (fun kv => Attr None (fst kv) (snd kv)) a) by (intros a; unfold xattrs; rewrite map_map; reflexivity).
  induction x as [c|n a k IH] using xh_ind'; [reflexivity|]. destruct k as [|x k].
  - cbn [fxh fxem f_n]. unfold xel. rewrite HA. reflexivity.
  - change (f_n (fxh (XE n a (x :: k))) m) with [El (Some (Some p, u)) n [] m (map pnode (xattrs a)) (f_n (fcat (map fxh (x :: k))) m)].
    rewrite HA, fcat_n, map_map. cbn [xnodes]. f_equal. f_equal. rewrite (map_ext_Forall _ _ IH).
    remember (x :: k) as l. clear. induction l as [|y l IHl]; [reflexivity|]. cbn. rewrite IHl. reflexivity.
Qed.
Lemma fforest_n m f : f_n (fforest f) m = map (xnodes (Some (Some p, u)) m) f.
Proof.
  unfold fforest. rewrite fcat_n, map_map. induction f as [|x f IH]; [reflexivity|]. cbn [map concat]. rewrite IH, fxh_n. reflexivity.
Qed.
End X.

(** ** Stringification with a prefix *)
Lemma attrib_x q m n a ks : attrib (El q n [] m (map (fun kv => Attr None (fst kv) (snd kv)) a) ks) = a.
Proof. cbn [attrib]. rewrite map_map. cbn. induction a as [|[k v] a IH]; [reflexivity|]. cbn. f_equal. exact IH. Qed.
Lemma print_attrs_x q m n a ks : print_attrs (El q n [] m (map (fun kv => Attr None (fst kv) (snd kv)) a) ks) = show_attrs a.
Proof.
  unfold print_attrs. rewrite attrib_x. unfold show_attrs. apply flat_map_ext. intros kv. rewrite lxml_escape_eq. reflexivity.
Qed.
Lemma clark_not_object u n : str_eqb (casefold (clark (Some u) n)) "object" = false.
Proof. destruct u as [p u]. reflexivity. Qed.

Definition no_default (u : str) (m : nsmap) : Prop := ~ In (None, u) m.
Lemma own_ns_false u m : no_default u m ->
  existsb (fun d => ostr_eqb (fst d) None && str_eqb (snd d) u) m = false.
Proof.
  intros H. match goal with |- ?b = false => destruct b eqn:E; [|reflexivity] end. exfalso. apply H. apply existsb_exists in E.
  destruct E as ([k v] & HI & HE). cbn [fst snd] in HE. apply andb_prop in HE. destruct HE as [E1 E2].
  destruct k; [discriminate|]. apply str_eqb_eq in E2. subst v. exact HI.
Qed.
Lemma ns_kids_go p forced (q : option nsref) m (k : list xh) s :
  Forall (fun x => is_text x = false -> stringify_ns_node p forced (xnodes q m x) = Ok (s x)) k ->
  (forall c, s (XT c) = lxml_escape_for_html [c]) ->
  stringify_ns_kids p forced (map (xnodes q m) k) = Ok (flat_map s k).
Proof.
  intros H HT. induction H as [|x k Hx Hk IH]; [reflexivity|]. unfold stringify_ns_kids in *. cbn [map flat_map].
  destruct x as [c|n a ks].
  - cbn [xnodes]. rewrite IH. cbn [bind]. rewrite HT. reflexivity.
  - specialize (Hx eq_refl). cbn [xnodes] in Hx |- *. rewrite Hx. cbn [bind]. rewrite IH. cbn [bind]. reflexivity.
Qed.
Lemma stringify_ns_el p forced ns l defs inh attrs kids :
  stringify_ns_node p forced (El ns l defs inh attrs kids) =
  let own_ns := match ns with
                | Some (_, u) =>
                    existsb (fun d => ostr_eqb (fst d) None && str_eqb (snd d) u)
                            (extend defs inh)
                | None => false end in
  let tag_ := if own_ns then l
              else if (match ns with Some _ => true | None => false end) || forced
                   then fmt p ++ ":" ++ l
                   else clark ns l in
  let head := "<" ++ tag_
              ++ (if own_ns then " xmlns=""" ++ fmt (ns_get (extend defs inh) None) ++ """"
                  else [])
              ++ print_attrs (El ns l defs inh attrs kids) in
  if needs_close (clark ns l) kids then
    let! inner := stringify_ns_kids p forced kids in
    Ok (head ++ ">" ++ inner ++ "</" ++ tag_ ++ ">")
  else Ok (head ++ "/>").
Proof. reflexivity. Qed.
Lemma stringify_ns_x p u m x : no_default u m -> is_text x = false ->
  stringify_ns_node (Some p) false (xnodes (Some (Some p, u)) m x) = Ok (show_node (fun _ => false) (p ++ ":") x).
Proof.
  intros HD. induction x as [c|n a k IH] using xh_ind'; intros HT; [discriminate|]. clear HT.
  cbn [xnodes]. rewrite stringify_ns_el, extend_nil, own_ns_false by exact HD. cbv zeta. cbn [orb fmt].
  rewrite print_attrs_x. cbn [show_node].
  rewrite (ns_kids_go _ _ _ _ k (show_node (fun _ => false) (p ++ ":"))); [|exact IH|intros c; cbn [show_node]; symmetry; apply lxml_escape_eq].
  cbn [bind]. unfold needs_close. rewrite clark_not_object. destruct k as [|x k]; cbn [map]; rewrite <- !app_assoc; reflexivity.
Qed.
Lemma stringify_ns_forest p u m f : no_default u m ->
  stringify_ns_kids (Some p) false (map (xnodes (Some (Some p, u)) m) f) = Ok (show p f).
Proof.
  intros HD. unfold show, show_forest. apply ns_kids_go; [|intros c; cbn [show_node]; symmetry; apply lxml_escape_eq].
  apply Forall_forall. intros x _ HT. apply stringify_ns_x; assumption.
Qed.
(** text only: the prefix does not matter *)
Lemma stringify_ns_text k q m f p : has_markup f = false ->
  stringify_ns_kids k false (map (xnodes q m) f) = Ok (show p f).
Proof.
  intros HM. unfold show, show_forest. apply ns_kids_go; [|intros c; cbn [show_node]; symmetry; apply lxml_escape_eq].
  apply Forall_forall. intros x Hx HT. exfalso.
  assert (has_markup f = true) by (apply existsb_exists; exists x; rewrite HT; auto). congruence.
Qed.

(** ** Without prefix *)
Lemma lead_x q m f : lead (map (xnodes q m) f) = leading f.
Proof. induction f as [|[c|n a k] f IH]; [reflexivity| |reflexivity]. cbn. rewrite IH. reflexivity. Qed.
Lemma tails_x q m f : tails (map (xnodes q m) f) = map (fun kt => (xnodes q m (fst kt), snd kt)) (followed f).
Proof.
  induction f as [|[c|n a k] f IH]; [reflexivity|exact IH|]. cbn [map xnodes tails followed fst snd]. rewrite lead_x, IH. reflexivity.
Qed.
Definition stringify_node_kids (kids : list node) : result str :=
  (fix go (ks : list node) : result str :=
             match ks with
             | [] => Ok []
             | Chr c :: ks' => let! r := go ks' in Ok (lxml_escape_for_html [c] ++ r)
             | k :: ks' => let! s := stringify_node false k in
                           let! r := go ks' in Ok (s ++ r)
             end) kids.
Lemma stringify_node_el root ns l inh attrs kids : 
  stringify_node root (El ns l [] inh attrs kids) =
      let tag_ := match extend [] inh with
                  | (Some k, _) :: _ =>
                      match ns with Some _ => k ++ ":" ++ l | None => l end
                  | _ => l
                  end in
      let head := "<" ++ tag_ ++ print_attrs (El ns l [] inh attrs kids)
                  ++ (match extend [] inh with
                      | (_, v) :: _ => if root then " xmlns=""" ++ v ++ """" else []
                      | [] => [] end) in
      if needs_close (clark ns l) kids then
        let! inner := stringify_node_kids kids in
        Ok (head ++ ">" ++ inner ++ "</" ++ tag_ ++ ">")
      else Ok (head ++ "/>").
Proof. reflexivity. Qed.
Lemma node_kids_go (k : list xh) s :
  Forall (fun x => is_text x = false -> forall root, stringify_node root (xnodes None [] x) = Ok (s x)) k ->
  (forall c, s (XT c) = lxml_escape_for_html [c]) ->
  stringify_node_kids (map (xnodes None []) k) = Ok (flat_map s k).
Proof.
  intros H HT. induction H as [|x k Hx Hk IH]; [reflexivity|]. unfold stringify_node_kids in *. cbn [map flat_map].
  destruct x as [c|n a ks].
  - cbn [xnodes]. rewrite IH. cbn [bind]. rewrite HT. reflexivity.
  - specialize (Hx eq_refl false). cbn [xnodes] in Hx |- *. rewrite Hx. cbn [bind]. rewrite IH. cbn [bind]. reflexivity.
Qed.
Lemma is_object_casefold n : str_eqb (casefold n) "object" = is_object n.
Proof. reflexivity. Qed.
Lemma stringify_node_x x : is_text x = false -> forall root,
  stringify_node root (xnodes None [] x) = Ok (show_node is_object [] x).
Proof.
  induction x as [c|n a k IH] using xh_ind'; intros HT; [discriminate|]. clear HT. intros root.
  cbn [xnodes]. rewrite stringify_node_el. change (extend [] []) with (@nil nsref). cbv zeta.
  rewrite print_attrs_x, app_nil_r. cbn [show_node clark].
  rewrite (node_kids_go k (show_node is_object [])); [|exact IH|intros c; cbn [show_node]; symmetry; apply lxml_escape_eq].
  cbn [bind]. unfold needs_close. rewrite is_object_casefold. rewrite app_nil_l.
  destruct k as [|x k]; cbn [map].
  - destruct (is_object n); rewrite <- !app_assoc; reflexivity.
  - rewrite <- !app_assoc. reflexivity.
Qed.
Lemma in_followed f kt : In kt (followed f) -> is_text (fst kt) = false.
Proof.
  induction f as [|[c|n a k] f IH]; [intros []|exact IH|]. cbn [followed]. intros [<-|H]; [reflexivity|exact (IH H)].
Qed.
Lemma stringify_children_x ns l d i a f :
  stringify_children (El ns l d i a (map (xnodes None []) f)) = Ok (bare_doubled f).
Proof.
  unfold stringify_children, bare_doubled. cbn [kids_of]. rewrite tails_x, lead_x.
  assert (E : forall L, (forall kt, In kt L -> is_text (fst kt) = false) ->
    mapM (fun kt => let! s := stringify_node true (fst kt) in Ok (s ++ lxml_escape_for_html (snd kt) ++ snd kt))
      (map (fun kt : xh * str => (xnodes None [] (fst kt), snd kt)) L)
    = Ok (map (fun kt => show_node is_object [] (fst kt) ++ substitute lxml_table (snd kt) ++ snd kt) L)).
  { induction L as [|kt L IH]; intros H; [reflexivity|]. cbn [map mapM fst snd].
    rewrite stringify_node_x by (apply H; left; reflexivity). cbn [bind]. rewrite IH by (intros y Hy; apply H; right; exact Hy).
    cbn [bind]. rewrite lxml_escape_eq. reflexivity. }
  rewrite E by apply in_followed. cbn [bind]. rewrite flat_map_concat. reflexivity.
Qed.

(** the copy without namespaces *)
Lemma strip_full_x q m x : strip_ns true (xnodes q m x) = Some (xnodes None m x).
Proof.
  induction x as [c|n a k IH] using xh_ind'; [reflexivity|]. cbn [xnodes strip_ns].
  enough (E : map_opt (strip_ns true) (map (xnodes q m) k) = Some (map (xnodes None m) k)) by (rewrite E; reflexivity).
  induction IH as [|x k Hx Hk IHk]; [reflexivity|]. cbn [map map_opt]. rewrite Hx, IHk. reflexivity.
Qed.
Lemma map_opt_strip q m f : map_opt (strip_ns true) (map (xnodes q m) f) = Some (map (xnodes None m) f).
Proof. induction f as [|x f IH]; [reflexivity|]. cbn [map map_opt]. rewrite strip_full_x, IH. reflexivity. Qed.
Lemma uses_x m x : uses (xnodes None m x) = [].
Proof.
  induction x as [c|n a k IH] using xh_ind'; [reflexivity|]. cbn [xnodes uses map].
  assert (E : flat_map uses (map (xnodes None m) k) = []).
  { induction IH as [|x k Hx Hk IHk]; [reflexivity|]. cbn [map flat_map]. rewrite Hx, IHk. reflexivity. }
  rewrite E, app_nil_r. unfold own_refs. cbn [app]. rewrite flat_map_nil; [reflexivity|].
  intros y Hy. apply in_map_iff in Hy. destruct Hy as (b & <- & _). reflexivity.
Qed.
Lemma cleanup_x m m' x : cleanup m' (xnodes None m x) = xnodes None m' x.
Proof.
  induction x as [c|n a k IH] using xh_ind'; [reflexivity|]. cbn [xnodes cleanup filter]. rewrite extend_nil. f_equal.
  rewrite map_map. apply map_ext_Forall, IH.
Qed.
Lemma flat_uses_x m f : flat_map uses (map (xnodes None m) f) = [].
Proof. apply flat_map_nil. intros y Hy. apply in_map_iff in Hy. destruct Hy as (b & <- & _). apply uses_x. Qed.
Lemma convert_x q m l f :
  convert_children_from_reqif_ns (El None l [] m [] (map (xnodes q m) f)) = Ok (bare_doubled f).
Proof.
  unfold convert_children_from_reqif_ns, deepcopy. cbn [strip_ns app]. rewrite map_opt_strip.
  cbn [cleanup own_refs flat_map app]. rewrite flat_uses_x.
  cbn [negb andb own_refs flat_map app].
  assert (F : forall L : nsmap, filter (fun d => ostr_mem (fst d) []) L = []) by (induction L as [|y L IH]; [reflexivity|exact IH]).
  rewrite F.
  rewrite extend_nil, map_map. rewrite (map_ext _ (xnodes None [])) by (intros; apply cleanup_x).
  apply stringify_children_x.
Qed.

(** ** The hypotheses of the round trips of definitions and values *)
(** Text without characters that need escaping *)
Lemma text_show p f : has_markup f = false -> show p f = substitute lxml_table (leading f).
Proof.
  induction f as [|[c|n a k] f IH]; [reflexivity| |discriminate]. intros H.
  unfold show, show_forest in *. cbn [flat_map leading show_node]. rewrite IH by exact H. unfold substitute. cbn [flat_map]. rewrite app_nil_r. reflexivity.
Qed.
Lemma text_doubled f : has_markup f = false -> bare_doubled f = leading f.
Proof.
  intros H. unfold bare_doubled. enough (E : followed f = []) by (rewrite E; apply app_nil_r).
  induction f as [|[c|n a k] f IH]; [reflexivity|exact (IH H)|discriminate].
Qed.

(** what contains a "<" *)
Lemma show_markup p f : existsb (N.eqb 60) (show p f) = has_markup f.
Proof.
  unfold show, show_forest, has_markup. induction f as [|x f IH]; [reflexivity|]. cbn [flat_map existsb].
  rewrite existsb_app, IH. f_equal. destruct x as [c|n a k].
  - cbn [show_node is_text negb]. unfold substitute. cbn [flat_map]. rewrite app_nil_r.
    destruct (entry c lxml_table) as [e|] eqn:E.
    + apply entry_in in E. cbn in E. repeat (destruct E as [E|E]; [injection E as <- <-; reflexivity|]). destruct E.
    + apply entry_none in E. cbn [existsb]. rewrite orb_false_r. destruct (N.eqb_spec 60 c) as [<-|N]; [|reflexivity].
      exfalso. apply E. right. left. reflexivity.
  - reflexivity.
Qed.
Definition lt_in (v : str) : bool := existsb (N.eqb 60) v.

Section Discharge.
Variables (p u : str) (M : nsmap) (strip_ : str -> str).
Hypothesis p_ok : plain_name p = true.
Hypothesis p_xml : p <> "xml".
Hypothesis u_xhtml : contains xhtml_uri u = true.
Hypothesis M_default : ~ In (None, u) M.
Hypothesis HS : strips p strip_.

Lemma p_xml' : str_eqb p "xml" = false.
Proof. destruct (str_eqb p "xml") eqn:E; [|reflexivity]. apply str_eqb_eq in E. congruence. Qed.
Lemma el_node f : el "THE-VALUE" [] (fforest p u f) M = El None "THE-VALUE" [] M [] (map (xnodes (Some (Some p, u)) M) f).
Proof. unfold el. rewrite fforest_n. reflexivity. Qed.
Lemma namespaced_ok f : forest_ok f -> (has_markup f = true -> hd_error M = Some (Some p, u)) -> M <> [] ->
  stringify_namespaced_children (el "THE-VALUE" [] (fforest p u f) M) None = Ok (show p f).
Proof.
  intros HF HM HN. rewrite el_node. unfold stringify_namespaced_children. cbn [node_nsmap kids_of]. rewrite extend_nil.
  destruct M as [|[k w] M'] eqn:EM; [congruence|]. destruct (has_markup f) eqn:E.
  - specialize (HM eq_refl). cbn [hd_error] in HM. injection HM as -> ->. rewrite <- EM.
    apply stringify_ns_forest. unfold no_default. rewrite EM. exact M_default.
  - apply stringify_ns_text, E.
Qed.
Lemma DX_xhtml v : xhtml_default M p u v -> exists f, good p u f /\ f_str f = v /\ f_use f = lt_in v
  /\ forall m, m = M -> stringify_namespaced_children (el "THE-VALUE" [] f m) None = Ok v.
Proof.
  intros [(f & HF & -> & HM & _) HN]. exists (fforest p u f).
  split; [apply fforest_good; [exact p_ok|apply p_xml'|exact u_xhtml|exact HF]|]. split; [apply fforest_str|].
  split; [rewrite fforest_use; symmetry; apply show_markup|]. intros m ->. apply namespaced_ok; assumption.
Qed.
Lemma VX_xhtml v : xhtml_value M p u v -> exists f, good p u f /\ f_str f = v /\ f_use f = lt_in v
  /\ forall m, m = M -> xhtml_pair (el "THE-VALUE" [] f m) = Ok (v, strip_ v).
Proof.
  intros (f & HF & -> & HM & HE). exists (fforest p u f).
  split; [apply fforest_good; [exact p_ok|apply p_xml'|exact u_xhtml|exact HF]|]. split; [apply fforest_str|].
  split; [rewrite fforest_use; symmetry; apply show_markup|]. intros m ->. rewrite HS by exact HF. unfold xhtml_pair.
  assert (EN : node_nsmap (el "THE-VALUE" [] (fforest p u f) M) = M) by (rewrite el_node; cbn [node_nsmap]; apply extend_nil).
  rewrite EN. destruct M as [|d M'] eqn:EM.
  - assert (HT : has_markup f = false) by (destruct (has_markup f); [specialize (HM eq_refl); discriminate|reflexivity]).
    rewrite <- EM, el_node, EM. rewrite text_doubled by exact HT. rewrite text_show by exact HT. rewrite HE by reflexivity.
    assert (E : map (xnodes (Some (Some p, u)) []) f = map (xnodes None []) f).
    { clear - HT. induction f as [|[c|n a k] f IH]; [reflexivity| |discriminate]. cbn [map]. rewrite IH by exact HT. reflexivity. }
    rewrite E, stringify_children_x, text_doubled by exact HT. reflexivity.
  - rewrite <- EM in *. rewrite namespaced_ok; [|exact HF|exact HM|rewrite EM; discriminate]. cbn [bind].
    rewrite el_node, convert_x. reflexivity.
Qed.
End Discharge.
