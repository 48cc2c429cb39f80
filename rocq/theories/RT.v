(** RT.v -- round trips: tools shared by all objects *)
From Verif Require Import Base Xml Lxml Py LxmlStr Models AttrDef XmlProofs DictProofs
  SpecEscape EscapeProofs SpecPrint Frag.

Lemma Ok_inj {A} (x y : A) : Ok x = Ok y -> x = y.
Proof. congruence. Qed.

(** ** Texts *)
Lemma raw_aval s : attr_raw s -> aval s s.
Proof.
  intros H. apply aval_raw. rewrite forallb_forall. intros c Hc. unfold attr_raw, xml_text_without in H.
  rewrite Forall_forall in H. destruct (H c Hc) as [H1 H2]. apply plain_attr_of; [exact H1|]. cbn in *. tauto.
Qed.
Lemma escaped_aval s : attr_escaped s -> aval (lxml_escape_for_html s) s.
Proof. apply lxml_aval. Qed.
Lemma attr_html_aval s : attr_html s -> aval (html_escape s) s.
Proof.
  intros H. apply html_aval. unfold attr_html, xml_text_without in *. rewrite Forall_forall in *. intros c Hc.
  destruct (H c Hc) as [H1 H2]. split; [exact H1|]. cbn in *. tauto.
Qed.
Lemma open_text_of c : is_xml_char c = true -> ~ In c [13; 60; 38]%N -> text_open c = true.
Proof.
  intros X N. unfold text_open. rewrite X. cbn in N.
  destruct (N.eqb_spec c 60); [exfalso; apply N; subst; tauto|]. destruct (N.eqb_spec c 38); [exfalso; apply N; subst; tauto|].
  destruct (N.eqb_spec c 13); [exfalso; apply N; subst; tauto|]. reflexivity.
Qed.
Lemma text_raw_reads s : text_raw s -> reads0 s (map XChar s).
Proof.
  intros [H HA]. replace s with (flat_map (fun c => [c]) s) at 1 by (clear; induction s; cbn; congruence).
  apply reads0_flat_map; [|exact HA]. intros c Hc. left. split; [reflexivity|]. unfold xml_text_without in H.
  rewrite Forall_forall in H. destruct (H c Hc) as [H1 H2]. apply open_text_of; [exact H1|]. cbn in *. tauto.
Qed.
Lemma text_title_reads s : text_title s -> reads0 (lxml_escape_title s) (map XChar s).
Proof.
  intros [H HA]. unfold lxml_escape_title, replace_char. apply reads0_flat_map; [|exact HA]. intros c Hc. unfold xml_text_without in H.
  rewrite Forall_forall in H. destruct (H c Hc) as [H1 H2]. destruct (N.eqb_spec c 38) as [->|N].
  - right. exists "amp". repeat split.
  - left. split; [reflexivity|]. apply open_text_of; [exact H1|]. cbn in *. intuition congruence.
Qed.

(** ** Attribute lists *)
Definition oa (n : str) (esc : str -> str) (v : option str) : list pattr :=
  match v with Some s => [PA n (esc s) s] | None => [] end.
Definition ta (n : str) (v : option str) : list pattr :=
  match v with Some (c :: s) => [PA n (c :: s) (c :: s)] | _ => [] end.
Definition ob (n : str) (v : option bool) : list pattr :=
  match v with Some b => [PA n (bool_str b) (bool_str b)] | None => [] end.
Lemma render_app a b : render_attrs (a ++ b) = render_attrs a ++ render_attrs b.
Proof. apply flat_map_app. Qed.
Lemma render_one k r v : render_attrs [PA k r v] = " " ++ k ++ "=""" ++ r ++ """".
Proof. unfold render_attrs, render_attr. cbn [flat_map pa_key pa_raw]. apply app_nil_r. Qed.
Lemma render_oa n esc v : render_attrs (oa n esc v) = opt_attr n esc v.
Proof. destruct v; [apply render_one|reflexivity]. Qed.
Lemma render_ta n v : render_attrs (ta n v) = truthy_attr n v.
Proof. destruct v as [[|c s]|]; [reflexivity|apply render_one|reflexivity]. Qed.
Lemma render_ob n v : render_attrs (ob n v) = opt_bool_attr n v.
Proof. destruct v; [apply render_one|reflexivity]. Qed.
Definition avals (l : list pattr) : Prop := Forall (fun a => aval (pa_raw a) (pa_val a)) l.
Lemma avals_nil : avals []. Proof. constructor. Qed.
Lemma avals_app a b : avals a -> avals b -> avals (a ++ b).
Proof. intros H1 H2. apply Forall_app. split; assumption. Qed.
Lemma avals_one k r v : aval r v -> avals [PA k r v].
Proof. intros H. constructor; [exact H|constructor]. Qed.
Lemma avals_oa n esc v (P : str -> Prop) : (forall s, P s -> aval (esc s) s) -> when P v -> avals (oa n esc v).
Proof. intros H W. destruct v; [apply avals_one, H, W|apply avals_nil]. Qed.
Lemma avals_ta n v : when attr_raw v -> avals (ta n v).
Proof. intros W. destruct v as [[|c s]|]; [apply avals_nil| |apply avals_nil]. apply avals_one, raw_aval, W. Qed.
Lemma avals_ob n v : avals (ob n v).
Proof. destruct v as [[]|]; [apply avals_one, aval_raw; reflexivity..|apply avals_nil]. Qed.

(** Finite checks on the keys: destruct what is optional and compute. *)
Ltac split_opts :=
  repeat match goal with
  | |- context [oa _ _ ?v] => destruct v; cbn [oa]
  | |- context [ta _ ?v] => destruct v as [[|? ?]|]; cbn [ta]
  | |- context [ob _ ?v] => destruct v as [[]|]; cbn [ob]
  end.
Ltac keys := split_opts; reflexivity.
Ltac avals_tac :=
  repeat first
    [ apply avals_nil
    | apply avals_app
    | apply avals_ob
    | apply avals_ta; assumption
    | eapply avals_oa; [|eassumption]; first [exact raw_aval|exact escaped_aval|exact attr_html_aval]
    | apply avals_one; first [apply raw_aval; assumption|apply escaped_aval; assumption|apply attr_html_aval; assumption] ].
Ltac okattrs_tac := split; [keys|avals_tac].
Ltac renders := repeat rewrite ?render_app, ?render_oa, ?render_ta, ?render_ob, ?render_one.
Ltac strs := repeat rewrite <- app_assoc; reflexivity.

Lemma attr_opt_el k n as_ kids m d ns :
  attr_opt k (El ns n d m (map pnode as_) kids) = assoc k (map attr_of as_).
Proof. unfold attr_opt, attrib. rewrite map_map. reflexivity. Qed.

(** ** Text elements *)
Lemma text_el n as_ raw s m : text (el n as_ (ftxt raw s) m) = opt_text s.
Proof. unfold el, text. cbn [ftxt f_n]. rewrite lead_chr. reflexivity. Qed.
Lemma text_el_ne n as_ raw s m : s <> [] -> text (el n as_ (ftxt raw s) m) = Some s.
Proof. intros H. rewrite text_el. destruct s; [congruence|reflexivity]. Qed.

(** ** Children *)
Lemma children_el n as_ body m : children (el n as_ body m) = elements (f_n body m).
Proof. reflexivity. Qed.
Lemma tag_el n as_ body m : tag (el n as_ body m) = Some n.
Proof. reflexivity. Qed.
Lemma elements_el n as_ body m : elements [el n as_ body m] = [el n as_ body m].
Proof. reflexivity. Qed.
Lemma elements_nil : elements [] = []. Proof. reflexivity. Qed.
Lemma elements_concat l : elements (concat l) = concat (map elements l).
Proof. induction l as [|x l IH]; [reflexivity|]. cbn [concat map]. rewrite elements_app, IH. reflexivity. Qed.

(** ** One object *)
Section RT.
Variables (p u : str) (ctx : nsmap -> Prop).
Definition rt {X} (unp : X -> result str) (parse : node -> result X) (erase normal : X -> X)
  (use : X -> bool) (x : X) : Prop :=
  exists f, good p u f /\ unp x = Ok (f_str f) /\ f_use f = use x /\
    forall m, ctx m -> exists n x',
      elements (f_n f m) = [n] /\ parse n = Ok x' /\ erase x' = normal x /\ unp x' = unp x.
(** many objects *)
Definition rts {X} (unp : X -> result str) (parse : node -> result X) (erase normal : X -> X)
  (use : X -> bool) (xs : list X) : Prop :=
  exists f, good p u f /\ (let! parts := mapM unp xs in Ok (concat parts)) = Ok (f_str f)
    /\ f_use f = existsb use xs /\
    forall m, ctx m -> exists xs',
      mapM parse (elements (f_n f m)) = Ok xs' /\ map erase xs' = map normal xs
      /\ mapM unp xs' = mapM unp xs.
Lemma rt_list {X} (unp : X -> result str) parse erase normal use xs :
  Forall (rt unp parse erase normal use) xs -> rts unp parse erase normal use xs.
Proof.
  induction 1 as [|x xs (f & F1 & F2 & F3 & F4) _ (g & G1 & G2 & G3 & G4)].
  - exists fnil. split; [apply good_nil|]. split; [reflexivity|]. split; [reflexivity|]. intros m _. exists []. repeat split.
  - exists (fapp f g). split; [apply good_app; assumption|]. split; [|split].
    + cbn [mapM]. fold (mapM unp). rewrite F2. cbn [bind].
      destruct (mapM unp xs) as [parts|e]; [|discriminate]. cbn [bind] in *. apply Ok_inj in G2.
      cbn [fapp f_str concat]. rewrite G2. reflexivity.
    + cbn. rewrite F3, G3. reflexivity.
    + intros m Hm. destruct (F4 m Hm) as (n & x' & A1 & A2 & A3 & A4). destruct (G4 m Hm) as (xs' & B1 & B2 & B3).
      exists (x' :: xs'). cbn [fapp f_n]. rewrite elements_app, A1. cbn [app mapM map].
      fold (mapM parse) (mapM unp). rewrite A2. cbn [bind]. rewrite B1. cbn [bind]. split; [reflexivity|]. split; [congruence|].
      rewrite A4, B3. reflexivity.
Qed.
End RT.

(** ** Blocks printed in a remembered order *)
Section Blocks.
Variables (p u : str).
(** [F t] is what is printed for tag [t]: nothing, or one element of that tag *)
Variable F : option str -> frag.
Variable tags : list (option str).
Definition block_ok (m : nsmap) : Prop :=
  forall t, In t tags -> elements (f_n (F t) m) = [] /\ f_str (F t) = []
    \/ exists n, elements (f_n (F t) m) = [n] /\ tag n = t.
Definition fblocks : frag := fcat (map F tags).
Lemma good_blocks : (forall t, In t tags -> good p u (F t)) -> good p u fblocks.
Proof. intros H. apply good_cat. apply Forall_forall. intros f Hf. apply in_map_iff in Hf. destruct Hf as (t & <- & Ht). auto. Qed.
Lemma blocks_str : f_str fblocks = flat_map (fun t => f_str (F t)) tags.
Proof. unfold fblocks. rewrite fcat_str, map_map. apply eq_sym, flat_map_concat_map. Qed.
Lemma blocks_use : f_use fblocks = existsb (fun t => f_use (F t)) tags.
Proof. unfold fblocks. rewrite fcat_use. induction tags as [|t l IH]; [reflexivity|]. cbn. rewrite IH. reflexivity. Qed.
Lemma blocks_elements m : elements (f_n fblocks m) = flat_map (fun t => elements (f_n (F t) m)) tags.
Proof.
  unfold fblocks. rewrite fcat_n, elements_concat, !map_map. apply eq_sym, flat_map_concat_map.
Qed.
Lemma find_blocks m t : block_ok m ->
  find_list t (elements (f_n fblocks m))
  = if ostr_mem (Some t) tags then hd_error (elements (f_n (F (Some t)) m)) else None.
Proof.
  intros H. rewrite blocks_elements. unfold block_ok in H. induction tags as [|t0 l IH]; [reflexivity|].
  cbn [flat_map ostr_mem existsb].
  assert (HL : forall t, In t l -> elements (f_n (F t) m) = [] /\ f_str (F t) = []
    \/ exists n, elements (f_n (F t) m) = [n] /\ tag n = t) by (intros; apply H; right; assumption).
  specialize (IH HL). fold (ostr_mem (Some t) l).
  destruct (H t0 (or_introl eq_refl)) as [[E _]|(n & E & T)].
  - rewrite E. cbn [app]. rewrite IH. destruct (ostr_eqb_spec (Some t) t0) as [<-|N]; [|reflexivity].
    cbn [orb]. rewrite E. destruct (ostr_mem (Some t) l); reflexivity.
  - rewrite E. cbn [app find_list find]. unfold tag_is at 1. rewrite T.
    destruct (ostr_eqb_spec (Some t) t0) as [<-|N].
    + rewrite str_eqb_refl. cbn [orb]. rewrite E. reflexivity.
    + cbn [orb]. destruct t0 as [t0|]; [|exact IH]. destruct (str_eqb_spec t0 t); [congruence|]. exact IH.
Qed.
Lemma find_blocks_last m t : block_ok m ->
  find_list t (rev (elements (f_n fblocks m)))
  = if ostr_mem (Some t) tags then hd_error (elements (f_n (F (Some t)) m)) else None.
Proof.
  intros H. rewrite blocks_elements. unfold block_ok in H. unfold find_list.
  assert (G : forall l, (forall x, In x l -> In x tags) -> find (tag_is t) (rev (flat_map (fun t => elements (f_n (F t) m)) l))
    = if ostr_mem (Some t) l then hd_error (elements (f_n (F (Some t)) m)) else None).
  { induction l as [|t0 l IH]; intros HI; [reflexivity|]. cbn [flat_map ostr_mem existsb]. rewrite rev_app_distr.
    assert (FA : forall a b, find (tag_is t) (a ++ b) = match find (tag_is t) a with Some x => Some x | None => find (tag_is t) b end).
    { clear. induction a as [|x a IH]; intros b; [reflexivity|]. cbn. destruct (tag_is t x); [reflexivity|apply IH]. }
    rewrite FA, IH by (intros; apply HI; right; assumption). fold (ostr_mem (Some t) l).
    destruct (ostr_mem (Some t) l) eqn:EM.
    - rewrite orb_true_r. destruct (hd_error (elements (f_n (F (Some t)) m))) eqn:EH; [reflexivity|].
      destruct (H t0) as [[E _]|(n & E & T)]; [apply HI; left; reflexivity| |].
      + rewrite E. reflexivity.
      + rewrite E. cbn. unfold tag_is. rewrite T. destruct t0 as [t0|]; [|reflexivity]. destruct (str_eqb_spec t0 t) as [->|]; [|reflexivity].
        rewrite E in EH. discriminate.
    - rewrite orb_false_r. destruct (H t0) as [[E _]|(n & E & T)]; [apply HI; left; reflexivity| |].
      + rewrite E. cbn [rev find]. destruct (ostr_eqb_spec (Some t) t0) as [<-|]; [rewrite E; reflexivity|reflexivity].
      + rewrite E. cbn [rev app find]. unfold tag_is. rewrite T. destruct (ostr_eqb_spec (Some t) t0) as [<-|N].
        * rewrite str_eqb_refl, E. reflexivity.
        * destruct t0 as [t0|]; [|reflexivity]. destruct (str_eqb_spec t0 t); [congruence|reflexivity]. }
  apply G. auto.
Qed.
Lemma blocks_tags m t : block_ok m ->
  In t (map tag (elements (f_n fblocks m))) <-> In t tags /\ elements (f_n (F t) m) <> [].
Proof.
  intros H. rewrite blocks_elements, in_map_iff. split.
  - intros (n & <- & Hn). apply in_flat_map in Hn. destruct Hn as (t0 & Ht & Hn).
    destruct (H t0 Ht) as [[E _]|(n' & E & T)]; [rewrite E in Hn; destruct Hn|].
    rewrite E in Hn. destruct Hn as [->|[]]. rewrite T. split; [exact Ht|]. rewrite E. discriminate.
  - intros [Ht HE]. destruct (H t Ht) as [[E _]|(n & E & T)]; [contradiction|].
    exists n. split; [exact T|]. apply in_flat_map. exists t. split; [exact Ht|]. rewrite E. left. reflexivity.
Qed.
(** printing again, in the order in which the blocks were read *)
Lemma blocks_print (unp : option str -> result str) :
  (forall t, In t tags -> unp t = Ok (f_str (F t))) ->
  (let! parts := mapM unp tags in Ok (concat parts)) = Ok (f_str fblocks).
Proof.
  intros H. rewrite blocks_str. induction tags as [|t l IH]; [reflexivity|]. cbn [mapM]. fold (mapM unp).
  rewrite H by (left; reflexivity). cbn [bind]. assert (HL : forall t, In t l -> unp t = Ok (f_str (F t))) by (intros; apply H; right; assumption).
  specialize (IH HL). destruct (mapM unp l) as [parts|e]; [|discriminate]. cbn [bind flat_map concat] in *.
  apply Ok_inj in IH. rewrite IH. reflexivity.
Qed.
Lemma blocks_reprint (unp : option str -> result str) m : block_ok m ->
  (forall t, In t tags -> elements (f_n (F t) m) <> [] -> unp t = Ok (f_str (F t))) ->
  (let! parts := mapM unp (map tag (elements (f_n fblocks m))) in Ok (concat parts)) = Ok (f_str fblocks).
Proof.
  intros HB H. rewrite blocks_elements, blocks_str. unfold block_ok in HB. induction tags as [|t l IH]; [reflexivity|].
  assert (HL : forall t, In t l -> elements (f_n (F t) m) = [] /\ f_str (F t) = []
    \/ exists n, elements (f_n (F t) m) = [n] /\ tag n = t) by (intros; apply HB; right; assumption).
  specialize (IH HL (fun t Ht => H t (or_intror Ht))). cbn [flat_map]. rewrite map_app.
  destruct (HB t (or_introl eq_refl)) as [[E S]|(n & E & T)].
  - rewrite E, S. cbn [map app]. exact IH.
  - specialize (H t (or_introl eq_refl)). rewrite E in H |- *. cbn [map app mapM]. fold (mapM unp). rewrite T, H by discriminate.
    cbn [bind]. destruct (mapM unp _) as [parts|e] in IH |- *; [|discriminate]. cbn [bind concat] in *.
    apply Ok_inj in IH. rewrite IH. reflexivity.
Qed.
End Blocks.
