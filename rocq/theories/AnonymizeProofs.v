(** AnonymizeProofs.v -- the anonymized tree can be written and read again *)
From Coq Require Import Permutation.
From Verif Require Import Base Xml Utf8 Lxml Py LxmlStr Parser Serialise Anonymize SpecXml SpecFormat XmlProofs Utf8Proofs
  GrammarProofs DictProofs ParserProofs SerialiseProofs SerialiseDoc FormatProofs.

(** ** Attributes with other values *)
Definition same_names (a a' : list attr) : Prop := Forall2 (fun x y => a_ns x = a_ns y /\ a_local x = a_local y) a a'.
Lemma same_names_keys a a' : same_names a a' -> map a_key a = map a_key a'.
Proof. induction 1 as [|x y a a' [H1 H2] _ IH]; [reflexivity|]. cbn [map]. rewrite IH. unfold a_key. rewrite H1, H2. reflexivity. Qed.
Lemma same_names_raw a a' : same_names a a' -> map fst (map raw_attr a) = map fst (map raw_attr a').
Proof. induction 1 as [|x y a a' [H1 H2] _ IH]; [reflexivity|]. cbn [map raw_attr fst]. rewrite IH, H1, H2. reflexivity. Qed.
Lemma decl_def p : decl_of (def_name p) = Some p.
Proof. apply decl_of_name. reflexivity. Qed.
Lemma decls_app l l' : decls (l ++ l') = decls l ++ decls l'.
Proof. unfold decls. apply flat_map_app. Qed.
Lemma decls_defs defs : decls (map raw_def defs) = defs.
Proof.
  induction defs as [|[p u] defs IH]; [reflexivity|]. cbn [map]. unfold decls in *. cbn [flat_map]. unfold raw_def at 1 2. cbn [fst snd].
  rewrite decl_def, IH. reflexivity.
Qed.
Lemma decls_attrs a : decls (map raw_attr a) = [] -> forall x, In x a -> decl_of (fst (raw_attr x)) = None.
Proof.
  induction a as [|y a IH]; intros H x HX; [destruct HX|]. unfold decls in *. cbn [map flat_map] in H. apply app_eq_nil in H. destruct H as [H1 H2].
  destruct HX as [<-|HX]; [destruct (decl_of (fst (raw_attr y))); [discriminate|reflexivity]|apply IH; assumption].
Qed.
Lemma decls_none a : (forall x, In x a -> decl_of (fst (raw_attr x)) = None) -> decls (map raw_attr a) = [].
Proof.
  induction a as [|y a IH]; intros H; [reflexivity|]. unfold decls in *. cbn [map flat_map]. rewrite (H y) by (left; reflexivity). apply IH.
  intros x HX. apply H. right. exact HX.
Qed.
Lemma map_opt_defs env defs : map_opt (resolve_attr env) (map raw_def defs) = Some (map (fun _ => []) defs).
Proof.
  induction defs as [|d defs IH]; [reflexivity|]. cbn [map]. unfold map_opt in *. unfold resolve_attr at 1. cbn [raw_def fst].
  rewrite decl_def, IH. reflexivity.
Qed.
Lemma concat_nils {A B} (l : list A) (r : list (list B)) : concat (map (fun _ => []) l ++ r) = concat r.
Proof. induction l; [reflexivity|assumption]. Qed.
Lemma map_opt_attrs env a : forall aa, (forall x, In x a -> decl_of (fst (raw_attr x)) = None) ->
  map_opt (resolve_attr env) (map raw_attr a) = Some aa -> concat aa = a ->
  forall a', same_names a a' -> map_opt (resolve_attr env) (map raw_attr a') = Some (map (fun x => [x]) a').
Proof.
  induction a as [|x a IH]; intros aa HD H HC a' HS; inversion HS as [|? y ? b' [E1 E2] HS']; subst; [reflexivity|].
  change (map_opt (resolve_attr env) (map raw_attr (x :: a)))
    with (match resolve_attr env (raw_attr x) with Some z => match map_opt (resolve_attr env) (map raw_attr a) with Some zs => Some (z :: zs) | None => None end | None => None end) in H.
  change (map_opt (resolve_attr env) (map raw_attr (y :: b')))
    with (match resolve_attr env (raw_attr y) with Some z => match map_opt (resolve_attr env) (map raw_attr b') with Some zs => Some (z :: zs) | None => None end | None => None end).
  destruct (resolve_attr env (raw_attr x)) as [z|] eqn:EX; [|discriminate]. destruct (map_opt (resolve_attr env) (map raw_attr a)) as [zs|] eqn:EA; [|discriminate].
  injection H as <-. unfold resolve_attr in EX. unfold resolve_attr at 1. pose proof (HD x (or_introl eq_refl)) as DX.
  assert (EF : fst (raw_attr y) = fst (raw_attr x)) by (cbn [raw_attr fst]; rewrite E1, E2; reflexivity).
  rewrite EF, DX in *. destruct (qname (fst (raw_attr x))) as [[p l]|]; [|discriminate]. destruct (attr_ns env p) as [n|]; [|discriminate].
  injection EX as <-. cbn [concat app] in HC. injection HC as HX HC.
  rewrite (IH zs (fun x HX => HD x (or_intror HX)) eq_refl HC b' HS'). cbn [map]. f_equal. f_equal. f_equal.
  destruct x as [xn xl xv], y as [yn yl yv]. cbn [a_ns a_local raw_attr snd a_val] in *. injection HX as -> ->. congruence.
Qed.
Lemma concat_singles {A} (l : list A) : concat (map (fun x => [x]) l) = l.
Proof. induction l as [|x l IH]; [reflexivity|]. cbn. rewrite IH. reflexivity. Qed.
Lemma head_resolves_values env ns l defs a a' : same_names a a' -> head_resolves env ns l defs a -> head_resolves env ns l defs a'.
Proof.
  intros HS. unfold head_resolves, raw_attrs. cbn [resolve]. rewrite !map_app, <- (same_names_raw _ _ HS).
  destruct (nodupb _) eqn:ND; [|discriminate]. cbn [negb]. destruct (forallb decl_allowed (map raw_def defs ++ _)) eqn:AL; [|discriminate]. cbn [negb]. destruct (qname _) as [[p l0]|] eqn:EQ; [|discriminate].
  destruct (elem_ns _ p) as [n0|] eqn:EN; [|discriminate]. destruct (map_opt _ _) as [aa|] eqn:EA; [|discriminate].
  destruct (nodupb (map a_key (concat aa))) eqn:NK; [|discriminate]. cbn [negb]. change (map_opt (resolve _) []) with (Some (@nil node)). cbv iota.
  intros H. assert (H1 : n0 = ns) by congruence. assert (H2 : l0 = l) by congruence.
  assert (H3 : decls (map raw_def defs ++ map raw_attr a) = defs) by congruence. assert (H4 : concat aa = a) by congruence. clear H. subst n0 l0.
  rewrite decls_app, decls_defs in H3.
  assert (D : decls (map raw_attr a) = []) by (apply (app_inv_head defs); rewrite app_nil_r; exact H3).
  pose proof (decls_attrs _ D) as DA.
  assert (D' : decls (map raw_attr a') = []).
  { apply decls_none. intros y HY. clear -HS DA HY. induction HS as [|x z a a' [E1 E2] _ IH]; [destruct HY|]. destruct HY as [<-|HY].
    - replace (fst (raw_attr z)) with (fst (raw_attr x)); [apply DA; left; reflexivity|]. cbn [raw_attr fst]. rewrite E1, E2. reflexivity.
    - apply IH; [intros w HW; apply DA; right; exact HW|exact HY]. }
  assert (AL' : forallb decl_allowed (map raw_def defs ++ map raw_attr a') = true).
  { rewrite forallb_app in AL |- *. apply andb_prop in AL. destruct AL as [-> _]. apply forallb_forall. intros kv HK. apply in_map_iff in HK.
    destruct HK as (y & <- & HK). unfold decl_allowed. rewrite (decls_attrs _ D' y HK). reflexivity. }
  rewrite AL'. cbn [negb].
  rewrite decls_app, decls_defs, D', app_nil_r. rewrite decls_app, decls_defs, D, app_nil_r in EN, EA. rewrite EN.
  rewrite map_opt_app, map_opt_defs in EA |- *. destruct (map_opt (resolve_attr _) (map raw_attr a)) as [ab|] eqn:EB; [|discriminate].
  injection EA as <-. rewrite concat_nils in H4, NK.
  rewrite (map_opt_attrs _ a ab DA EB H4 a' HS), concat_nils, concat_singles, <- (same_names_keys _ _ HS).
  rewrite H4 in NK. rewrite NK. reflexivity.
Qed.

(** ** The changes *)
Definition good (env : nsmap) (n : node) : Prop := writable false n /\ resolvable env n.
Lemma good_el env ns l d i a ks : good env (El ns l d i a ks) <->
  i = env /\ fit false (qualified (prefix_of ns) l) /\ Forall (fit_def false) d /\ Forall (fit_attr false) a /\ head_resolves env ns l d a
  /\ Forall (good (extend d env)) ks.
Proof.
  unfold good. split.
  - intros [H1 H2]. inversion H1 as [| | |? ? ? ? ? ? A1 A2 A3 A4]; inversion H2 as [| | |? ? ? ? ? ? B1 B2]; subst.
    split; [reflexivity|]. split; [exact A1|]. split; [exact A2|]. split; [exact A3|]. split; [exact B1|].
    rewrite Forall_forall in A4, B2 |- *. intros k HK. split; auto.
  - intros (-> & H1 & H2 & H3 & H4 & H5). split; constructor; auto; rewrite Forall_forall in H5 |- *; intros k HK; apply (H5 k HK).
Qed.
Definition keeps (act : node -> node -> result node) : Prop :=
  forall env o n n', good env n -> act o n = Ok n' -> good env n' /\ match n, n' with El _ _ _ _ _ _, El _ _ _ _ _ _ => True | El _ _ _ _ _ _, _ => False | _, _ => n = n' end.
Lemma update_good sel act : keeps act ->
  forall n par env n', good env n -> update_each sel act par n = Ok n' -> good env n'.
Proof.
  intros HA. induction n as [c|s|s|ns l d i a ks IH] using node_ind'; intros par env n' HG H; try (injection H as <-; exact HG).
  cbn [update_each] in H. destruct (mapM (update_each sel act (Some (El ns l d i a ks))) ks) as [ks'|] eqn:EM; [|discriminate].
  cbn [bind with_kids] in H. rewrite good_el in HG. destruct HG as (E & G1 & G2 & G3 & G4 & G5).
  assert (GN : good env (El ns l d i a ks')).
  { rewrite good_el. repeat split; auto; try apply G1. clear -IH EM G5. revert ks' EM.
    generalize (Some (El ns l d i a ks)). intros par. induction ks as [|k ks IHK]; intros ks' EM; cbn [mapM] in EM.
    - injection EM as <-. constructor.
    - inversion IH; inversion G5; subst. destruct (update_each sel act par k) as [k'|] eqn:EK; [|discriminate]. cbn [bind] in EM.
      destruct (mapM (update_each sel act par) ks) as [ks1|]; [|discriminate]. cbn [bind] in EM. injection EM as <-.
      constructor; eauto. }
  destruct (sel par (El ns l d i a ks)); [|injection H as <-; exact GN]. apply (HA _ _ _ _ GN H).
Qed.
Lemma update_element sel act n par n' : keeps act -> update_each sel act par n = Ok n' ->
  forall env, good env n -> match n with El _ _ _ _ _ _ => match n' with El _ _ _ _ _ _ => True | _ => False end | _ => n' = n end.
Proof.
  intros HA H env HG. destruct n as [c|ns l d i a ks|s|s]; try (injection H as <-; reflexivity).
  cbn [update_each] in H. destruct (mapM (update_each sel act (Some (El ns l d i a ks))) ks) as [ks'|] eqn:EM; [|discriminate].
  cbn [bind with_kids] in H. destruct (sel par (El ns l d i a ks)); [|injection H as <-; exact I].
  assert (GN : good env (El ns l d i a ks')).
  { rewrite good_el in HG |- *. destruct HG as (E & G1 & G2 & G3 & G4 & G5). repeat split; auto; try apply G1.
    clear -EM G5 HA. revert ks' EM. generalize (Some (El ns l d i a ks)). intros par.
    induction ks as [|k ks IHK]; intros ks' EM; cbn [mapM] in EM; [injection EM as <-; constructor|].
    inversion G5; subst. destruct (update_each sel act par k) as [k'|] eqn:EK; [|discriminate]. cbn [bind] in EM.
    destruct (mapM (update_each sel act par) ks) as [ks1|]; [|discriminate]. cbn [bind] in EM. injection EM as <-.
    constructor; [|apply IHK; auto]. apply (update_good sel act HA k par _ _ H1 EK). }
  destruct (HA _ _ _ _ GN H) as [_ G]. exact G.
Qed.
(** the replacement text *)
Lemma anonymized_text sha s t : anonymize_string sha s = Ok t -> t <> [] /\ low t /\ Forall char t.
Proof.
  unfold anonymize_string. destruct (utf8_encode s) as [b|]; [|discriminate]. intros H. injection H as <-. split; [discriminate|].
  assert (G : forall P : N -> Prop, (forall c, (32 <= c < 128)%N -> P c) ->
    Forall P ("...Anonymized-" ++ str_of_N (sha b mod 10000000000)%N ++ "...")).
  { intros P HP. apply Forall_app. split; [|apply Forall_app; split].
    - apply Forall_forall. intros c HC. apply HP. repeat (destruct HC as [<-|HC]; [lia|]). destruct HC.
    - apply Forall_forall. intros c HC. apply HP. destruct (number_digit _ _ _ _ _ (str_of_N_number _) HC) as (d & HD). unfold decimal in HD. lia.
    - apply Forall_forall. intros c HC. apply HP. repeat (destruct HC as [<-|HC]; [lia|]). destruct HC. }
  split; apply G; [lia|]. intros c HC. exists 0x20%N, 0xD7FF%N. split; [cbn [In]; tauto|lia].
Qed.
Lemma good_text env t : Forall char t -> Forall (good env) (map Chr t).
Proof. induction 1; constructor; auto. split; constructor; assumption. Qed.
Lemma in_after_lead x ks : In x (after_lead ks) -> In x ks.
Proof. induction ks as [|[c|? ? ? ? ? ?|s|s] ks IH]; cbn [after_lead]; auto. intros H. right. apply IH, H. Qed.
Lemma keeps_text sha : keeps (act_text sha).
Proof.
  intros env o n n' HG H. unfold act_text in H. destruct (text n) as [s|] eqn:ET; [|discriminate].
  destruct (anonymize_string sha s) as [t|] eqn:EA; [|discriminate]. cbn [bind] in H. injection H as <-.
  destruct n as [c|ns l d i a ks|s0|s0]; try (split; [exact HG|reflexivity]). cbn [set_text with_kids kids_of]. split; [|exact I].
  rewrite good_el in HG |- *. destruct HG as (E & G1 & G2 & G3 & G4 & G5). split; [exact E|]. split; [exact G1|]. split; [exact G2|].
  split; [exact G3|]. split; [exact G4|]. apply Forall_app. split; [apply good_text, (anonymized_text _ _ _ EA)|].
  rewrite Forall_forall in G5 |- *. intros k HK. apply G5, in_after_lead, HK.
Qed.
Lemma replace_names k v a : same_names a (replace_attr k v a).
Proof.
  assert (R : forall a, same_names a a) by (induction a0; constructor; auto).
  induction a as [|x a IH]; cbn [replace_attr]; [constructor|]. destruct (str_eqb k (a_key x)); constructor; auto; apply R.
Qed.
Lemma replace_fit k v a : Forall char v -> Forall (fit_attr false) a -> Forall (fit_attr false) (replace_attr k v a).
Proof.
  intros HV. induction 1 as [|x a [H1 H2] H IH]; cbn [replace_attr]; [constructor|]. destruct (str_eqb k (a_key x)); constructor; auto; split; auto.
Qed.
Lemma keeps_attr sha k : keeps (act_attr sha k).
Proof.
  intros env o n n' HG H. unfold act_attr in H. destruct (attr_opt k n) as [s|] eqn:ET.
  2: { injection H as <-. split; [exact HG|destruct n; auto]. }
  destruct (anonymize_string sha s) as [t|] eqn:EA; [|discriminate]. cbn [bind] in H. injection H as <-.
  destruct n as [c|ns l d i a ks|s0|s0]; try (split; [exact HG|reflexivity]). cbn [set_attr]. split; [|exact I].
  rewrite good_el in HG |- *. destruct HG as (E & G1 & G2 & G3 & G4 & G5). split; [exact E|]. split; [exact G1|]. split; [exact G2|].
  split; [apply replace_fit; [apply (anonymized_text _ _ _ EA)|exact G3]|]. split; [|exact G5].
  apply (head_resolves_values _ _ _ _ a); [apply replace_names|exact G4].
Qed.
Lemma keeps_xhtml sha : keeps (act_xhtml sha).
Proof.
  intros env o n n' HG H. unfold act_xhtml in H. destruct (stringify_namespaced_children o None) as [s|]; [|discriminate]. cbn [bind] in H.
  destruct (anonymize_string sha s) as [t|] eqn:EA; [|discriminate]. cbn [bind] in H. injection H as <-.
  destruct n as [c|ns l d i a ks|s0|s0]; try (split; [exact HG|reflexivity]). cbn [with_kids]. split; [|exact I].
  rewrite good_el in HG |- *. destruct HG as (E & G1 & G2 & G3 & G4 & G5). split; [exact E|]. split; [exact G1|]. split; [exact G2|].
  split; [exact G3|]. split; [exact G4|]. apply good_text, (anonymized_text _ _ _ EA).
Qed.
Definition is_el_ (n : node) : Prop := match n with El _ _ _ _ _ _ => True | _ => False end.
Lemma update_both sel act par n n' env : keeps act -> good env n /\ is_el_ n -> update_each sel act par n = Ok n' -> good env n' /\ is_el_ n'.
Proof.
  intros HA [HG HE] H. split; [apply (update_good sel act HA n par env n' HG H)|].
  pose proof (update_element sel act n par n' HA H env HG) as G. destruct n; try contradiction HE. exact G.
Qed.
Lemma anonymized_good sha root r env : good env root /\ is_el_ root -> anonymize_tree sha root = Ok r -> good env r /\ is_el_ r.
Proof.
  intros G. unfold anonymize_tree. destruct (ns_get (node_nsmap root) None) as [uri|]; [|discriminate].
  destruct (update_each _ _ _ root) as [r1|] eqn:E1; [|discriminate]. cbn [bind]. apply update_both with (2 := G) in E1; [|apply keeps_text].
  destruct (update_each _ _ _ r1) as [r2|] eqn:E2; [|discriminate]. cbn [bind]. apply update_both with (2 := E1) in E2; [|apply keeps_text].
  destruct (update_each _ _ _ r2) as [r3|] eqn:E3; [|discriminate]. cbn [bind]. apply update_both with (2 := E2) in E3; [|apply keeps_attr].
  destruct (update_each _ _ _ r3) as [r4|] eqn:E4; [|discriminate]. cbn [bind]. apply update_both with (2 := E3) in E4; [|apply keeps_attr].
  intros E5. apply update_both with (2 := E4) in E5; [exact E5|apply keeps_xhtml].
Qed.
