(** FormatProofs.v -- reformatting changes white space only *)
From Verif Require Import Base Xml Utf8 Lxml Py Parser Serialise SpecXml SpecFormat DictProofs XmlProofs
  ParserProofs GrammarProofs GrammarMachine GrammarInv GrammarStep GrammarDoc SerialiseProofs SerialiseDoc.

(** ** What can be written *)
Lemma low_app s t : low s -> low t -> low (s ++ t).
Proof. intros H1 H2. apply Forall_app. auto. Qed.
Lemma low_qualified ns l : ns_ascii ns -> ascii l -> low (qualified (prefix_of ns) l).
Proof.
  intros H1 H2. destruct ns as [[[p|] u]|]; cbn [prefix_of qualified fst]; [|exact H2..]. apply low_app; [exact H1|].
  apply low_app; [apply low_of; reflexivity|exact H2].
Qed.
Lemma portable_writable b n : sound n -> portable b n -> writable b n.
Proof.
  induction n as [c|s|s|ns l defs inh attrs kids IH] using node_ind'; intros HS HP; inversion HS; inversion HP; subst; constructor; try assumption.
  - intros E.
    rewrite pi_target_app; [match goal with H : b = true -> ascii t |- _ => exact (H E) end| |].
    + apply Forall_forall. intros c HC. rewrite Forall_forall in H4. specialize (H4 c HC). destruct (is_ws c) eqn:EW; [|reflexivity]. exfalso. apply H4, white_ok, EW.
    + destruct w as [|c w]; [left; cbn [app]; auto|]. right. exists c, (w ++ s1). split; [reflexivity|]. match goal with H : Forall white (c :: w) |- _ => inversion H; assumption end.
  - split; [assumption|]. intros E. match goal with H : b = true -> ns_ascii ns /\ ascii l |- _ => destruct (H E) end. apply low_qualified; assumption.
  - match goal with HA : Forall _ defs, HB : Forall (fun d => (b = true -> _) /\ _) defs |- _ => rename HA into A; rename HB into B end.
    rewrite Forall_forall in A, B |- *. intros d HD. destruct (A d HD) as [A1 A2], (B d HD) as [B1 B2]. split; [split; [exact A1|]|].
    + intros E. specialize (B1 E). unfold def_name. destruct (fst d) as [p|]; [|apply low_of; reflexivity].
      apply low_app; [apply low_of; reflexivity|exact B1].
    + unfold plain_uri, plain_name in *. rewrite Forall_forall in *. intros c HC. auto.
  - match goal with HA : Forall (fun x => name _ /\ _) attrs, HB : b = true -> Forall _ attrs |- _ => rename HA into A; rename HB into B end.
    rewrite Forall_forall in A |- *. intros x HX. destruct (A x HX) as [A1 A2]. split; [split; [exact A1|]|exact A2].
    intros E. specialize (B E). rewrite Forall_forall in B. destruct (B x HX). apply low_qualified; assumption.
  - rewrite Forall_forall in *. intros k HK. auto.
Qed.

(** ** Pieces *)
Definition unpieces (x : str * list (node * str)) : list node :=
  map Chr (fst x) ++ flat_map (fun y => fst y :: map Chr (snd y)) (snd x).
Lemma unpieces_pieces l : unpieces (pieces l) = l.
Proof.
  induction l as [|n l IH]; [reflexivity|]. unfold unpieces in *.
  destruct n; cbn [pieces]; destruct (pieces l) as [t m]; cbn [fst snd map app flat_map] in *; rewrite IH; reflexivity.
Qed.
Definition marks (m : list (node * str)) : Prop := Forall (fun x => is_chr (fst x) = false) m.
Lemma pieces_marks l : marks (snd (pieces l)).
Proof.
  induction l as [|n l IH]; [constructor|]. destruct n; cbn [pieces]; destruct (pieces l) as [t m]; cbn [fst snd] in *; try exact IH;
    constructor; try exact IH; reflexivity.
Qed.
Lemma pieces_chars t l : pieces (map Chr t ++ l) = (t ++ fst (pieces l), snd (pieces l)).
Proof. induction t as [|c t IH]; cbn [map app]; [destruct (pieces l); reflexivity|]. cbn [pieces]. rewrite IH. reflexivity. Qed.
Lemma pieces_mark n l : is_chr n = false -> pieces (n :: l) = ([], (n, fst (pieces l)) :: snd (pieces l)).
Proof. destruct n; [discriminate|..]; intros _; cbn [pieces]; destruct (pieces l); reflexivity. Qed.
Lemma pieces_unpieces t m : marks m -> pieces (unpieces (t, m)) = (t, m).
Proof.
  intros H. unfold unpieces. cbn [fst snd]. rewrite pieces_chars. 
  assert (E : pieces (flat_map (fun y => fst y :: map Chr (snd y)) m) = ([], m)).
  { induction H as [|[n s] m H _ IH]; [reflexivity|]. cbn [flat_map fst snd app] in *. rewrite pieces_mark by exact H.
    rewrite pieces_chars, IH. cbn [fst snd]. rewrite app_nil_r. reflexivity. }
  rewrite E. cbn [fst snd]. rewrite app_nil_r. reflexivity.
Qed.
Lemma pieces_in l x : In x (snd (pieces l)) -> In (fst x) l.
Proof.
  intros H. rewrite <- (unpieces_pieces l). unfold unpieces. apply in_or_app. right. apply in_flat_map. exists x. split; [exact H|left; reflexivity].
Qed.
Lemma pieces_in_text l x c : In x (snd (pieces l)) -> In c (snd x) -> In (Chr c) l.
Proof.
  intros H HC. rewrite <- (unpieces_pieces l). unfold unpieces. apply in_or_app. right. apply in_flat_map. exists x. split; [exact H|right; apply in_map, HC].
Qed.
Lemma pieces_lead l : lead l = fst (pieces l).
Proof. induction l as [|n l IH]; [reflexivity|]. destruct n; cbn [lead pieces]; destruct (pieces l) as [t m]; cbn [fst] in *; rewrite ?IH; reflexivity. Qed.
Lemma pieces_all l : forallb is_chr l = true <-> snd (pieces l) = [].
Proof.
  induction l as [|n l IH]; [cbn; tauto|]. destruct n; cbn [forallb is_chr andb pieces]; destruct (pieces l) as [t m]; cbn [snd] in *; [exact IH|..];
    split; intros E; discriminate E.
Qed.
Lemma all_chars l : forallb is_chr l = true -> exists t, l = map Chr t.
Proof.
  intros H. apply pieces_all in H. exists (fst (pieces l)). rewrite <- (unpieces_pieces l) at 1. unfold unpieces. rewrite H. cbn [flat_map]. apply app_nil_r.
Qed.
Definition fixes (f : node -> node) : Prop := (forall c, f (Chr c) = Chr c) /\ (forall n, is_chr (f n) = is_chr n).
Definition over (f : node -> node) (m : list (node * str)) : list (node * str) := map (fun x => (f (fst x), snd x)) m.
Lemma pieces_map f l : fixes f -> pieces (map f l) = (fst (pieces l), over f (snd (pieces l))).
Proof.
  intros [F1 F2]. induction l as [|n l IH]; [reflexivity|]. cbn [map]. destruct (is_chr n) eqn:E.
  - destruct n; try discriminate E. rewrite F1. cbn [pieces]. rewrite IH. destruct (pieces l); reflexivity.
  - rewrite pieces_mark by (rewrite F2; exact E). rewrite IH, (pieces_mark n l E). reflexivity.
Qed.
Lemma fixes_unblank p : fixes (unblank p).
Proof. split; [reflexivity|]. intros []; reflexivity. Qed.
Lemma fixes_refined b : fixes (refined b).
Proof. split; [reflexivity|]. intros []; reflexivity. Qed.
Lemma fixes_pretty f lvl : fixes (pretty f lvl).
Proof. split; [reflexivity|]. intros []; reflexivity. Qed.

(** ** Blank text *)
Definition keep (t : str) : str := if forallb blank_char t then [] else t.
Definition keeps (m : list (node * str)) : list (node * str) := map (fun x => (fst x, keep (snd x))) m.
Lemma keep_keep t : keep (keep t) = keep t.
Proof. unfold keep. destruct (forallb blank_char t) eqn:E; [reflexivity|]. rewrite E. reflexivity. Qed.
Lemma keeps_keeps m : keeps (keeps m) = keeps m.
Proof. unfold keeps. rewrite map_map. apply map_ext. intros [n t]. cbn [fst snd]. rewrite keep_keep. reflexivity. Qed.
Lemma marks_keeps m : marks m -> marks (keeps m).
Proof. unfold marks, keeps. rewrite Forall_map. auto. Qed.
Lemma forallb_rev {A} (f : A -> bool) l : forallb f (rev l) = forallb f l.
Proof. induction l as [|x l IH]; [reflexivity|]. cbn [rev]. rewrite forallb_app, IH. cbn [forallb]. destruct (f x), (forallb f l); reflexivity. Qed.
Lemma drop_pieces l : forall run, drop_blank_runs run l = unpieces (keep (rev run ++ fst (pieces l)), keeps (snd (pieces l))).
Proof.
  induction l as [|n l IH]; intros run.
  - cbn [drop_blank_runs pieces fst snd]. rewrite app_nil_r. unfold unpieces, keep. cbn [fst snd keeps map flat_map]. rewrite forallb_rev, app_nil_r.
    destruct (forallb blank_char run); reflexivity.
  - destruct (is_chr n) eqn:E.
    + destruct n; try discriminate E. cbn [drop_blank_runs pieces]. rewrite IH. destruct (pieces l) as [t m]. cbn [fst snd rev]. rewrite <- app_assoc. reflexivity.
    + rewrite (pieces_mark n l E). cbn [fst snd]. rewrite app_nil_r.
      assert (D : drop_blank_runs run (n :: l) = map Chr (keep (rev run)) ++ n :: drop_blank_runs [] l).
      { destruct n; try discriminate E; cbn [drop_blank_runs]; unfold keep; rewrite forallb_rev; destruct (forallb blank_char run); reflexivity. }
      rewrite D, IH. unfold unpieces. cbn [fst snd rev app keeps map flat_map]. reflexivity.
Qed.
Definition unblank_pieces (x : str * list (node * str)) : str * list (node * str) :=
  match snd x with
  | [] => x
  | _ => if forallb blank_char (fst x) then ([], keeps (snd x)) else x
  end.
Lemma unblank_kids_pieces l : unblank_kids l = unpieces (unblank_pieces (pieces l)).
Proof.
  unfold unblank_kids, unblank_pieces. destruct (forallb is_chr l) eqn:E.
  - apply pieces_all in E. rewrite E, unpieces_pieces. reflexivity.
  - destruct (snd (pieces l)) as [|x m] eqn:EM; [apply pieces_all in EM; congruence|]. rewrite <- EM, pieces_lead.
    destruct (forallb blank_char (fst (pieces l))) eqn:EB; [|symmetry; apply unpieces_pieces]. rewrite drop_pieces. cbn [rev app].
    unfold keep. rewrite EB. reflexivity.
Qed.
Lemma marks_unblank x : marks (snd x) -> marks (snd (unblank_pieces x)).
Proof.
  intros H. unfold unblank_pieces. destruct (snd x) as [|y m] eqn:E; [rewrite E; constructor|]. rewrite <- E in *.
  destruct (forallb blank_char (fst x)); [apply marks_keeps, H|exact H].
Qed.
Lemma pieces_unblank l : pieces (unblank_kids l) = unblank_pieces (pieces l).
Proof.
  rewrite unblank_kids_pieces. pose proof (marks_unblank (pieces l) (pieces_marks l)) as H. destruct (unblank_pieces (pieces l)) as [t m].
  apply pieces_unpieces, H.
Qed.
Lemma unblank_pieces_twice x : unblank_pieces (unblank_pieces x) = unblank_pieces x.
Proof.
  unfold unblank_pieces. destruct x as [t [|y m]]; cbn [fst snd]; [reflexivity|]. destruct (forallb blank_char t) eqn:E; cbn [fst snd].
  - cbn [keeps map forallb]. f_equal. apply (keeps_keeps (y :: m)).
  - rewrite E. reflexivity.
Qed.
Lemma pieces_inj l l' : pieces l = pieces l' -> l = l'.
Proof. intros H. rewrite <- (unpieces_pieces l), H. apply unpieces_pieces. Qed.
Lemma unblank_kids_twice l : unblank_kids (unblank_kids l) = unblank_kids l.
Proof. apply pieces_inj. rewrite !pieces_unblank. apply unblank_pieces_twice. Qed.
Lemma unblank_kids_map f l : fixes f -> unblank_kids (map f l) = map f (unblank_kids l).
Proof.
  intros F. apply pieces_inj. rewrite pieces_unblank, !pieces_map, pieces_unblank by exact F. destruct (pieces l) as [t m]. unfold unblank_pieces. cbn [fst snd].
  destruct m as [|x m]; [reflexivity|]. cbn [over map]. destruct (forallb blank_char t); [|reflexivity]. cbn [fst snd keeps over map]. f_equal. f_equal.
  unfold keeps, over. rewrite !map_map. reflexivity.
Qed.

(** ** The reformatted tree *)
Lemma blank_ok t : forallb blank_char t = true <-> blank t.
Proof.
  unfold blank. rewrite forallb_forall, Forall_forall. unfold blank_char. split; intros H c HC; specialize (H c HC).
  - rewrite !orb_true_iff, !N.eqb_eq in H. cbn [In]. intuition congruence.
  - rewrite !orb_true_iff, !N.eqb_eq. cbn [In] in H. intuition congruence.
Qed.
Lemma same_text_refl t : same_text t t.
Proof. left. reflexivity. Qed.
Lemma same_text_trans t u v : same_text t u -> same_text u v -> same_text t v.
Proof. intros [->|[H1 H2]] [<-|[H3 H4]]; [left; reflexivity|right; auto..]. Qed.
Lemma same_keep t : same_text t (keep t).
Proof. unfold keep. destruct (forallb blank_char t) eqn:E; [|left; reflexivity]. right. split; [apply blank_ok, E|constructor]. Qed.
Lemma blank_nl : blank nl.
Proof. constructor; [cbn; tauto|constructor]. Qed.
Lemma blank_indentation n : blank (indentation n).
Proof. unfold indentation. apply Forall_forall. intros c HC. apply repeat_spec in HC. subst c. cbn. tauto. Qed.
Lemma blank_app s t : blank s -> blank t -> blank (s ++ t).
Proof. intros. apply Forall_app. auto. Qed.

Definition pretty_kids (f : bool) (lvl : nat) (ks : list node) : list node :=
  padding f nl ++ flat_map (fun k => padding f (indentation (S lvl)) ++ [pretty f (S lvl) k] ++ padding f nl) ks ++ padding f (indentation lvl).
Lemma pretty_el f lvl ns l defs inh attrs kids : pretty f lvl (El ns l defs inh attrs kids)
  = El ns l defs inh attrs match kids with [] => [] | _ => pretty_kids (f && negb (existsb is_chr kids)) lvl kids end.
Proof. reflexivity. Qed.
Lemma pretty_off lvl ks : pretty_kids false lvl ks = map (pretty false (S lvl)) ks.
Proof. unfold pretty_kids. cbn [padding app]. rewrite app_nil_r. induction ks as [|k ks IH]; [reflexivity|]. cbn [flat_map map app]. rewrite IH. reflexivity. Qed.
Lemma pieces_nochr ks : existsb is_chr ks = false -> pieces ks = ([], map (fun k => (k, [])) ks).
Proof.
  induction ks as [|k ks IH]; [reflexivity|]. cbn [existsb]. intros H. apply orb_false_elim in H. destruct H as [H1 H2].
  rewrite pieces_mark by exact H1. rewrite IH by exact H2. reflexivity.
Qed.
Lemma pretty_on lvl ks : existsb is_chr ks = false ->
  exists t m, pieces (pretty_kids true lvl ks) = (t, m) /\ blank t /\ Forall2 (fun k y => fst y = pretty true (S lvl) k /\ blank (snd y)) ks m.
Proof.
  intros H. unfold pretty_kids. cbn [padding]. rewrite pieces_chars. 
  assert (G : exists t m, pieces (flat_map (fun k => map Chr (indentation (S lvl)) ++ [pretty true (S lvl) k] ++ map Chr nl) ks ++ map Chr (indentation lvl)) = (t, m)
     /\ blank t /\ Forall2 (fun k y => fst y = pretty true (S lvl) k /\ blank (snd y)) ks m).
  { induction ks as [|k ks IH].
    - cbn [flat_map app]. rewrite <- (app_nil_r (map Chr (indentation lvl))), pieces_chars. eexists _, _. split; [reflexivity|]. split; [|constructor].
      cbn [pieces fst]. apply blank_app; [apply blank_indentation|constructor].
    - cbn [existsb] in H. apply orb_false_elim in H. destruct H as [H1 H2]. destruct (IH H2) as (t & m & E & B & F). cbn [flat_map].
      rewrite <- !app_assoc. rewrite pieces_chars. change ([pretty true (S lvl) k] ++ ?x) with (pretty true (S lvl) k :: x). rewrite pieces_mark by (rewrite (proj2 (fixes_pretty true (S lvl))); exact H1).
      rewrite pieces_chars, E. cbn [fst snd]. eexists _, _. split; [reflexivity|]. split; [rewrite app_nil_r; apply blank_indentation|].
      constructor; [|exact F]. cbn [fst snd]. split; [reflexivity|apply blank_app; [apply blank_nl|exact B]]. }
  destruct G as (t & m & -> & B & F). cbn [fst snd]. eexists _, _. split; [reflexivity|]. split; [apply blank_app; [apply blank_nl|exact B]|exact F].
Qed.
(** what [pretty] does with the content *)
Lemma pretty_pieces f lvl ks : exists f', f' = (f && negb (existsb is_chr ks))
  /\ same_text (fst (pieces ks)) (fst (pieces (pretty_kids f' lvl ks)))
  /\ Forall2 (fun x y => fst y = pretty f' (S lvl) (fst x) /\ same_text (snd x) (snd y)) (snd (pieces ks)) (snd (pieces (pretty_kids f' lvl ks))).
Proof.
  eexists. split; [reflexivity|]. destruct (f && negb (existsb is_chr ks)) eqn:E.
  - apply andb_prop in E. destruct E as [_ E]. apply negb_true_iff in E. destruct (pretty_on lvl ks E) as (t & m & -> & B & F).
    rewrite pieces_nochr by exact E. cbn [fst snd]. split; [right; split; [constructor|exact B]|].
    clear - F. induction F as [|k y ks m [H1 H2] _ IH]; [constructor|]. cbn [map]. constructor; [|exact IH]. cbn [fst snd]. split; [exact H1|].
    right. split; [constructor|exact H2].
  - rewrite pretty_off, pieces_map by apply fixes_pretty. cbn [fst snd]. split; [left; reflexivity|]. unfold over.
    induction (snd (pieces ks)) as [|x m IH]; [constructor|]. cbn [map]. constructor; [|exact IH]. cbn [fst snd]. split; [reflexivity|left; reflexivity].
Qed.
Lemma encoded_charset b s : encoded b s (in_charset b s).
Proof.
  destruct b; cbn [in_charset].
  - induction s as [|c s IH]; [constructor|]. cbn [flat_map]. unfold ascii_char. destruct (N.ltb_spec c 128) as [H|H].
    + apply encoded_char; auto.
    + rewrite <- !app_assoc. apply encoded_reference; auto. apply str_of_N_number.
  - induction s as [|c s IH]; [constructor|]. apply encoded_char; [discriminate|exact IH].
Qed.
Lemma same_instruction_normal b s : same_instruction b s (in_charset b (pi_normal s)).
Proof.
  destruct (pi_parts s) as (sp & E & W & N1 & N2). unfold pi_normal. destruct (existsb is_ws s) eqn:EW.
  - exists (pi_target s), sp, " ", (pi_data s). split; [exact W|]. split; [repeat constructor|]. split.
    + split; [intros ->; contradiction (N1 eq_refl eq_refl)|discriminate].
    + split; [exact E|apply encoded_charset].
  - exists s, [], [], []. split; [constructor|]. split; [constructor|]. split; [tauto|]. rewrite !app_nil_r. split; [reflexivity|apply encoded_charset].
Qed.
Lemma Forall2_map_l' {A B C} (R : B -> C -> Prop) (f : A -> B) l m : Forall2 R (map f l) m <-> Forall2 (fun x y => R (f x) y) l m.
Proof.
  split.
  - revert m. induction l as [|x l IH]; intros m H; inversion H; subst; constructor; auto.
  - induction 1; constructor; auto.
Qed.
Lemma unblank_pieces_same x : same_text (fst x) (fst (unblank_pieces x))
  /\ Forall2 (fun a b => fst b = fst a /\ same_text (snd a) (snd b)) (snd x) (snd (unblank_pieces x)).
Proof.
  assert (R : forall m : list (node * str), Forall2 (fun a b => fst b = fst a /\ same_text (snd a) (snd b)) m m).
  { induction m; constructor; auto using same_text_refl. }
  unfold unblank_pieces. destruct x as [t m]. cbn [fst snd]. destruct m as [|y m]; [split; [apply same_text_refl|constructor]|].
  destruct (forallb blank_char t) eqn:E; cbn [fst snd]; [|split; [apply same_text_refl|apply R]].
  split; [right; split; [apply blank_ok, E|constructor]|]. generalize (y :: m). clear. intros m. induction m as [|x m IH]; [constructor|].
  cbn [keeps map]. constructor; [|exact IH]. cbn [fst snd]. split; [reflexivity|apply same_keep].
Qed.
Lemma Forall2_eq {A} (l : list A) : Forall2 eq l l.
Proof. induction l; constructor; auto. Qed.
Definition maybe (u p : bool) (n : node) : node := if u then unblank p n else n.
Definition maybe_kids (u p : bool) (l : list node) : list node := if u && negb p then unblank_kids l else l.
Lemma maybe_el u p ns l defs inh attrs kids : maybe u p (El ns l defs inh attrs kids)
  = El ns l defs inh attrs (maybe_kids u (preserves p attrs) (map (maybe u (preserves p attrs)) kids)).
Proof.
  destruct u; cbn [maybe]; unfold maybe_kids; cbn [andb].
  - cbn [unblank]. destruct (preserves p attrs); reflexivity.
  - rewrite map_id. reflexivity.
Qed.
Lemma fixes_maybe u p : fixes (maybe u p).
Proof. split; [destruct u; reflexivity|]. intros []; destruct u; reflexivity. Qed.
Lemma maybe_kids_pieces u p l : same_text (fst (pieces l)) (fst (pieces (maybe_kids u p l)))
  /\ Forall2 (fun a b => fst b = fst a /\ same_text (snd a) (snd b)) (snd (pieces l)) (snd (pieces (maybe_kids u p l))).
Proof.
  unfold maybe_kids. destruct (u && negb p); [rewrite pieces_unblank; apply unblank_pieces_same|]. split; [apply same_text_refl|].
  induction (snd (pieces l)); constructor; auto using same_text_refl.
Qed.
Lemma Forall2_chain {A B C D} (P : A -> B -> Prop) (Q : B -> C -> Prop) (R : C -> D -> Prop) (S : A -> D -> Prop) l m k j :
  Forall2 P l m -> Forall2 Q m k -> Forall2 R k j -> (forall a b c d, In a l -> P a b -> Q b c -> R c d -> S a d) -> Forall2 S l j.
Proof.
  intros H. revert k j. induction H as [|a b l m H _ IH]; intros k j H1 H2 HS; inversion H1; subst; inversion H2; subst; constructor.
  - eapply HS; eauto. left. reflexivity.
  - eapply IH; eauto. intros. eapply HS; eauto. right. assumption.
Qed.
Theorem respaced_pretty b u n : is_chr n = false -> forall p f lvl, respaced b n (pretty f lvl (refined b (maybe u p n))).
Proof.
  induction n as [c|s|s|ns l defs inh attrs kids IH] using node_ind'; intros HN p f lvl; [discriminate HN|..].
  - destruct u; apply respaced_comment, encoded_charset.
  - destruct u; apply respaced_instruction, same_instruction_normal.
  - rewrite maybe_el. cbn [refined]. rewrite pretty_el. set (q := preserves p attrs). clearbody q.
    destruct (forallb is_chr kids) eqn:EC.
    + destruct (all_chars _ EC) as (t & ->).
      assert (EK : map (refined b) (maybe_kids u q (map (maybe u q) (map Chr t))) = map Chr t).
      { assert (EM : map (maybe u q) (map Chr t) = map Chr t) by (rewrite map_map; apply map_ext; intros c; apply fixes_maybe).
        rewrite EM. assert (EU : maybe_kids u q (map Chr t) = map Chr t).
        { unfold maybe_kids, unblank_kids. rewrite EC. destruct (u && negb q); reflexivity. }
        rewrite EU, map_map. reflexivity. }
      rewrite EK. assert (EP : match map Chr t with [] => [] | _ :: _ => pretty_kids (f && negb (existsb is_chr (map Chr t))) lvl (map Chr t) end = map Chr t).
      { destruct t as [|c t]; [reflexivity|]. cbn [map existsb is_chr orb negb]. rewrite andb_false_r.
        change (Chr c :: map Chr t) with (map Chr (c :: t)). rewrite pretty_off, map_map. apply map_ext. reflexivity. }
      rewrite EP. apply respaced_text. apply Forall_forall. intros k HK. apply in_map_iff in HK. destruct HK as (c & <- & _). eauto.
    + destruct (maybe_kids_pieces u q (map (maybe u q) kids)) as [M1 M2]. set (k2 := maybe_kids u q (map (maybe u q) kids)) in *. clearbody k2.
      rewrite (pieces_map _ _ (fixes_maybe u q)) in M1, M2. cbn [fst snd] in M1, M2.
      destruct (pretty_pieces f lvl (map (refined b) k2)) as (f' & EF & P1 & P2). rewrite <- EF. clear EF.
      rewrite (pieces_map _ _ (fixes_refined b)) in P1, P2. cbn [fst snd] in P1, P2.
      assert (NE : snd (pieces kids) <> []) by (intros H; apply pieces_all in H; congruence).
      assert (NK : map (refined b) k2 <> []).
      { intros H. apply map_eq_nil in H. subst k2. inversion M2. apply NE. destruct (snd (pieces kids)); [reflexivity|discriminate]. }
      assert (EM : match map (refined b) k2 with [] => [] | _ :: _ => pretty_kids f' lvl (map (refined b) k2) end = pretty_kids f' lvl (map (refined b) k2)).
      { destruct (map (refined b) k2); [contradiction|reflexivity]. }
      rewrite EM. clear EM NK. eapply respaced_element.
      * exact NE.
      * apply surjective_pairing.
      * apply surjective_pairing.
      * apply (same_text_trans _ _ _ M1 P1).
      * apply (proj1 (Forall2_map_l' _ _ _ _)) in M2, P2.
        apply (Forall2_chain _ _ _ _ _ _ _ _ (Forall2_eq (snd (pieces kids))) M2 P2). intros x y z w HX <- [HZ1 HZ2] [HW1 HW2]. cbn [fst snd] in *.
        split; [|apply (same_text_trans _ _ _ HZ2 HW2)]. rewrite HW1, HZ1. rewrite Forall_forall in IH. apply IH; [apply pieces_in, HX|].
        pose proof (pieces_marks kids) as PM. unfold marks in PM. rewrite Forall_forall in PM. apply PM, HX.
Qed.

(** ** Reformatting again *)
Lemma preserves_unspaced p attrs :
  Forall (fun x => forall r, a_ns x = Some r -> ~ (fst r = Some ("xml" : str) /\ a_local x = "space")) attrs -> preserves p attrs = p.
Proof.
  intros H. unfold preserves.
  assert (E : find (fun a => match a_ns a with Some (Some q, _) => str_eqb q "xml" && str_eqb (a_local a) "space" | _ => false end) attrs = None).
  { induction H as [|x l H _ IH]; [reflexivity|]. cbn [find]. destruct (a_ns x) as [[[q|] u]|]; try exact IH.
    destruct (str_eqb_spec q "xml") as [->|]; [|exact IH]. destruct (str_eqb_spec (a_local x) "space") as [E|]; [|exact IH].
    exfalso. apply (H _ eq_refl). auto. }
  rewrite E. reflexivity.
Qed.
Definition normal (b f : bool) (lvl : nat) (n : node) : node := pretty f lvl (refined b (unblank false n)).
Lemma unblank_normal b n : unspaced n -> forall f lvl, unblank false (normal b f lvl n) = refined b (unblank false n).
Proof.
  unfold normal. induction n as [c|s|s|ns l defs inh attrs kids IH] using node_ind'; intros HU f lvl; try reflexivity.
  inversion HU; subst. cbn [unblank]. rewrite preserves_unspaced by assumption. cbn [refined].
  rewrite pretty_el. cbn [unblank]. rewrite preserves_unspaced by assumption. f_equal.
  set (k1 := map (unblank false) kids). set (ks := map (refined b) (unblank_kids k1)).
  assert (A : Forall (fun k => forall f lvl, unblank false (pretty f lvl k) = k) ks).
  { apply Forall_forall. intros k HK. unfold ks in HK. apply in_map_iff in HK. destruct HK as (k' & <- & HK). apply in_unblank_kids in HK.
    unfold k1 in HK. apply in_map_iff in HK. destruct HK as (k'' & <- & HK). rewrite Forall_forall in IH. apply IH; [exact HK|].
    match goal with H : Forall unspaced kids |- _ => rewrite Forall_forall in H; apply H, HK end. }
  assert (I : unblank_kids ks = ks).
  { unfold ks. rewrite unblank_kids_map by apply fixes_refined. rewrite unblank_kids_twice. reflexivity. }
  clearbody ks. clear IH HU k1. destruct (f && negb (existsb is_chr ks)) eqn:EF.
  - apply andb_prop in EF. destruct EF as [_ EF]. apply negb_true_iff in EF. destruct ks as [|k0 ks0]; [reflexivity|]. set (ks := k0 :: ks0) in *.
    assert (NE : ks <> []) by discriminate. clearbody ks. clear k0 ks0.
    destruct (pretty_on lvl ks EF) as (t & m & E & B & F). apply pieces_inj. rewrite pieces_unblank, (pieces_map _ _ (fixes_unblank false)), E. cbn [fst snd].
    rewrite (pieces_nochr ks EF). unfold unblank_pieces. cbn [fst snd].
    assert (EM : keeps (over (unblank false) m) = map (fun k => (k, [])) ks).
    { clear - F A. induction F as [|k [y s] ks m [H1 H2] _ IH]; [reflexivity|]. inversion A; subst. cbn [over map keeps fst snd] in *. subst y.
      rewrite H3. unfold keep. apply blank_ok in H2. rewrite H2. f_equal. apply IH. assumption. }
    destruct (over (unblank false) m) as [|x m'] eqn:EO.
    + exfalso. apply map_eq_nil in EO. subst m. inversion F. congruence.
    + rewrite <- EO in *. apply blank_ok in B. rewrite B, EM. reflexivity.
  - assert (EK : map (unblank false) match ks with [] => [] | _ :: _ => pretty_kids false lvl ks end = ks).
    { destruct ks as [|k0 ks0]; [reflexivity|]. rewrite pretty_off, map_map. rewrite Forall_forall in A. rewrite <- (map_id (k0 :: ks0)) at 2.
      apply map_ext_in. intros k HK. apply A, HK. }
    rewrite EK. exact I.
Qed.
Lemma charset_low s : low (in_charset true s).
Proof.
  unfold low. cbn [in_charset]. apply Forall_flat_map, Forall_forall. intros c _. unfold ascii_char. destruct (N.ltb_spec c 128) as [H|H]; [constructor; auto|].
  apply low_app; [apply low_of; reflexivity|]. apply low_app; [|apply low_of; reflexivity]. apply (number_low10 _ c), str_of_N_number.
Qed.
Lemma charset_twice b s : in_charset b (in_charset b s) = in_charset b s.
Proof. apply in_charset_low. intros ->. apply charset_low. Qed.
Lemma ws_charset b s : existsb is_ws (in_charset b s) = existsb is_ws s.
Proof.
  destruct b; [|reflexivity]. cbn [in_charset]. induction s as [|c s IH]; [reflexivity|]. cbn [flat_map existsb]. rewrite existsb_app, IH. f_equal.
  unfold ascii_char. destruct (N.ltb_spec c 128) as [H|H]; [apply orb_false_r|].
  replace (is_ws c) with false.
  2: { symmetry. unfold is_ws. rewrite !orb_false_iff, !N.eqb_neq. repeat split; intros ->; lia. }
  apply not_true_is_false. intros HE. apply existsb_exists in HE. destruct HE as (d & HD & HW). apply reference_text in HD.
  revert HW. cbn [In] in HD. repeat (destruct HD as [<-|HD]; [discriminate|]). contradiction.
Qed.
Lemma charset_cons_nows b c s : is_ws c = false -> exists d r, in_charset b (c :: s) = d :: r /\ is_ws d = false.
Proof.
  intros H. destruct b; [|exists c, s; auto]. cbn [in_charset flat_map]. unfold ascii_char. destruct (N.ltb c 128); [exists c; eexists; split; [reflexivity|exact H]|].
  eexists 38%N, _. split; reflexivity.
Qed.
Lemma drop_while_hd {A} (f : A -> bool) l : drop_while f l = [] \/ exists c r, drop_while f l = c :: r /\ f c = false.
Proof. induction l as [|x l IH]; [left; reflexivity|]. cbn [drop_while]. destruct (f x) eqn:E; [exact IH|]. right. eauto. Qed.
Lemma take_while_none {A} (f : A -> bool) l : existsb (fun c => negb (f c)) (take_while f l) = false.
Proof. induction l as [|x l IH]; [reflexivity|]. cbn [take_while]. destruct (f x) eqn:E; [|reflexivity]. cbn [existsb]. rewrite E. exact IH. Qed.
Lemma pi_normal_parts t d : existsb is_ws t = false -> (d = [] \/ exists c r, d = c :: r /\ is_ws c = false) -> pi_normal (t ++ " " ++ d) = t ++ " " ++ d.
Proof.
  intros HT HD. unfold pi_normal.
  assert (HW : Forall (fun c => is_ws c = false) t).
  { apply Forall_forall. intros c HC. apply not_true_is_false. intros E. assert (X : existsb is_ws t = true) by (apply existsb_exists; eauto). congruence. }
  assert (E1 : existsb is_ws (t ++ " " ++ d) = true) by (rewrite existsb_app; apply orb_true_r). rewrite E1.
  rewrite pi_target_app; [|exact HW|right; exists 32%N, d; split; [reflexivity|left; reflexivity]].
  unfold pi_data. assert (E2 : drop_while (fun c => negb (is_ws c)) (t ++ " " ++ d) = " " ++ d).
  { clear - HW. induction HW as [|c t H _ IH]; [reflexivity|]. cbn [app drop_while]. rewrite H. exact IH. }
  rewrite E2. assert (E3 : drop_while is_ws (" " ++ d) = d).
  { change (drop_while is_ws (" " ++ d)) with (drop_while is_ws d). destruct HD as [->|(c & r & -> & H)]; [reflexivity|]. cbn [drop_while]. rewrite H. reflexivity. }
  rewrite E3. reflexivity.
Qed.
Lemma pi_target_nows s : existsb is_ws (pi_target s) = false.
Proof.
  unfold pi_target. rewrite <- (take_while_none (fun c => negb (is_ws c)) s).
  generalize (take_while (fun c => negb (is_ws c)) s). intros l. induction l as [|x l IH]; [reflexivity|]. cbn [existsb]. rewrite IH, negb_involutive. reflexivity.
Qed.
Lemma pi_normal_twice b s : pi_normal (in_charset b (pi_normal s)) = in_charset b (pi_normal s).
Proof.
  assert (G : pi_normal s = s /\ existsb is_ws s = false \/ pi_normal s = pi_target s ++ " " ++ pi_data s).
  { unfold pi_normal. destruct (existsb is_ws s) eqn:E; [right|left]; auto. }
  destruct G as [[-> E]| ->].
  - unfold pi_normal. rewrite ws_charset, E. reflexivity.
  - rewrite !in_charset_app, (charset_lit b " ") by reflexivity. apply pi_normal_parts; [rewrite ws_charset; apply pi_target_nows|].
    unfold pi_data. destruct (drop_while_hd is_ws (drop_while (fun c => negb (is_ws c)) s)) as [->|(c & r & -> & H)].
    + left. destruct b; reflexivity.
    + right. apply charset_cons_nows, H.
Qed.
Lemma flat_map_map {A B C} (f : B -> list C) (g : A -> B) l : flat_map f (map g l) = flat_map (fun x => f (g x)) l.
Proof. induction l as [|x l IH]; [reflexivity|]. cbn [map flat_map]. rewrite IH. reflexivity. Qed.
Lemma put_refined b hex n : forall f lvl, in_charset b (put hex f lvl (refined b n)) = in_charset b (put hex f lvl n).
Proof.
  induction n as [c|s|s|ns l defs inh attrs kids IH] using node_ind'; intros f lvl; cbn [refined put]; [reflexivity|..].
  - rewrite !(in_charset_app b "<!--"), !(in_charset_app b _ "-->"), charset_twice. reflexivity.
  - rewrite pi_normal_twice, !(in_charset_app b "<?"), !(in_charset_app b _ "?>"), charset_twice. reflexivity.
  - destruct kids as [|k0 kids]; [reflexivity|]. cbn [map]. change (refined b k0 :: map (refined b) kids) with (map (refined b) (k0 :: kids)). rewrite existsb_refined.
    set (ks := k0 :: kids) in *. clearbody ks. clear k0 kids. set (f' := f && negb (existsb is_chr ks)). clearbody f'.
    rewrite !in_charset_app. do 6 f_equal. rewrite !in_charset_flat_map, flat_map_map. f_equal.
    induction IH as [|k ks H _ IHK]; [reflexivity|]. cbn [flat_map]. rewrite IHK, !in_charset_app, H. reflexivity.
Qed.
Lemma written_refined b hex before after root :
  write_document b hex (map (refined b) before) (map (refined b) after) (refined b root) = write_document b hex before after root.
Proof.
  unfold write_document. rewrite !in_charset_app, put_refined. f_equal. f_equal.
  assert (E : forall (f : str -> str), (forall s t, in_charset b s = in_charset b t -> in_charset b (f s) = in_charset b (f t)) -> forall l,
    in_charset b (flat_map (fun n => f (put hex true 0 n)) (map (refined b) l)) = in_charset b (flat_map (fun n => f (put hex true 0 n)) l)).
  { intros f HF l. rewrite !in_charset_flat_map, flat_map_map. apply flat_map_ext. intros n. apply HF, put_refined. }
  rewrite (E (fun s => s ++ nl)), (E (fun s => nl ++ s)); [reflexivity|..]; intros s t H; rewrite !in_charset_app, H; reflexivity.
Qed.
(** ** Reformatted documents are indented *)
Lemma laid_out_normal b n : unspaced n -> is_chr n = false -> forall lvl, laid_out lvl (normal b true lvl n).
Proof.
  unfold normal. induction n as [c|s|s|ns l defs inh attrs kids IH] using node_ind'; intros HU HN lvl; [discriminate HN|constructor..|].
  inversion HU; subst. cbn [unblank]. rewrite preserves_unspaced by assumption. cbn [refined]. rewrite pretty_el. cbn [andb].
  set (k1 := map (unblank false) kids). set (ks := map (refined b) (unblank_kids k1)).
  assert (A : Forall (fun k => is_chr k = false -> forall lvl, laid_out lvl (pretty true lvl k)) ks).
  { apply Forall_forall. intros k HK. unfold ks in HK. apply in_map_iff in HK. destruct HK as (k' & <- & HK). apply in_unblank_kids in HK.
    unfold k1 in HK. apply in_map_iff in HK. destruct HK as (k'' & <- & HK). rewrite Forall_forall in IH. intros HC. apply IH; [exact HK| |].
    - match goal with H : Forall unspaced kids |- _ => rewrite Forall_forall in H; apply H, HK end.
    - rewrite (proj2 (fixes_refined b)), (proj2 (fixes_unblank false)) in HC. exact HC. }
  destruct (existsb is_chr ks) eqn:EC.
  - cbn [negb]. assert (EK : match ks with [] => [] | _ :: _ => pretty_kids false lvl ks end = map (pretty false (S lvl)) ks).
    { destruct ks; [reflexivity|]. apply pretty_off. }
    rewrite EK. destruct (forallb is_chr ks) eqn:EA.
    + apply laid_text. apply all_chars in EA. destruct EA as (t & ->). apply Forall_forall. intros k HK. rewrite map_map in HK.
      apply in_map_iff in HK. destruct HK as (c & <- & _). exists c. reflexivity.
    + assert (C : exists c, In (Chr c) ks /\ blank_char c = false).
      { unfold ks in *. clear - EC EA. set (x := unblank_kids k1) in *.
        assert (EX : existsb is_chr x = true) by (rewrite <- (existsb_refined b); exact EC).
        assert (AX : forallb is_chr x = false).
        { rewrite <- EA. clear. induction x as [|n x IH]; [reflexivity|]. cbn [map forallb]. rewrite <- IH, (proj2 (fixes_refined b)). reflexivity. }
        assert (G : exists c, In (Chr c) x /\ blank_char c = false).
        { pose proof (pieces_unblank k1) as P. fold x in P. unfold unblank_pieces in P. destruct (pieces k1) as [t m]. cbn [fst snd] in P.
          assert (NE : snd (pieces x) <> []) by (intros H; apply pieces_all in H; congruence).
          destruct m as [|y m]; [rewrite P in NE; contradiction NE; reflexivity|]. destruct (forallb blank_char t) eqn:EB.
          - set (m0 := y :: m) in *. clearbody m0. apply existsb_exists in EX. destruct EX as (k & HK & HC). destruct k as [c| | |]; try discriminate HC.
            rewrite <- (unpieces_pieces x), P in HK. unfold unpieces in HK. cbn [fst snd map app] in HK. apply in_flat_map in HK.
            destruct HK as (z & HZ & HK). unfold keeps in HZ. apply in_map_iff in HZ. destruct HZ as (w & <- & HZ). cbn [fst snd] in HK.
            assert (MM : marks (snd (pieces x))) by apply pieces_marks. rewrite P in MM. cbn [snd] in MM. unfold marks in MM. rewrite Forall_forall in MM.
            assert (IW : In (fst w, keep (snd w)) (keeps m0)) by (unfold keeps; apply in_map_iff; exists w; auto).
            destruct HK as [HK|HK]; [specialize (MM _ IW); cbn [fst] in MM; rewrite HK in MM; discriminate MM|].
            unfold keep in HK. destruct (forallb blank_char (snd w)) eqn:EW; [contradiction HK|].
            assert (D : existsb (fun c => negb (blank_char c)) (snd w) = true).
            { clear - EW. induction (snd w) as [|d s IH]; [discriminate EW|]. cbn [forallb existsb] in *. destruct (blank_char d); [apply IH, EW|reflexivity]. }
            apply existsb_exists in D. destruct D as (d & HD1 & HD2). exists d. split; [|apply negb_true_iff, HD2].
            apply (pieces_in_text x (fst w, keep (snd w))); [rewrite P; exact IW|]. cbn [snd]. unfold keep. rewrite EW. exact HD1.
          - assert (D : existsb (fun c => negb (blank_char c)) t = true).
            { clear - EB. induction t as [|d s IH]; [discriminate EB|]. cbn [forallb existsb] in *. destruct (blank_char d); [apply IH, EB|reflexivity]. }
            apply existsb_exists in D. destruct D as (d & HD1 & HD2). exists d. split; [|apply negb_true_iff, HD2].
            rewrite <- (unpieces_pieces x), P. unfold unpieces. apply in_or_app. left. apply in_map, HD1. }
        destruct G as (c & G1 & G2). exists c. split; [|exact G2]. apply in_map_iff. exists (Chr c). auto. }
      destruct C as (c & C1 & C2). apply (laid_mixed _ _ _ _ _ _ _ c).
      * apply in_map_iff. exists (Chr c). auto.
      * intros HI. unfold blank_char in C2. rewrite !orb_false_iff, !N.eqb_neq in C2. cbn [In] in HI. intuition congruence.
  - cbn [negb]. destruct ks as [|k0 ks0]; [apply laid_text; constructor|]. set (ks := k0 :: ks0) in *.
    assert (EK : pretty_kids true lvl ks = newline :: flat_map (fun k => indent (S lvl) ++ [k; newline]) (map (pretty true (S lvl)) ks) ++ indent lvl).
    { unfold pretty_kids. cbn [padding]. change (map Chr nl) with [newline]. cbn [app].
      assert (EI : forall n, map Chr (indentation n) = indent n).
      { intros n. unfold indentation, indent, blanks. generalize (2 * Nat.min n 30)%nat. intros m. induction m as [|m IHm]; [reflexivity|]. cbn [repeat map]. rewrite IHm. reflexivity. }
      rewrite !EI, flat_map_map. reflexivity. }
    rewrite EK. apply laid_block; [discriminate|]. rewrite Forall_map. rewrite Forall_forall in A |- *. intros k HK. apply A; [exact HK|].
    apply not_true_is_false. intros HC. assert (X : existsb is_chr ks = true) by (apply existsb_exists; eauto). congruence.
Qed.

(** ** Documents *)
Lemma read_sound s decl root : read_document s = Some (decl, root) ->
  sound root /\ resolvable [] root /\ Forall aside (fst (surroundings s)) /\ Forall aside (snd (surroundings s)).
Proof.
  unfold read_document. destruct (read_text s) as [d|] eqn:E; [|discriminate]. destruct (resolve [] (d_root d)) as [r|] eqn:ER; [|discriminate].
  intros H. injection H as <- <-.
  split; [apply (resolve_sound _ _ _ (read_root_sound _ _ E) ER)|]. split; [apply (resolve_resolvable _ _ _ ER)|]. apply (surroundings_sound _ _ E).
Qed.
Lemma read_element s decl root : read_document s = Some (decl, root) -> match root with El _ _ _ _ _ _ => True | _ => False end.
Proof.
  unfold read_document. destruct (read_text s) as [[dc x]|] eqn:E; [|discriminate]. cbn [d_root d_decl].
  apply read_text_grammar in E. destruct E as (t & t' & _ & _ & _ & (p & m & e & m' & _ & _ & HE & _)).
  destruct (element_elem _ _ HE) as (n & a & k & ->). destruct (resolve [] (XElem n a k)) as [r|] eqn:ER; [|discriminate].
  intros H. injection H as _ <-. cbn [resolve] in ER.
  repeat match type of ER with (if ?c then _ else _) = _ => destruct c; [discriminate ER|] end.
  destruct (qname n) as [[q l]|]; [|discriminate ER]. destruct (elem_ns _ q) as [ns|]; [|discriminate ER].
  destruct (map_opt (resolve_attr _) a) as [aa|]; [|discriminate ER]. destruct (negb _); [discriminate ER|].
  destruct (map_opt (resolve _) k); [|discriminate ER]. injection ER as <-. exact I.
Qed.
Lemma aside_writable b l : Forall aside l -> Forall (portable b) l -> Forall (writable b) l /\ Forall mark_up l.
Proof.
  intros H1 H2. rewrite Forall_forall in H1, H2. split; apply Forall_forall; intros n HN; destruct (H1 n HN) as [A B].
  - apply portable_writable; auto.
  - destruct n; auto.
Qed.
(** [format_text] on a document that can be written *)
Definition writable_document (b : bool) (before after : list node) (root : node) : Prop :=
  Forall (writable b) before /\ Forall mark_up before /\ Forall (writable b) after /\ Forall mark_up after
  /\ writable b root /\ match root with El _ _ _ _ _ _ => True | _ => False end /\ resolvable [] root.
Lemma document_writable b s decl root : read_document s = Some (decl, root) -> portable b root ->
  Forall (portable b) (fst (surroundings s)) -> Forall (portable b) (snd (surroundings s)) ->
  writable_document b (fst (surroundings s)) (snd (surroundings s)) root.
Proof.
  intros H HP H1 H2. destruct (read_sound _ _ _ H) as (S1 & S2 & S3 & S4). pose proof (read_element _ _ _ H) as HE.
  destruct (aside_writable b _ S3 H1), (aside_writable b _ S4 H2).
  unfold writable_document. repeat split; auto. apply portable_writable; auto.
Qed.
Lemma writable_document_unblank b before after root p : writable_document b before after root -> writable_document b before after (unblank p root).
Proof.
  intros (H1 & H2 & H3 & H4 & H5 & H6 & H7). repeat split; auto using writable_unblank, resolvable_unblank. destruct root; try contradiction; exact I.
Qed.
Lemma format_written s decl root : read_document s = Some (decl, root) ->
  format_text s = Ok (write_document true (no_encoding decl) (fst (surroundings s)) (snd (surroundings s)) (unblank false root)).
Proof. intros H. unfold format_text. rewrite H. destruct (surroundings s). reflexivity. Qed.
Lemma format_again hex before after root : writable_document true before after root -> unspaced root ->
  format_text (write_document true hex before after (unblank false root)) = Ok (write_document true false before after (unblank false root)).
Proof.
  intros HW HU. apply (writable_document_unblank _ _ _ _ false) in HW. destruct HW as (H1 & H2 & H3 & H4 & H5 & H6 & H7).
  destruct (written_read true hex before after (unblank false root) H1 H2 H3 H4 H5 H6 H7) as (_ & R & _ & SU).
  rewrite (format_written _ _ _ R), SU. cbn [fst snd]. change (pretty true 0 (refined true (unblank false root))) with (normal true true 0 root).
  rewrite (unblank_normal true root HU). rewrite written_refined.
  replace (no_encoding (Some written_declaration)) with false by (vm_compute; reflexivity). reflexivity.
Qed.
