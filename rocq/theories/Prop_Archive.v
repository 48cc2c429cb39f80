(** Prop_Archive.v -- C74: passthrough of archives *)
From Verif Require Import Base Xml Utf8 Lxml Py LxmlStr Models AttrDef Header Progress Parser Unparser Serialise Validate Zip Dump Anonymize Commands
  SpecCommands SpecProgress SpecDocument SpecSettle SpecParse SpecAccept SpecKeep SpecZip SpecArchive DictProofs ProgressProofs Utf8Proofs LineProofs Prop_Progress Prop_Zip
  Prop_Document Prop_Settle Prop_Keep Prop_Commands.

Lemma passthrough_parts raw : passthrough_reqif raw =
  match utf8_decode raw with None => Raise EUnicodeError | Some s => let! b := parse_string s in encoded b end.
Proof.
  unfold passthrough_reqif, encoded. destruct (utf8_decode raw) as [s|]; [|reflexivity].
  assert (EU : parse_string (universal_newlines s) = parse_string s) by (unfold parse_string; rewrite parse_from_string_un; reflexivity).
  rewrite EU. reflexivity.
Qed.

(** ** Reading *)
Lemma firsts_snoc l n : forall seen, firsts seen (l ++ [n]) = firsts seen l ++ (if str_mem n seen || str_mem n l then [] else [n]).
Proof.
  induction l as [|x l IH]; intros seen; cbn [app firsts].
  - unfold str_mem at 3. cbn [existsb]. rewrite orb_false_r. destruct (str_mem n seen); reflexivity.
  - destruct (str_mem x seen) eqn:EX; rewrite IH.
    + f_equal. unfold str_mem at 4. cbn [existsb]. fold (str_mem n l). destruct (str_eqb_spec n x) as [->|_]; [|reflexivity].
      rewrite EX. reflexivity.
    + cbn [app]. do 2 f_equal. unfold str_mem at 1 4. cbn [existsb]. fold (str_mem n seen) (str_mem n l).
      destruct (str_eqb n x), (str_mem n seen), (str_mem n l); reflexivity.
Qed.
Lemma firsts_In l : forall seen n, In n (firsts seen l) <-> In n l /\ ~ In n seen.
Proof.
  induction l as [|x l IH]; intros seen n; cbn [firsts]; [cbn; tauto|].
  destruct (str_mem x seen) eqn:E.
  - rewrite IH. apply str_mem_In in E. cbn. split; [tauto|]. intros [[->|H] N]; [contradiction|tauto].
  - assert (NE : ~ In x seen) by (intros H; apply str_mem_In in H; congruence). cbn. rewrite IH. cbn.
    split; [intros [->|[H N]]; tauto|]. intros [[->|H] N]; [tauto|]. destruct (list_eq_dec N.eq_dec x n) as [->|D]; [tauto|]. tauto.
Qed.
Lemma firsts_NoDup l : forall seen, NoDup (firsts seen l).
Proof.
  induction l as [|x l IH]; intros seen; cbn [firsts]; [constructor|]. destruct (str_mem x seen); [apply IH|].
  constructor; [|apply IH]. rewrite firsts_In. cbn. tauto.
Qed.
Lemma set_present {V} (val : str -> V) l n : In n l -> dict_set (map (fun n => (Some n, val n)) l) (Some n) (val n) = map (fun n => (Some n, val n)) l.
Proof.
  induction l as [|x l IH]; intros H; [destruct H|]. cbn [map dict_set ostr_eqb].
  destruct (str_eqb_spec n x) as [->|NE]; [reflexivity|]. destruct H as [->|H]; [congruence|]. rewrite IH by exact H. reflexivity.
Qed.
Lemma set_absent {V} (val : str -> V) l n : ~ In n l ->
  dict_set (map (fun n => (Some n, val n)) l) (Some n) (val n) = map (fun n => (Some n, val n)) (l ++ [n]).
Proof.
  induction l as [|x l IH]; intros H; [reflexivity|]. cbn [map dict_set ostr_eqb app].
  destruct (str_eqb_spec n x) as [->|NE]; [exfalso; apply H; left; reflexivity|]. rewrite IH; [reflexivity|]. intros X. apply H. right. exact X.
Qed.
Lemma fill_list {V} (val : str -> V) l : fill (fun n => Some n) val l [] = map (fun n => (Some n, val n)) (firsts [] l).
Proof.
  induction l as [|n l IH] using rev_ind; [reflexivity|]. rewrite fill_app, firsts_snoc. rewrite IH. unfold fill. cbn [fold_left].
  unfold str_mem at 1. cbn [existsb orb]. destruct (str_mem n l) eqn:E.
  - rewrite app_nil_r. apply set_present, firsts_In. split; [apply str_mem_In, E|intros []].
  - apply set_absent. rewrite firsts_In. intros [H _]. apply str_mem_In in H. congruence.
Qed.
Lemma zip_all_list a z : zip_all a = Ok z ->
  z = ZBundle (map (fun n => (Some n, member_bundle a n)) (firsts [] (filter is_reqif (map fst a))))
        (map (fun n => (Some n, member_bytes a n)) (firsts [] (filter (fun n => negb (is_reqif n)) (map fst a)))).
Proof.
  intros H. unfold zip_all in H. rewrite zip_fold in H. destruct (mapM _ (map fst a)); [|discriminate]. cbn [bind z_bundles z_attachments] in H.
  rewrite !fill_list in H. congruence.
Qed.
Lemma reqifz_parts t raw : passthrough_reqifz t raw =
  match t_unzip t raw with
  | None => Raise EReqIFZParsingError
  | Some a => match zip_all a with
              | Raise _ => Raise EReqIFZParsingError
              | Ok z => let! x := mapM entry (z_bundles z) in Ok (t_zip t (x ++ map kept (z_attachments z)))
              end
  end.
Proof.
  unfold passthrough_reqifz. destruct (t_unzip t raw) as [a|]; [|reflexivity].
  destruct (zip_loop_traced a (length (map fst a)) (map fst a) 0 (ZBundle [] [])) as [T P].
  destruct T as (evs & rest & _ & _ & HN & _). rewrite P in HN. fold (zip_all a) in HN.
  assert (E : snd (zip_parse None (Some a) []) = match zip_all a with Ok z => Ok z | Raise _ => Raise EReqIFZParsingError end).
  { rewrite zip_parse_some. unfold wrap_exn. rewrite HN. destruct (zip_all a); reflexivity. }
  rewrite E. destruct (zip_all a) as [z|]; [|reflexivity]. cbn [bind].
  destruct (zip_unparse_traced z) as [T' P']. destruct T' as (evs' & rest' & _ & _ & HN' & _). rewrite P' in HN'.
  rewrite HN'. cbn [snd]. destruct (mapM entry (z_bundles z)); reflexivity.
Qed.

(** ** C74 *)
(** An archive is passed through member by member: it succeeds exactly if it does
    for every document in it, and then the members are those of [passed]. *)
Section Members.
Variable a : archive.
Hypothesis SA : Forall (sound a) (map fst a).
Let P n m := fst m = n /\ exists raw raw', holds a n (Some raw) /\ passthrough_reqif raw = Ok raw' /\ snd m = Some raw'.
Lemma entry_passed n m : In n (map fst a) -> is_reqif n = true -> (entry (Some n, member_bundle a n) = Ok m <-> P n m).
Proof.
  intros HN HR. unfold P, entry. cbn [fst snd fmt]. destruct (proj1 (Forall_forall _ _) SA n HN) as (raw & HH & HD).
  destruct (HD (proj1 (is_reqif_spec n) HR)) as (s & b & ED & EP).
  assert (EB : member_bundle a n = b) by (unfold member_bundle, member_bytes; rewrite (proj2 (read_holds a n raw) HH), ED, EP; reflexivity).
  assert (EE : passthrough_reqif raw = encoded b) by (rewrite passthrough_parts, ED, EP; reflexivity). rewrite EB. split.
  - intros H. destruct (encoded b) as [raw'|] eqn:E; [|discriminate]. cbn [bind] in H. assert (m = (n, Some raw')) by congruence. subst m.
    cbn. eauto 6.
  - intros (E1 & r & raw' & H1 & H2 & H3). pose proof (holds_fun _ _ _ _ HH H1). assert (r = raw) by congruence. subst r.
    rewrite EE in H2. rewrite H2. cbn [bind]. destruct m as [n' m']. cbn in E1, H3. subst. reflexivity.
Qed.
Lemma entries_passed l x : (forall n, In n l -> In n (map fst a) /\ is_reqif n = true) ->
  mapM entry (map (fun n => (Some n, member_bundle a n)) l) = Ok x <-> Forall2 P l x.
Proof.
  revert x. induction l as [|n l IH]; intros x H.
  - cbn. split; [intros E; assert (x = []) by congruence; subst; constructor|intros F; inversion F; reflexivity].
  - cbn [map mapM]. specialize (IH) with (1 := fun n Hn => H n (or_intror Hn)). destruct (H n (or_introl eq_refl)) as [H1 H2]. split.
    + intros E. destruct (entry (Some n, member_bundle a n)) as [m|] eqn:EN; [|discriminate]. cbn [bind] in E.
      destruct (mapM entry _) as [x'|]; [|discriminate]. cbn [bind] in E. assert (x = m :: x') by congruence. subst x.
      constructor; [apply entry_passed; assumption|apply IH; reflexivity].
    + intros F. inversion F as [|? m ? x' F1 F2]; subst. apply (entry_passed n m H1 H2) in F1. rewrite F1. cbn [bind].
      apply IH in F2. rewrite F2. reflexivity.
Qed.
Let Q n (m : str * option bytes) := fst m = n /\ exists raw, holds a n (Some raw) /\ snd m = Some raw.
Lemma kept_passed l x : (forall n, In n l -> In n (map fst a)) ->
  map kept (map (fun n => (Some n, member_bytes a n)) l) = x <-> Forall2 Q l x.
Proof.
  revert x. induction l as [|n l IH]; intros x H.
  - cbn. split; [intros <-; constructor|intros F; inversion F; reflexivity].
  - cbn [map]. specialize (IH) with (1 := fun n Hn => H n (or_intror Hn)). pose proof (H n (or_introl eq_refl)) as HN.
    destruct (proj1 (Forall_forall _ _) SA n HN) as (raw & HH & _).
    assert (EB : kept (Some n, member_bytes a n) = (n, Some raw)) by (unfold kept, member_bytes; rewrite (proj2 (read_holds a n raw) HH); reflexivity).
    rewrite EB. split.
    + intros <-. constructor; [unfold Q; cbn; eauto|apply IH; reflexivity].
    + intros F. inversion F as [|? m ? x' F1 F2]; subst. apply IH in F2. rewrite F2. f_equal. destruct F1 as (E1 & r & H1 & H2).
      pose proof (holds_fun _ _ _ _ HH H1). destruct m as [n' m']. cbn in E1, H2. congruence.
Qed.
End Members.
Lemma document_is (document : str -> bool) : (forall n, document n = true <-> reqif_name n) -> forall n, document n = is_reqif n.
Proof.
  intros H n. destruct (is_reqif n) eqn:E; [apply H, is_reqif_spec, E|]. destruct (document n) eqn:E2; [|reflexivity].
  apply H, is_reqif_spec in E2. congruence.
Qed.
Lemma passed_sound a a' : passed is_reqif a a' -> Forall (sound a) (map fst a).
Proof.
  intros (docs & others & _ & F1 & F2). apply Forall_forall. intros n Hn. unfold sound. destruct (is_reqif n) eqn:E.
  - assert (HI : In n (firsts [] (filter is_reqif (map fst a)))) by (apply firsts_In; split; [apply filter_In; auto|intros []]).
    clear - F1 HI E. induction F1 as [|x m l l' H _ IH]; [destruct HI|]. destruct HI as [->|HI]; [|auto].
    destruct H as (_ & raw & raw' & H1 & H2 & _). exists raw. split; [exact H1|]. intros _. rewrite passthrough_parts in H2.
    destruct (utf8_decode raw) as [s|]; [|discriminate]. exists s. destruct (parse_string s) as [b|]; [|discriminate]. eauto.
  - assert (HI : In n (firsts [] (filter (fun n => negb (is_reqif n)) (map fst a))))
      by (apply firsts_In; split; [apply filter_In; rewrite E; auto|intros []]).
    clear - F2 HI E. induction F2 as [|x m l l' H _ IH]; [destruct HI|]. destruct HI as [->|HI]; [|auto].
    destruct H as (_ & raw & H1 & _). exists raw. split; [exact H1|]. intros R. apply is_reqif_spec in R. congruence.
Qed.
Lemma member_by_member t raw out :
  passthrough_reqifz t raw = Ok out <-> exists a a', t_unzip t raw = Some a /\ passed is_reqif a a' /\ out = t_zip t a'.
Proof.
  rewrite reqifz_parts.
  assert (D1 : forall (a : archive) n, In n (firsts [] (filter is_reqif (map fst a))) -> In n (map fst a) /\ is_reqif n = true).
  { intros a n H. apply firsts_In in H. destruct H as [H _]. apply filter_In in H. exact H. }
  assert (D2 : forall (a : archive) n, In n (firsts [] (filter (fun n => negb (is_reqif n)) (map fst a))) -> In n (map fst a)).
  { intros a n H. apply firsts_In in H. destruct H as [H _]. apply filter_In in H. apply H. }
  split.
  - intros H. destruct (t_unzip t raw) as [a|]; [|discriminate]. destruct (zip_all a) as [z|] eqn:EZ; [|discriminate].
    pose proof (proj1 (zip_all_ok a) (ex_intro _ z EZ)) as S. apply zip_all_list in EZ. subst z. cbn [z_bundles z_attachments] in H.
    destruct (mapM entry _) as [x|] eqn:EX; [|discriminate]. cbn [bind] in H.
    eexists a, _. split; [reflexivity|]. split; [|apply (f_equal (fun r => match r with Ok v => v | Raise _ => out end)) in H; cbv beta iota in H; symmetry; exact H].
    exists x. eexists. split; [reflexivity|]. split.
    + apply (entries_passed a S _ x (D1 a)), EX.
    + apply (kept_passed a S _ _ (D2 a)). reflexivity.
  - intros (a & a' & -> & HP & ->). pose proof (passed_sound a a' HP) as S. destruct HP as (docs & others & -> & F1 & F2).
    destruct (proj2 (zip_all_ok a) S) as (z & EZ). rewrite EZ. apply zip_all_list in EZ. subst z. cbn [z_bundles z_attachments].
    apply (entries_passed a S _ docs (D1 a)) in F1. rewrite F1. cbn [bind].
    apply (kept_passed a S _ others (D2 a)) in F2. rewrite F2. reflexivity.
Qed.
Lemma passed_ext d d' a a' : (forall n, d n = d' n) -> passed d a a' -> passed d' a a'.
Proof.
  intros H (docs & others & E & F1 & F2). exists docs, others. split; [exact E|].
  rewrite (filter_ext d d' H) in F1. rewrite (filter_ext _ (fun n => negb (d' n)) (fun n => f_equal negb (H n))) in F2. auto.
Qed.
Theorem C74_member_by_member :
  forall document, (forall n, document n = true <-> reqif_name n) ->
  forall t raw out,
    passthrough_reqifz t raw = Ok out <-> exists a a', t_unzip t raw = Some a /\ passed document a a' /\ out = t_zip t a'.
Proof.
  intros document HD t raw out. rewrite member_by_member. pose proof (document_is document HD) as E.
  split; intros (a & a' & H1 & H2 & H3); exists a, a'; (split; [exact H1|split; [|exact H3]]); revert H2; apply passed_ext; intros n; auto.
Qed.

(** ** What that means for the members *)
Lemma passed_names d a a' : passed d a a' ->
  map fst a' = firsts [] (filter d (map fst a)) ++ firsts [] (filter (fun n => negb (d n)) (map fst a)).
Proof.
  intros (docs & others & -> & F1 & F2). rewrite map_app. f_equal.
  - clear - F1. induction F1 as [|n m l l' [H _] _ IH]; [reflexivity|]. cbn. congruence.
  - clear - F2. induction F2 as [|n m l l' [H _] _ IH]; [reflexivity|]. cbn. congruence.
Qed.
Lemma NoDup_parts {A} (l l' : list A) : NoDup l -> NoDup l' -> (forall x, In x l -> ~ In x l') -> NoDup (l ++ l').
Proof.
  induction 1 as [|x l H _ IH]; intros N' D; [exact N'|]. cbn. constructor.
  - intros X. apply in_app_or in X. destruct X as [X|X]; [contradiction|]. apply (D x (or_introl eq_refl) X).
  - apply IH; [exact N'|]. intros y Hy. apply D. right. exact Hy.
Qed.
Lemma passed_nodup d a a' : passed d a a' -> NoDup (map fst a').
Proof.
  intros H. rewrite (passed_names d a a' H). apply NoDup_parts; [apply firsts_NoDup|apply firsts_NoDup|].
  intros n H1 H2. apply firsts_In in H1, H2. destruct H1 as [H1 _], H2 as [H2 _]. apply filter_In in H1, H2. destruct H1 as [_ H1], H2 as [_ H2].
  rewrite H1 in H2. discriminate.
Qed.
Lemma Forall2_pick {A B} (R : A -> B -> Prop) l l' x : Forall2 R l l' -> In x l -> exists y, In y l' /\ R x y.
Proof. induction 1 as [|a b l l' H _ IH]; intros HI; [destruct HI|]. destruct HI as [->|HI]; [exists b; cbn; auto|]. destruct (IH HI) as (y & H1 & H2). exists y. cbn. auto. Qed.
(** No name is lost, added or repeated; other files keep their bytes; a document is
    what passthrough makes of it on its own. *)
Theorem C74_nothing_is_lost :
  forall document, (forall n, document n = true <-> reqif_name n) ->
  forall a a', passed document a a' ->
    NoDup (map fst a') /\ (forall n, In n (map fst a') <-> In n (map fst a))
    /\ (forall n raw, ~ reqif_name n -> holds a n (Some raw) -> holds a' n (Some raw))
    /\ (forall n raw, reqif_name n -> holds a n (Some raw) ->
          exists raw', passthrough_reqif raw = Ok raw' /\ holds a' n (Some raw')).
Proof.
  intros document HD a a' HP. pose proof (passed_nodup _ _ _ HP) as ND. pose proof (passed_names _ _ _ HP) as EN.
  assert (IN : forall n m, holds a n m -> In n (map fst a)).
  { intros n m (a1 & a2 & -> & _). rewrite map_app. apply in_or_app. right. left. reflexivity. }
  split; [exact ND|]. split; [|destruct HP as (docs & others & -> & F1 & F2); split].
  - intros n. rewrite EN, in_app_iff, !firsts_In, !filter_In. destruct (document n); cbn; intuition discriminate.
  - intros n raw HR HH. apply holds_nodup; [exact ND|]. apply in_or_app. right.
    assert (HI : In n (firsts [] (filter (fun n => negb (document n)) (map fst a)))).
    { apply firsts_In. split; [|intros []]. apply filter_In. split; [apply (IN _ _ HH)|]. destruct (document n) eqn:E; [|reflexivity]. apply HD in E. contradiction. }
    destruct (Forall2_pick _ _ _ _ F2 HI) as ([n' m'] & H1 & H2 & r & H3 & H4). cbn in H2, H4. subst n' m'.
    pose proof (holds_fun _ _ _ _ HH H3). congruence.
  - intros n raw HR HH.
    assert (HI : In n (firsts [] (filter document (map fst a)))).
    { apply firsts_In. split; [|intros []]. apply filter_In. split; [apply (IN _ _ HH)|apply HD, HR]. }
    destruct (Forall2_pick _ _ _ _ F1 HI) as ([n' m'] & H1 & H2 & r & raw' & H3 & H4 & H5). cbn in H2, H5. subst n' m'.
    pose proof (holds_fun _ _ _ _ HH H3). assert (r = raw) by congruence. subst r. exists raw'. split; [exact H4|].
    apply holds_nodup; [exact ND|]. apply in_or_app. left. exact H1.
Qed.

(** The content of the documents is kept, and a second pass changes nothing, if the
    texts in them survive being written ([plain_bundle], see C49 and C67). *)
Definition plain_documents (a : archive) : Prop :=
  forall n raw s b, reqif_name n -> holds a n (Some raw) -> utf8_decode raw = Some s -> parse_string s = Ok b ->
    exists r p u, plain_bundle r p u b.
Theorem C74_documents_are_kept :
  forall document, (forall n, document n = true <-> reqif_name n) ->
  forall a a', passed document a a' -> plain_documents a ->
    forall n raw, reqif_name n -> holds a n (Some raw) ->
      exists raw' s s' root root', holds a' n (Some raw') /\ utf8_decode raw = Some s /\ utf8_decode raw' = Some s'
        /\ document_root s = Some root /\ document_root s' = Some root' /\ document_kept root root'.
Proof.
  intros document HD a a' HP HT n raw HR HH.
  destruct (C74_nothing_is_lost document HD a a' HP) as (_ & _ & _ & H4). destruct (H4 n raw HR HH) as (raw' & E & HH').
  pose proof E as E0. rewrite passthrough_parts in E. destruct (utf8_decode raw) as [s|] eqn:ED; [|discriminate].
  destruct (parse_string s) as [b|] eqn:EP; [|discriminate]. destruct (HT n raw s b HR HH ED EP) as (r & p & u & HB).
  destruct (C67_passthrough_keeps_the_document r p u raw s b raw' ED EP HB E0) as (s' & root & root' & H5 & H6 & H7 & H8).
  exists raw', s, s', root, root'. auto 8.
Qed.
Theorem C74_second_pass_changes_nothing :
  forall document, (forall n, document n = true <-> reqif_name n) ->
  forall t raw a a', t_unzip t raw = Some a -> passed document a a' -> plain_documents a ->
    t_unzip t (t_zip t a') = Some a' ->
    passthrough_reqifz t raw = Ok (t_zip t a') /\ passthrough_reqifz t (t_zip t a') = Ok (t_zip t a').
Proof.
  intros document HD t raw a a' EU HP HT EZ. split; [apply (C74_member_by_member document HD); eauto|].
  apply (C74_member_by_member document HD). exists a', a'. split; [exact EZ|]. split; [|reflexivity].
  pose proof (passed_nodup _ _ _ HP) as ND. pose proof (passed_names _ _ _ HP) as EN.
  destruct (C74_nothing_is_lost document HD a a' HP) as (_ & _ & H3 & H4).
  set (dn := firsts [] (filter document (map fst a))) in *. set (on := firsts [] (filter (fun n => negb (document n)) (map fst a))) in *.
  assert (FD : Forall (fun n => document n = true) dn).
  { apply Forall_forall. intros n H. apply firsts_In in H. destruct H as [H _]. apply filter_In in H. apply H. }
  assert (FO : Forall (fun n => document n = false) on).
  { apply Forall_forall. intros n H. apply firsts_In in H. destruct H as [H _]. apply filter_In in H. apply negb_true_iff, H. }
  assert (ED : firsts [] (filter document (map fst a')) = dn).
  { rewrite EN, filter_app, (filter_all _ _ FD), (filter_no _ _ FO), app_nil_r. apply firsts_nodup; [apply firsts_NoDup|intros ? ? []]. }
  assert (EO : firsts [] (filter (fun n => negb (document n)) (map fst a')) = on).
  { rewrite EN, filter_app, (filter_no _ dn), (filter_all _ on); cbn [app].
    - apply firsts_nodup; [apply firsts_NoDup|intros ? ? []].
    - eapply Forall_impl; [|exact FO]. cbn. intros n ->. reflexivity.
    - eapply Forall_impl; [|exact FD]. cbn. intros n ->. reflexivity. }
  destruct HP as (docs & others & -> & F1 & F2). exists docs, others. split; [reflexivity|]. rewrite ED, EO.
  assert (M : forall A B (R R' : A -> B -> Prop) l l', Forall2 R l l' -> (forall x y, In x l -> In y l' -> R x y -> R' x y) -> Forall2 R' l l').
  { clear. induction 1 as [|x y l l' H _ IH]; intros HI; [constructor|]. constructor; [apply HI; [left; reflexivity|left; reflexivity|exact H]|].
    apply IH. intros x' y' Hx Hy. apply HI; right; assumption. }
  split.
  - apply (M _ _ _ _ _ _ F1). intros n [n' m'] HX HI (E1 & r & raw' & H5 & H6 & H7). cbn in E1, H7. subst n' m'. cbn. split; [reflexivity|].
    exists raw', raw'. split; [apply holds_nodup; [exact ND|apply in_or_app; left; exact HI]|]. split; [|reflexivity].
    assert (HR : reqif_name n) by (apply HD, (proj1 (Forall_forall _ _) FD), HX).
    pose proof H6 as H6'. rewrite passthrough_parts in H6. destruct (utf8_decode r) as [s|] eqn:EDc; [|discriminate].
    destruct (parse_string s) as [b|] eqn:EP; [|discriminate]. destruct (HT n r s b HR H5 EDc EP) as (rt & p & u & HB).
    exact (C49_passthrough_output_is_stable rt p u r s b raw' EDc EP HB H6').
  - apply (M _ _ _ _ _ _ F2). intros n [n' m'] _ HI (E1 & r & H5 & H7). cbn in E1, H7. subst n' m'. cbn. split; [reflexivity|].
    exists r. split; [|reflexivity]. apply holds_nodup; [exact ND|apply in_or_app; right; exact HI].
Qed.

(** ** The command *)
(** passthrough of an existing .reqifz file, if the output can be written: it ends
    successfully exactly if every member can be passed through, and the output is
    then the archive of [passed]; otherwise no file is touched. *)
Theorem C74_command :
  forall document, (forall n, document n = true <-> reqif_name n) ->
  forall t s cwd i o raw, ends_with ".reqifz" i = true -> fs_file s i = Some raw ->
    output_dir_missing s o = false -> fs_can_write s o = true ->
    let r := perform t s cwd (RPassthrough i o) in
    (ended r = Exit 0 <-> exists a a', t_unzip t raw = Some a /\ passed document a a')
    /\ (forall a a', t_unzip t raw = Some a -> passed document a a' -> fs_file (final s r) o = Some (t_zip t a'))
    /\ (ended r <> Exit 0 -> changes r = []).
Proof.
  intros document HD t s cwd i o raw HI HF HO HW. cbn zeta.
  assert (N : forall d, new_content t s (RPassthrough i o) = Some d <-> passthrough_reqifz t raw = Ok d).
  { intros d. cbn [new_content]. rewrite HF, HI. destruct (passthrough_reqifz t raw) as [x|]; split; intros E; congruence. }
  assert (OK : ended (perform t s cwd (RPassthrough i o)) = Exit 0 <-> exists d, passthrough_reqifz t raw = Ok d).
  { split.
    - intros E. destruct (C41_output_file t s cwd (RPassthrough i o) o eq_refl E) as (d & H & _). exists d. apply N, H.
    - intros (d & H). exact (C41_success t s cwd (RPassthrough i o) o d eq_refl (proj2 (N d) H) HO HW). }
  split; [|split].
  - rewrite OK. split.
    + intros (d & H). apply (C74_member_by_member document HD) in H. destruct H as (a & a' & H1 & H2 & _). eauto.
    + intros (a & a' & H1 & H2). exists (t_zip t a'). apply (C74_member_by_member document HD). eauto.
  - intros a a' H1 H2. assert (H : passthrough_reqifz t raw = Ok (t_zip t a')) by (apply (C74_member_by_member document HD); eauto).
    destruct (C41_output_file t s cwd (RPassthrough i o) o eq_refl (proj2 OK (ex_intro _ _ H))) as (d & H3 & H4 & _).
    apply N in H3. congruence.
  - intros E. cbn [perform] in *. unfold passthrough in *. rewrite HF, HO, HI in *. destruct (passthrough_reqifz t raw) as [x|].
    + exfalso. apply E. apply OK. eauto.
    + reflexivity.
Qed.

(** ** Example *)
(** two documents, one of them with unescaped quotes and comments, the other with
    every kind of element; one file in front of them *)
Definition raw_of (s : str) : bytes := match utf8_encode s with Some x => x | None => [] end.
Definition passed_raw (s : str) : bytes := match passthrough_reqif (raw_of s) with Ok x => x | Raise _ => [] end.
Definition two_documents : archive :=
  [("img/p.png", Some [137; 80; 78; 71]%N); ("b/settle.reqif", Some (raw_of settle_text)); ("a/keep.xml", Some (raw_of keep_text)); ("notes", Some [255%N])].
Definition two_documents_passed : archive :=
  [("b/settle.reqif", Some (passed_raw settle_text)); ("a/keep.xml", Some (passed_raw keep_text)); ("img/p.png", Some [137; 80; 78; 71]%N); ("notes", Some [255%N])].
Example C74_example :
  passed is_reqif two_documents two_documents_passed /\ plain_documents two_documents
  /\ map fst two_documents_passed <> map fst two_documents
  /\ passed_raw settle_text <> raw_of settle_text /\ 0 < length (passed_raw settle_text).
Proof.
  assert (ND : NoDup (map fst two_documents)).
  { unfold two_documents. cbn [map fst]. repeat (constructor; [cbn [In]; intros H; repeat (destruct H as [H|H]; [discriminate|]); contradiction|]). constructor. }
  split; [|split; [|split; [discriminate|split; [vm_compute; discriminate|vm_compute; lia]]]].
  - exists (firstn 2 two_documents_passed), (skipn 2 two_documents_passed). split; [reflexivity|].
    replace (firsts [] (filter is_reqif (map fst two_documents))) with ["b/settle.reqif" : str; "a/keep.xml"] by (vm_compute; reflexivity).
    replace (firsts [] (filter (fun n => negb (is_reqif n)) (map fst two_documents))) with ["img/p.png" : str; "notes"] by (vm_compute; reflexivity).
    unfold two_documents_passed. cbn [firstn skipn]. split.
    + constructor; [|constructor; [|constructor]]; (split; [reflexivity|]).
      * exists (raw_of settle_text), (passed_raw settle_text). split; [apply holds_nodup; [exact ND|unfold two_documents; cbn [In]; auto]|]. split; [vm_compute; reflexivity|reflexivity].
      * exists (raw_of keep_text), (passed_raw keep_text). split; [apply holds_nodup; [exact ND|unfold two_documents; cbn [In]; auto]|]. split; [vm_compute; reflexivity|reflexivity].
    + constructor; [|constructor; [|constructor]]; (split; [reflexivity|]).
      * eexists. split; [apply holds_nodup; [exact ND|unfold two_documents; cbn [In]; auto]|reflexivity].
      * eexists. split; [apply holds_nodup; [exact ND|unfold two_documents; cbn [In]; auto]|reflexivity].
  - intros n raw s b HR HH ED EP.
    assert (HI : In (n, Some raw) two_documents) by (destruct HH as (a1 & a2 & -> & _); apply in_or_app; right; left; reflexivity).
    unfold two_documents in HI. cbn [In] in HI. destruct HI as [E|[E|[E|[E|[]]]]].
    + exfalso. assert (n = "img/p.png") by congruence. subst n. apply is_reqif_spec in HR. discriminate.
    + assert (raw = raw_of settle_text) by congruence. subst raw.
      assert (D : utf8_decode (raw_of settle_text) = Some settle_text) by (vm_compute; reflexivity).
      rewrite D in ED. assert (s = settle_text) by congruence. subst s. destruct C49_example as (E1 & E2 & _). rewrite E1 in EP.
      assert (b = settle_bundle) by congruence. subst b. eauto.
    + assert (raw = raw_of keep_text) by congruence. subst raw.
      assert (D : utf8_decode (raw_of keep_text) = Some keep_text) by (vm_compute; reflexivity).
      rewrite D in ED. assert (s = keep_text) by congruence. subst s. destruct C67_example as (E1 & E2 & _). rewrite E1 in EP.
      assert (b = keep_bundle) by congruence. subst b. eauto.
    + exfalso. assert (n = "notes") by congruence. subst n. apply is_reqif_spec in HR. discriminate.
Qed.

Print Assumptions C74_member_by_member.
Print Assumptions C74_nothing_is_lost.
Print Assumptions C74_documents_are_kept.
Print Assumptions C74_second_pass_changes_nothing.
Print Assumptions C74_command.
