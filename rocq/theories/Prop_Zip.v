(** Prop_Zip.v -- C36, C37, C38: ReqIFZ archives *)
From Verif Require Import Base Xml Utf8 Lxml Py LxmlStr Models AttrDef Header Progress Parser Unparser
  SpecProgress DictProofs ProgressProofs Prop_Progress Zip SpecZip Utf8Proofs.

(** ** splitext *)
Lemma existsb_In c s : existsb (N.eqb c) s = true <-> In c s.
Proof.
  rewrite existsb_exists. split; [intros (x & H & E); apply N.eqb_eq in E; congruence|].
  intros H. exists c. split; [exact H|apply N.eqb_refl].
Qed.
Lemma existsb_nIn c s : existsb (N.eqb c) s = false <-> ~ In c s.
Proof. rewrite <- existsb_In. destruct (existsb _ _); split; congruence. Qed.
Lemma basename_split p : exists dir, p = dir ++ basename p /\ (dir = [] \/ exists d, dir = d ++ "/") /\ ~ In 47%N (basename p).
Proof.
  unfold basename. destruct (existsb (N.eqb 47) p) eqn:E.
  2:{ exists []. split; [reflexivity|]. split; [auto|]. apply existsb_nIn, E. }
  assert (H : exists d, p = d ++ "/" ++ after_last 47 p /\ ~ In 47%N (after_last 47 p)).
  { induction p as [|x p IH]; [discriminate|]. cbn [after_last]. destruct (existsb (N.eqb 47) p) eqn:E2.
    - destruct (IH eq_refl) as (d & E3 & N3). exists (x :: d). split; [cbn; f_equal; exact E3|exact N3].
    - cbn [existsb] in E. rewrite E2, orb_false_r in E. apply N.eqb_eq in E. subst x. rewrite N.eqb_refl.
      exists []. split; [reflexivity|]. apply existsb_nIn, E2. }
  destruct H as (d & H1 & H2). exists (d ++ "/"). rewrite <- app_assoc. split; [exact H1|]. split; [right; eauto|exact H2].
Qed.
Lemma basename_app d f : ~ In 47%N f -> basename (d ++ "/" ++ f) = f.
Proof.
  intros H. unfold basename.
  assert (E : existsb (N.eqb 47) (d ++ "/" ++ f) = true).
  { apply existsb_In, in_or_app. right. left. reflexivity. }
  rewrite E. clear E. induction d as [|x d IH].
  - transitivity (if existsb (N.eqb 47) f then after_last 47 f else f); [reflexivity|].
    apply existsb_nIn in H. rewrite H. reflexivity.
  - cbn [app after_last]. assert (E : existsb (N.eqb 47) (d ++ "/" ++ f) = true).
    { apply existsb_In, in_or_app. right. left. reflexivity. }
    change (47%N :: f) with ("/" ++ f). rewrite E. exact IH.
Qed.
Lemma ext_spec f : forall b, 
  (ext_of b f = [] /\ (b = true -> ~ In 46%N f)) \/
  exists stem r, f = stem ++ 46%N :: r /\ ~ In 46%N r /\ ext_of b f = 46%N :: r /\ (b = true \/ exists c, In c stem /\ c <> 46%N).
Proof.
  induction f as [|c f IH]; intros b; [left; split; [reflexivity|intros _ []]|]. cbn [ext_of].
  destruct (N.eqb_spec c 46) as [->|NC].
  - destruct (existsb (N.eqb 46) f) eqn:E.
    + destruct (IH b) as [[E2 N2]|(stem & r & -> & N2 & E2 & C2)].
      * left. split; [exact E2|]. intros Hb. exfalso. apply (N2 Hb). apply existsb_In, E.
      * right. exists (46%N :: stem), r. split; [reflexivity|]. split; [exact N2|]. split; [exact E2|].
        destruct C2 as [C2|(c & H1 & H2)]; [auto|]. right. exists c. cbn. auto.
    + destruct b.
      * right. exists [], f. split; [reflexivity|]. split; [apply existsb_nIn, E|]. auto.
      * left. split; [reflexivity|discriminate].
  - destruct (IH true) as [[E2 N2]|(stem & r & -> & N2 & E2 & C2)].
    + left. split; [exact E2|]. intros _ [->|H]; [congruence|]. apply (N2 eq_refl), H.
    + right. exists (c :: stem), r. split; [reflexivity|]. split; [exact N2|]. split; [exact E2|].
      right. exists c. cbn. auto.
Qed.
Lemma ext_app stem r b : ~ In 46%N r -> (b = true \/ exists c, In c stem /\ c <> 46%N) ->
  ext_of b (stem ++ 46%N :: r) = 46%N :: r.
Proof.
  revert b. induction stem as [|c stem IH]; intros b NR C; cbn [app ext_of].
  - rewrite N.eqb_refl. apply existsb_nIn in NR. rewrite NR. destruct C as [->|(c & [] & _)]. reflexivity.
  - destruct (N.eqb_spec c 46) as [->|NC].
    + assert (E : existsb (N.eqb 46) (stem ++ 46%N :: r) = true) by (apply existsb_In, in_or_app; right; left; reflexivity).
      rewrite E. apply IH; [exact NR|]. destruct C as [C|(c & [<-|H] & H2)]; [auto|congruence|right; eauto].
    + apply IH; auto.
Qed.
Lemma splitext_spec e r name : e = 46%N :: r -> ~ In 46%N r -> ~ In 47%N r -> splitext_ext name = e <-> has_extension e name.
Proof.
  intros -> N46 N47. unfold splitext_ext, has_extension. split.
  - intros E. destruct (basename_split name) as (dir & EN & HD & NB).
    destruct (ext_spec (basename name) false) as [[E2 _]|(stem & r' & EB & NR & E2 & C)]; [congruence|].
    rewrite E in E2. injection E2 as <-. exists dir, stem. rewrite EN at 1. rewrite EB. split; [reflexivity|].
    split; [exact HD|]. split.
    + intros H. apply NB. rewrite EB. apply in_or_app. auto.
    + destruct C as [C|C]; [discriminate|exact C].
  - intros (dir & stem & -> & HD & NS & C).
    assert (B : basename (dir ++ stem ++ 46%N :: r) = stem ++ 46%N :: r).
    { assert (NB : ~ In 47%N (stem ++ 46%N :: r)).
      { intros H. apply in_app_or in H. destruct H as [H|[H|H]]; [auto|discriminate|auto]. }
      destruct HD as [->|[d ->]].
      - cbn [app]. unfold basename. apply existsb_nIn in NB. rewrite NB. reflexivity.
      - rewrite <- app_assoc. apply basename_app, NB. }
    rewrite B. apply ext_app; [exact N46|]. right. exact C.
Qed.
Definition is_reqif (name : str) : bool := str_mem (splitext_ext name) [".reqif"; ".xml"].
Lemma is_reqif_spec name : is_reqif name = true <-> reqif_name name.
Proof.
  unfold is_reqif, reqif_name. rewrite str_mem_In.
  rewrite <- (splitext_spec ".reqif" "reqif"), <- (splitext_spec ".xml" "xml");
    try reflexivity; try (intros H; cbn in H; repeat (destruct H as [H|H]; [discriminate|]); exact H).
  cbn. split; [intros [H|[H|[]]]; auto|intros [H|H]; auto].
Qed.
Lemma is_reqif_false name : is_reqif name = false <-> ~ reqif_name name.
Proof. rewrite <- is_reqif_spec. destruct (is_reqif name); split; congruence. Qed.

(** ** Members *)
Lemma find_member_holds a name m : find_member a name = Some m <-> holds a name m.
Proof.
  unfold holds. revert m. induction a as [|[n x] a IH]; intros m; cbn [find_member].
  - split; [discriminate|]. intros ([|? ?] & a2 & E & _); discriminate.
  - assert (NONE : find_member a name = None <-> ~ In name (map fst a)).
    { clear IH. induction a as [|[n' x'] a IH2]; cbn; [tauto|].
      destruct (find_member a name) as [y|]; [split; [discriminate|]|].
      - intros H. exfalso. assert (~ In name (map fst a)) by tauto. apply IH2 in H0. discriminate.
      - destruct (str_eqb_spec n' name) as [->|NE]; [split; [discriminate|tauto]|]. tauto. }
    destruct (find_member a name) as [y|] eqn:E.
    + split.
      * intros H. injection H as ->. destruct (proj1 (IH m) eq_refl) as (a1 & a2 & -> & H). exists ((n, x) :: a1), a2. auto.
      * intros (a1 & a2 & EA & H). destruct a1 as [|p a1]; injection EA as EA1 EA2.
        -- subst. exfalso. apply NONE in H. congruence.
        -- apply (IH m). exists a1, a2. auto.
    + destruct (str_eqb_spec n name) as [->|NE].
      * split.
        -- intros H. injection H as ->. exists [], a. split; [reflexivity|]. apply NONE. reflexivity.
        -- intros (a1 & a2 & EA & H). destruct a1 as [|p a1]; injection EA as EA1 EA2; [congruence|].
           exfalso. apply (proj1 NONE eq_refl). subst a. rewrite map_app. apply in_or_app. right. left. reflexivity.
      * split; [discriminate|]. intros (a1 & a2 & EA & H). exfalso. destruct a1 as [|p a1]; injection EA as EA1 EA2.
        -- congruence.
        -- apply (proj1 NONE eq_refl). subst a. rewrite map_app. apply in_or_app. right. left. reflexivity.
Qed.
Lemma holds_fun a n m m' : holds a n m -> holds a n m' -> m = m'.
Proof. rewrite <- !find_member_holds. congruence. Qed.
Definition member_bytes (a : archive) (n : str) : bytes :=
  match read_member a n with Ok b => b | Raise _ => [] end.
Definition member_bundle (a : archive) (n : str) : bundle :=
  match utf8_decode (member_bytes a n) with
  | Some s => match parse_string s with Ok b => b | Raise _ => bundle_empty None None end
  | None => bundle_empty None None
  end.
Lemma read_holds a n raw : read_member a n = Ok raw <-> holds a n (Some raw).
Proof.
  unfold read_member. rewrite <- find_member_holds. destruct (find_member a n) as [[b|]|]; split; congruence.
Qed.
Lemma zip_member_sound a n z :
  (exists z', zip_member a n z = Ok z') <-> sound a n.
Proof.
  unfold zip_member, sound. split.
  - intros (z' & H). destruct (read_member a n) as [raw|e] eqn:ER; [|discriminate]. cbn [bind] in H.
    exists raw. split; [apply read_holds, ER|]. intros HR. apply is_reqif_spec in HR. unfold is_reqif in HR. rewrite HR in H.
    destruct (utf8_decode raw) as [s|]; [|discriminate]. destruct (parse_string s) as [b|] eqn:EP; [|discriminate]. eauto.
  - intros (raw & HH & HR). apply read_holds in HH. rewrite HH. cbn [bind].
    destruct (str_mem (splitext_ext n) [".reqif"; ".xml"]) eqn:E; [|eauto].
    destruct HR as (s & b & -> & ->); [apply is_reqif_spec, E|]. cbn. eauto.
Qed.
Lemma zip_fold a names z :
  foldM (zip_member a) names z =
  (let! _ := mapM (fun n => zip_member a n z) names in
   Ok (ZBundle (fill (fun n => Some n) (member_bundle a) (filter is_reqif names) (z_bundles z))
               (fill (fun n => Some n) (member_bytes a) (filter (fun n => negb (is_reqif n)) names) (z_attachments z)))).
Proof.
  assert (IND : forall n z1 z2, match zip_member a n z1, zip_member a n z2 with
    | Ok _, Ok _ => True | Raise x, Raise y => x = y | _, _ => False end).
  { intros n z1 z2. unfold zip_member. destruct (read_member a n); [|reflexivity]. cbn [bind].
    destruct (str_mem _ _); [|exact I]. destruct (utf8_decode _); [|reflexivity]. destruct (parse_string _); cbn; auto. }
  assert (MAP : forall ns z1 z2, match mapM (fun n => zip_member a n z1) ns, mapM (fun n => zip_member a n z2) ns with
    | Ok _, Ok _ => True | Raise x, Raise y => x = y | _, _ => False end).
  { induction ns as [|n ns IH]; intros z1 z2; cbn; [exact I|]. specialize (IND n z1 z2). specialize (IH z1 z2).
    destruct (zip_member a n z1), (zip_member a n z2); try contradiction; cbn; [|assumption].
    destruct (mapM (fun n => zip_member a n z1) ns), (mapM (fun n => zip_member a n z2) ns); cbn; auto. }
  revert z. induction names as [|n names IH]; intros z; [destruct z; reflexivity|].
  cbn [foldM mapM]. destruct (zip_member a n z) as [z'|x] eqn:E; [|reflexivity]. cbn [bind].
  rewrite IH. specialize (MAP names z' z).
  assert (EZ : z' = ZBundle (fill (fun n => Some n) (member_bundle a) (filter is_reqif [n]) (z_bundles z))
               (fill (fun n => Some n) (member_bytes a) (filter (fun n => negb (is_reqif n)) [n]) (z_attachments z))).
  { unfold zip_member in E. unfold is_reqif, member_bundle, member_bytes. cbn [filter].
    destruct (read_member a n) as [raw|] eqn:ER; [|discriminate]. cbn [bind] in E.
    destruct (str_mem (splitext_ext n) [".reqif"; ".xml"]); cbn [negb].
    - destruct (utf8_decode raw) as [s|] eqn:ED; [|discriminate]. destruct (parse_string s) as [b|] eqn:EP; [|discriminate].
      cbn in E. injection E as <-. unfold fill. cbn [fold_left]. rewrite ER, ED, EP. reflexivity.
    - injection E as <-. unfold fill. cbn [fold_left]. rewrite ER. reflexivity. }
  destruct (mapM (fun n => zip_member a n z') names) as [l'|x'], (mapM (fun n => zip_member a n z) names) as [l|x];
    try contradiction; cbn [bind]; [|congruence].
  subst z'. cbn [z_bundles z_attachments]. rewrite <- !fill_app, <- !filter_app. reflexivity.
Qed.
Lemma zip_loop_traced a total names : forall idx z,
  Traced (fun cb => zip_loop cb a idx total names z) (member_events (S idx) total names)
  /\ pure (fun cb => zip_loop cb a idx total names z) = foldM (zip_member a) names z.
Proof.
  induction names as [|n names IH]; intros idx z; [split; [apply traced_ret|reflexivity]|].
  cbn [zip_loop member_events].
  assert (T : forall z', Traced (fun cb => do! _ := deliver cb (Event n (idx + 1) total) in zip_loop cb a (idx + 1) total names z')
     ([Event n (S idx) total] ++ member_events (S (S idx)) total names)
     /\ pure (fun cb => do! _ := deliver cb (Event n (idx + 1) total) in zip_loop cb a (idx + 1) total names z')
        = foldM (zip_member a) names z').
  { intros z'. rewrite Nat.add_1_r. split.
    - apply (traced_bind (fun cb => deliver cb (Event n (S idx) total)) (fun cb _ => zip_loop cb a (S idx) total names z')).
      { apply traced_deliver. } intros _ _. apply IH.
    - rewrite (pure_bind (fun cb => deliver cb (Event n (S idx) total)) (fun cb _ => zip_loop cb a (S idx) total names z') _ (traced_deliver _)).
      change (pure (fun cb => deliver cb (Event n (S idx) total))) with (Ok tt). apply IH. }
  split.
  - change (Event n (S idx) total :: member_events (S (S idx)) total names)
      with ([] ++ ([Event n (S idx) total] ++ member_events (S (S idx)) total names)).
    apply (traced_bind (fun _ => lift (zip_member a n z))
      (fun cb z' => do! _ := deliver cb (Event n (idx + 1) total) in zip_loop cb a (idx + 1) total names z')).
    { apply traced_lift. } intros z' _. apply T.
  - rewrite (pure_bind (fun _ => lift (zip_member a n z))
      (fun cb z' => do! _ := deliver cb (Event n (idx + 1) total) in zip_loop cb a (idx + 1) total names z') _ (traced_lift _)).
    change (pure (fun _ : callback => lift (zip_member a n z))) with (zip_member a n z).
    cbn [foldM]. destruct (zip_member a n z) as [z'|x]; [|reflexivity]. apply T.
Qed.
Definition zip_all (a : archive) : result zbundle := foldM (zip_member a) (map fst a) (ZBundle [] []).
Lemma zip_all_ok a : (exists z, zip_all a = Ok z) <-> Forall (sound a) (map fst a).
Proof.
  unfold zip_all. rewrite zip_fold. generalize (map fst a) as names. intros names.
  transitivity (exists l, mapM (fun n => zip_member a n (ZBundle [] [])) names = Ok l).
  { destruct (mapM _ names); cbn; split; eauto; intros (? & H); discriminate. }
  induction names as [|n names IH]; cbn.
  - split; [constructor|eauto].
  - split.
    + intros (l & H). destruct (zip_member a n (ZBundle [] [])) as [z|] eqn:E; [|discriminate]. cbn in H.
      destruct (mapM (fun n0 => zip_member a n0 (ZBundle [] [])) names) as [l'|]; [|discriminate].
      constructor; [eapply zip_member_sound; eauto|]. apply IH. eauto.
    + intros H. inversion H; subst. destruct (proj2 (zip_member_sound a n (ZBundle [] []))) as (z & ->); [assumption|].
      cbn. destruct (proj2 IH) as (l & ->); [assumption|]. cbn. eauto.
Qed.
Lemma zip_parse_some cb a h :
  zip_parse cb (Some a) h = wrap_exn (fun h => zip_loop cb a 0 (length (map fst a)) (map fst a) (ZBundle [] []) h) h.
Proof. reflexivity. Qed.
Lemma zip_parse_ok cb a h h' z : zip_parse cb (Some a) h = (h', Ok z) ->
  zip_all a = Ok z /\ zip_loop cb a 0 (length (map fst a)) (map fst a) (ZBundle [] []) h = (h', Ok z).
Proof.
  rewrite zip_parse_some. unfold wrap_exn.
  destruct (zip_loop_traced a (length (map fst a)) (map fst a) 0 (ZBundle [] [])) as [T P].
  destruct (zip_loop cb a 0 (length (map fst a)) (map fst a) (ZBundle [] []) h) as [h1 [z1|x]] eqn:E; [|discriminate].
  intros H. injection H as -> ->. split; [|reflexivity].
  unfold zip_all. rewrite <- P. destruct cb as [c|].
  - destruct (traced_unaffected _ _ T c h) as (evs & _ & [[_ S]|(evs1 & e & x & _ & _ & _ & S)]); rewrite E in S; cbn in S; congruence.
  - destruct T as (evs & rest & _ & _ & HN & _). rewrite HN in E. congruence.
Qed.

(** ** C36 *)
Lemma firsts_uses names seen : firsts seen names = first_uses str_eqb seen names.
Proof.
  assert (G : forall names s1 s2, (forall x, str_mem x s1 = existsb (str_eqb x) s2) -> firsts s1 names = first_uses str_eqb s2 names).
  { clear. induction names as [|n names IH]; intros s1 s2 H; [reflexivity|]. cbn. rewrite H.
    destruct (existsb (str_eqb n) s2); [apply IH, H|]. f_equal. apply IH. intros x. cbn. rewrite existsb_app. cbn.
    rewrite <- H. unfold str_mem. rewrite orb_false_r, orb_comm. reflexivity. }
  apply G. reflexivity.
Qed.
Lemma dict_get_fill {V} (val : str -> V) names k :
  dict_get (fill (fun n => Some n) val names []) k =
  match k with Some n => if str_mem n names then Some (val n) else None | None => None end.
Proof.
  rewrite fill_get. destruct k as [n|].
  - destruct (find (fun a => ostr_eqb (Some a) (Some n)) (rev names)) as [x|] eqn:F.
    + apply find_some in F. destruct F as [F1 F2]. cbn in F2. apply str_eqb_eq in F2. subst x.
      apply in_rev in F1. apply str_mem_In in F1. rewrite F1. reflexivity.
    + destruct (str_mem n names) eqn:E; [|reflexivity]. apply str_mem_In in E. exfalso.
      apply in_rev in E. apply (List.find_none _ _ F) in E. cbn in E. rewrite str_eqb_refl in E. discriminate.
  - destruct (find _ (rev names)) as [x|] eqn:F; [|reflexivity]. apply find_some in F. destruct F as [_ F]. discriminate.
Qed.
Lemma first_uses_some seen names :
  first_uses ostr_eqb (map Some seen) (map Some names) = map Some (first_uses str_eqb seen names).
Proof.
  revert seen. induction names as [|n names IH]; intros seen; [reflexivity|]. cbn [map first_uses].
  assert (E : existsb (ostr_eqb (Some n)) (map Some seen) = existsb (str_eqb n) seen).
  { clear. induction seen as [|x l IH]; [reflexivity|]. cbn. rewrite IH. reflexivity. }
  rewrite E. destruct (existsb (str_eqb n) seen); [apply IH|]. cbn [map]. f_equal.
  specialize (IH (seen ++ [n])). rewrite map_app in IH. exact IH.
Qed.
Lemma keys_fill {V} (val : str -> V) names :
  dict_keys (fill (fun n => Some n) val names []) = map Some (firsts [] names).
Proof. rewrite fill_keys, firsts_uses. apply (first_uses_some []). Qed.
Theorem C36_members_are_partitioned :
  forall cb a h h' z, zip_parse cb (Some a) h = (h', Ok z) ->
    (* documents *)
    (forall n b, dict_get (z_bundles z) (Some n) = Some b <->
       reqif_name n /\ exists raw s, holds a n (Some raw) /\ utf8_decode raw = Some s /\ parse_string s = Ok b)
    (* attachments: unchanged bytes *)
    /\ (forall n raw, dict_get (z_attachments z) (Some n) = Some raw <-> ~ reqif_name n /\ holds a n (Some raw))
    (* nothing else, and in archive order *)
    /\ (exists document : str -> bool, (forall n, document n = true <-> reqif_name n)
          /\ dict_keys (z_bundles z) = map Some (firsts [] (filter document (map fst a)))
          /\ dict_keys (z_attachments z) = map Some (firsts [] (filter (fun n => negb (document n)) (map fst a)))).
Proof.
  intros cb a h h' z H. apply zip_parse_ok in H. destruct H as [H _].
  pose proof (proj1 (zip_all_ok a) (ex_intro _ z H)) as S. rewrite Forall_forall in S.
  unfold zip_all in H. rewrite zip_fold in H.
  destruct (mapM _ (map fst a)) as [l|]; [|discriminate]. cbn [bind] in H. injection H as <-. cbn [z_bundles z_attachments].
  split; [|split].
  - intros n b. rewrite dict_get_fill. destruct (str_mem n (filter is_reqif (map fst a))) eqn:E.
    + apply str_mem_In, filter_In in E. destruct E as [E1 E2]. apply is_reqif_spec in E2.
      destruct (S n E1) as (raw & HH & HR). destruct (HR E2) as (s & b' & ED & EP).
      unfold member_bundle, member_bytes. rewrite (proj2 (read_holds a n raw) HH), ED, EP. split.
      * intros X. injection X as <-. split; [exact E2|]. eauto.
      * intros (_ & raw' & s' & HH' & ED' & EP'). pose proof (holds_fun _ _ _ _ HH HH'). congruence.
    + split; [discriminate|]. intros (HR & raw & s & (a1 & a2 & -> & _) & _). exfalso.
      assert (X : str_mem n (filter is_reqif (map fst (a1 ++ (n, Some raw) :: a2))) = true); [|exact (eq_true_false_abs _ X E)].
      apply str_mem_In, filter_In. split; [|apply is_reqif_spec, HR]. rewrite map_app. apply in_or_app. right. left. reflexivity.
  - intros n raw. rewrite dict_get_fill. destruct (str_mem n (filter (fun n => negb (is_reqif n)) (map fst a))) eqn:E.
    + apply str_mem_In, filter_In in E. destruct E as [E1 E2]. apply negb_true_iff, is_reqif_false in E2.
      destruct (S n E1) as (raw' & HH & _). unfold member_bytes. rewrite (proj2 (read_holds a n raw') HH). split.
      * intros X. injection X as <-. auto.
      * intros (_ & HH'). pose proof (holds_fun _ _ _ _ HH HH'). congruence.
    + split; [discriminate|]. intros (HR & (a1 & a2 & -> & _)). exfalso.
      assert (X : str_mem n (filter (fun n => negb (is_reqif n)) (map fst (a1 ++ (n, Some raw) :: a2))) = true); [|exact (eq_true_false_abs _ X E)].
      apply str_mem_In, filter_In. split; [|apply negb_true_iff, is_reqif_false, HR]. rewrite map_app. apply in_or_app. right. left. reflexivity.
  - exists is_reqif. split; [apply is_reqif_spec|]. rewrite !keys_fill. auto.
Qed.

Theorem C36_progress_per_member :
  forall c a h h' z, zip_parse (Some c) (Some a) h = (h', Ok z) ->
    h' = h ++ member_events 1 (length a) (map fst a).
Proof.
  intros c a h h' z H. apply zip_parse_ok in H. destruct H as [_ H]. rewrite map_length in H.
  exact (traced_success _ _ (proj1 (zip_loop_traced a (length a) (map fst a) 0 (ZBundle [] []))) c h h' z H).
Qed.

(** ** C37 *)
Theorem C37_all_failures_wrapped :
  forall cb file h h' e, zip_parse cb file h = (h', Raise e) -> e = EReqIFZParsingError.
Proof.
  intros cb file h h' e. unfold zip_parse, wrap_exn.
  match goal with |- (match ?m with (_, _) => _ end = _) -> _ => destruct m as [h1 [z|x]] end; [discriminate|]. congruence.
Qed.
Lemma traced_Ok {A} (m : callback -> M A) full : Traced m full ->
  forall c h x, snd (m (Some c) h) = Ok x <-> pure m = Ok x /\ calls_ok c h full.
Proof.
  intros (evs & rest & -> & HR & HN & HS) c h x. rewrite HS.
  destruct (play_shape c h evs (pure m)) as [[H1 H2]|(evs1 & e1 & r & y & -> & H1 & H2 & H3)].
  - rewrite H2. cbn [snd]. split; [|tauto]. intros H. split; [exact H|]. rewrite HR, app_nil_r; [exact H1|]. rewrite H. exact I.
  - rewrite H3. cbn [snd]. split; [discriminate|]. intros [_ H]. exfalso.
    assert (X : c (h ++ evs1) e1 = None); [|congruence]. apply (H evs1 e1 (r ++ rest)). rewrite <- app_assoc. reflexivity.
Qed.
(** Reading fails exactly when the file is no archive, a member cannot be read,
    a document cannot be decoded or parsed, or a call of the callback raises. *)
Theorem C37_reading_succeeds_iff :
  forall c file h,
    (exists z, snd (zip_parse (Some c) file h) = Ok z) <->
    exists a, file = Some a /\ Forall (sound a) (map fst a)
              /\ calls_ok c h (member_events 1 (length a) (map fst a)).
Proof.
  intros c [a|] h.
  2:{ split; [intros (z & H); discriminate|intros (a & H & _); discriminate]. }
  destruct (zip_loop_traced a (length (map fst a)) (map fst a) 0 (ZBundle [] [])) as [T P].
  transitivity (exists z, snd (zip_loop (Some c) a 0 (length (map fst a)) (map fst a) (ZBundle [] []) h) = Ok z).
  { rewrite zip_parse_some. unfold wrap_exn.
    destruct (zip_loop (Some c) a 0 (length (map fst a)) (map fst a) (ZBundle [] []) h) as [h' [z|x]];
      cbn [snd]; split; try (intros (z' & H); discriminate); eauto. }
  transitivity (exists z, zip_all a = Ok z /\ calls_ok c h (member_events 1 (length (map fst a)) (map fst a))).
  { unfold zip_all. rewrite <- P. split; intros (z & H); exists z.
    - apply (traced_Ok _ _ T c h z), H.
    - apply (traced_Ok _ _ T c h z), H. }
  rewrite map_length. split.
  - intros (z & H1 & H2). exists a. split; [reflexivity|]. split; [apply zip_all_ok; eauto|exact H2].
  - intros (a' & E & H1 & H2). injection E as <-. apply zip_all_ok in H1. destruct H1 as (z & H1). eauto.
Qed.
Theorem C37_reading_without_callback_succeeds_iff :
  forall file h,
    (exists z, zip_parse None file h = (h, Ok z)) <->
    exists a, file = Some a /\ Forall (sound a) (map fst a).
Proof.
  intros [a|] h.
  2:{ split; [intros (z & H); discriminate|intros (a & H & _); discriminate]. }
  destruct (zip_loop_traced a (length (map fst a)) (map fst a) 0 (ZBundle [] [])) as [T P].
  destruct T as (evs & rest & _ & _ & HN & _). rewrite P in HN. fold (zip_all a) in HN. split.
  - intros (z & H). exists a. split; [reflexivity|]. apply zip_all_ok. exists z.
    rewrite zip_parse_some in H. unfold wrap_exn in H. rewrite HN in H. destruct (zip_all a); congruence.
  - intros (a' & E & H). injection E as <-. apply zip_all_ok in H. destruct H as (z & H). exists z.
    rewrite zip_parse_some. unfold wrap_exn. rewrite HN, H. reflexivity.
Qed.

(** ** C38 *)
Definition encoded (b : bundle) : result bytes :=
  let! s := unparse_string b in
  match utf8_encode s with Some x => Ok x | None => Raise EUnicodeError end.
Definition entry (p : option str * bundle) : result (str * option bytes) :=
  let! raw := encoded (snd p) in Ok (fmt (fst p), Some raw).
Definition kept (p : option str * bytes) : str * option bytes := (fmt (fst p), Some (snd p)).
Lemma write_bundles_traced l : forall n total a,
  Traced (fun cb => write_bundles cb n total l a) (member_events (S n) total (map (fun p => fmt (fst p)) l))
  /\ pure (fun cb => write_bundles cb n total l a) = let! x := mapM entry l in Ok (n + length l, a ++ x).
Proof.
  induction l as [|[k b] l IH]; intros n total a; cbn [write_bundles map member_events mapM length fst].
  { split; [apply traced_ret|]. cbn. rewrite Nat.add_0_r, app_nil_r. reflexivity. }
  assert (T : forall raw, Traced (fun cb => do! _ := deliver cb (Event (key_name k) (n + 1) total) in
       write_bundles cb (n + 1) total l (a ++ [(key_name k, Some raw)]))
     ([Event (fmt k) (S n) total] ++ member_events (S (S n)) total (map (fun p => fmt (fst p)) l))
     /\ pure (fun cb => do! _ := deliver cb (Event (key_name k) (n + 1) total) in
       write_bundles cb (n + 1) total l (a ++ [(key_name k, Some raw)]))
        = let! x := mapM entry l in Ok (n + S (length l), a ++ (fmt k, Some raw) :: x)).
  { intros raw. rewrite Nat.add_1_r. destruct (IH (S n) total (a ++ [(key_name k, Some raw)])) as [IH1 IH2]. split.
    - apply (traced_bind (fun cb => deliver cb (Event (key_name k) (S n) total))
        (fun cb _ => write_bundles cb (S n) total l (a ++ [(key_name k, Some raw)]))).
      { apply traced_deliver. } intros _ _. exact IH1.
    - rewrite (pure_bind (fun cb => deliver cb (Event (key_name k) (S n) total))
        (fun cb _ => write_bundles cb (S n) total l (a ++ [(key_name k, Some raw)])) _ (traced_deliver _)).
      change (pure (fun cb => deliver cb (Event (key_name k) (S n) total))) with (Ok tt). cbv iota beta. rewrite IH2.
      destruct (mapM entry l); cbn [bind]; [|reflexivity]. rewrite <- app_assoc. cbn [app].
      rewrite Nat.add_succ_r. reflexivity. }
  split.
  - change (Event (fmt k) (S n) total :: member_events (S (S n)) total (map (fun p => fmt (fst p)) l))
      with ([] ++ [] ++ ([Event (fmt k) (S n) total] ++ member_events (S (S n)) total (map (fun p => fmt (fst p)) l))).
    apply (traced_bind (fun _ => lift (unparse_string b)) (fun cb s =>
      do! raw := lift (match utf8_encode s with Some x => Ok x | None => Raise EUnicodeError end) in
      do! _ := deliver cb (Event (key_name k) (n + 1) total) in
      write_bundles cb (n + 1) total l (a ++ [(key_name k, Some raw)]))).
    { apply traced_lift. } intros s _.
    apply (traced_bind (fun _ => lift (match utf8_encode s with Some x => Ok x | None => Raise EUnicodeError end)) (fun cb raw =>
      do! _ := deliver cb (Event (key_name k) (n + 1) total) in
      write_bundles cb (n + 1) total l (a ++ [(key_name k, Some raw)]))).
    { apply traced_lift. } intros raw _. apply T.
  - rewrite (pure_bind (fun _ => lift (unparse_string b)) (fun cb s =>
      do! raw := lift (match utf8_encode s with Some x => Ok x | None => Raise EUnicodeError end) in
      do! _ := deliver cb (Event (key_name k) (n + 1) total) in
      write_bundles cb (n + 1) total l (a ++ [(key_name k, Some raw)])) _ (traced_lift _)).
    change (pure (fun _ : callback => lift (unparse_string b))) with (unparse_string b).
    unfold entry at 1, encoded. cbn [snd]. destruct (unparse_string b) as [s|x]; [|reflexivity]. cbn [bind].
    rewrite (pure_bind (fun _ => lift (match utf8_encode s with Some x => Ok x | None => Raise EUnicodeError end)) (fun cb raw =>
      do! _ := deliver cb (Event (key_name k) (n + 1) total) in
      write_bundles cb (n + 1) total l (a ++ [(key_name k, Some raw)])) _ (traced_lift _)).
    change (pure (fun _ : callback => lift (match utf8_encode s with Some x => Ok x | None => Raise EUnicodeError end)))
      with (match utf8_encode s with Some x => Ok x | None => @Raise bytes EUnicodeError end).
    destruct (utf8_encode s) as [raw|]; [|reflexivity]. cbn [bind]. rewrite (proj2 (T raw)).
    destruct (mapM entry l); reflexivity.
Qed.
Lemma write_attachments_traced l : forall n total a,
  Traced (fun cb => write_attachments cb n total l a) (member_events (S n) total (map (fun p => fmt (fst p)) l))
  /\ pure (fun cb => write_attachments cb n total l a) = Ok (n + length l, a ++ map kept l).
Proof.
  induction l as [|[k b] l IH]; intros n total a; cbn [write_attachments map member_events length fst].
  { split; [apply traced_ret|]. cbn. rewrite Nat.add_0_r, app_nil_r. reflexivity. }
  rewrite Nat.add_1_r. destruct (IH (S n) total (a ++ [(key_name k, Some b)])) as [IH1 IH2]. split.
  - apply (traced_bind (fun cb => deliver cb (Event (key_name k) (S n) total))
      (fun cb _ => write_attachments cb (S n) total l (a ++ [(key_name k, Some b)])) [Event (fmt k) (S n) total]).
    { apply traced_deliver. } intros _ _. exact IH1.
  - rewrite (pure_bind (fun cb => deliver cb (Event (key_name k) (S n) total))
      (fun cb _ => write_attachments cb (S n) total l (a ++ [(key_name k, Some b)])) _ (traced_deliver _)).
    change (pure (fun cb => deliver cb (Event (key_name k) (S n) total))) with (Ok tt). cbv iota beta. rewrite IH2.
    rewrite <- app_assoc. cbn [app]. rewrite Nat.add_succ_r. reflexivity.
Qed.
Definition names_of (z : zbundle) : list str :=
  map (fun p => fmt (fst p)) (z_bundles z) ++ map (fun p => fmt (fst p)) (z_attachments z).
Lemma member_events_app k total l1 l2 :
  member_events k total (l1 ++ l2) = member_events k total l1 ++ member_events (length l1 + k) total l2.
Proof.
  revert k. induction l1 as [|n l1 IH]; intros k; [reflexivity|]. cbn. rewrite IH, Nat.add_succ_r. reflexivity.
Qed.
Lemma zip_unparse_traced z :
  Traced (fun cb => zip_unparse cb z) (member_events 1 (length (z_bundles z) + length (z_attachments z)) (names_of z))
  /\ pure (fun cb => zip_unparse cb z) = let! x := mapM entry (z_bundles z) in Ok (x ++ map kept (z_attachments z)).
Proof.
  unfold zip_unparse, names_of. set (total := length (z_bundles z) + length (z_attachments z)).
  destruct (write_bundles_traced (z_bundles z) 0 total []) as [T1 P1]. cbn [Nat.add app] in P1.
  rewrite member_events_app. split.
  - apply (traced_bind (fun cb => write_bundles cb 0 total (z_bundles z) [])
      (fun cb p => let '(n, a) := p in do! (_, a2) := write_attachments cb n total (z_attachments z) a in ret a2) _ _ T1).
    intros [n a] H. rewrite P1 in H. destruct (mapM entry (z_bundles z)) as [x|]; [|discriminate]. cbn in H. injection H as <- <-.
    rewrite map_length, Nat.add_1_r.
    rewrite <- (app_nil_r (member_events _ _ _)).
    apply (traced_bind (fun cb => write_attachments cb (length (z_bundles z)) total (z_attachments z) x)
      (fun cb p => let '(_, a2) := p in ret a2)).
    { apply write_attachments_traced. } intros [? ?] _. apply traced_ret.
  - rewrite (pure_bind (fun cb => write_bundles cb 0 total (z_bundles z) [])
      (fun cb p => let '(n, a) := p in do! (_, a2) := write_attachments cb n total (z_attachments z) a in ret a2) _ T1).
    rewrite P1. destruct (mapM entry (z_bundles z)) as [x|]; [|reflexivity]. cbn [bind].
    rewrite (pure_bind (fun cb => write_attachments cb (length (z_bundles z)) total (z_attachments z) x)
      (fun cb p => let '(_, a2) := p in ret a2) _ (proj1 (write_attachments_traced _ _ _ _))).
    rewrite (proj2 (write_attachments_traced _ _ _ _)). reflexivity.
Qed.
Lemma zip_unparse_ok cb z h h' a : zip_unparse cb z h = (h', Ok a) ->
  exists x, mapM entry (z_bundles z) = Ok x /\ a = x ++ map kept (z_attachments z).
Proof.
  intros H. destruct (zip_unparse_traced z) as [T P].
  assert (E : pure (fun cb => zip_unparse cb z) = Ok a).
  { destruct cb as [c|].
    - apply (traced_Ok _ _ T c h a). cbv beta. rewrite H. reflexivity.
    - destruct T as (evs & rest & _ & _ & HN & _). rewrite HN in H. congruence. }
  rewrite P in E. destruct (mapM entry (z_bundles z)) as [x|]; [|discriminate]. injection E as <-. eauto.
Qed.
(** the texts written for the documents, then the attachments, each under its name *)
Theorem C38_written_members :
  forall cb z h h' a, zip_unparse cb z h = (h', Ok a) ->
    exists docs, a = docs ++ map (fun p => (fmt (fst p), Some (snd p))) (z_attachments z)
      /\ Forall2 (fun p m => fst m = fmt (fst p) /\ exists s raw, unparse_string (snd p) = Ok s
                              /\ utf8_encode s = Some raw /\ snd m = Some raw) (z_bundles z) docs.
Proof.
  intros cb z h h' a H. apply zip_unparse_ok in H. destruct H as (x & H & ->). exists x. split; [reflexivity|].
  revert x H. induction (z_bundles z) as [|[k b] l IH]; intros x H; cbn in H.
  { injection H as <-. constructor. }
  unfold entry at 1, encoded in H. cbn [snd fst] in H. destruct (unparse_string b) as [s|] eqn:ES; [|discriminate]. cbn in H.
  destruct (utf8_encode s) as [raw|] eqn:EE; [|discriminate]. cbn in H.
  destruct (mapM entry l) as [x'|]; [|discriminate]. cbn in H. injection H as <-.
  constructor; [cbn; eauto 8|auto].
Qed.
Theorem C38_write_progress :
  forall c z h h' a, zip_unparse (Some c) z h = (h', Ok a) ->
    h' = h ++ member_events 1 (length (z_bundles z) + length (z_attachments z)) (map fst a).
Proof.
  intros c z h h' a H. pose proof (zip_unparse_ok _ _ _ _ _ H) as (x & EX & ->).
  rewrite (traced_success _ _ (proj1 (zip_unparse_traced z)) c h h' _ H). f_equal. f_equal.
  unfold names_of. rewrite map_app, map_map. f_equal. clear H.
  revert x EX. induction (z_bundles z) as [|[k b] l IH]; intros x EX; cbn in EX.
  { injection EX as <-. reflexivity. }
  unfold entry at 1 in EX. cbn [snd fst] in EX. destruct (encoded b) as [raw|] eqn:ES; [|discriminate]. cbn in EX.
  destruct (mapM entry l) as [x'|]; [|discriminate]. cbn in EX. injection EX as <-. cbn. f_equal. auto.
Qed.
(** a ReqIFZ bundle as one would build it: distinct names, documents under
    document names, attachments under other names *)
Definition well_named (z : zbundle) : Prop :=
  NoDup (dict_keys (z_bundles z)) /\ NoDup (dict_keys (z_attachments z))
  /\ (forall k, In k (dict_keys (z_bundles z)) -> exists n, k = Some n /\ reqif_name n)
  /\ (forall k, In k (dict_keys (z_attachments z)) -> exists n, k = Some n /\ ~ reqif_name n).
Lemma find_member_mid a1 n m a2 : ~ In n (map fst a2) -> find_member (a1 ++ (n, m) :: a2) n = Some m.
Proof. intros H. apply find_member_holds. exists a1, a2. auto. Qed.
Lemma str_mem_false x l : ~ In x l -> str_mem x l = false.
Proof. intros H. destruct (str_mem x l) eqn:E; [|reflexivity]. exfalso. apply H, str_mem_In, E. Qed.
Lemma firsts_nodup names : forall seen, NoDup names -> (forall x, In x names -> ~ In x seen) -> firsts seen names = names.
Proof.
  induction names as [|n names IH]; intros seen ND H; [reflexivity|]. inversion ND; subst. cbn [firsts].
  rewrite str_mem_false by (apply H; left; reflexivity). f_equal. apply IH; [assumption|].
  intros x Hx [->|Hs]; [contradiction|]. apply (H x); [right; exact Hx|exact Hs].
Qed.
Lemma dict_by_keys {V} (R : V -> V -> Prop) (d d' : dict V) :
  NoDup (dict_keys d) -> dict_keys d' = dict_keys d ->
  (forall k v, In (k, v) d -> exists v', dict_get d' k = Some v' /\ R v v') ->
  Forall2 (fun p q => fst p = fst q /\ R (snd p) (snd q)) d d'.
Proof.
  revert d'. induction d as [|[k v] d IH]; intros [|[k' v'] d'] ND EK H; try discriminate; [constructor|].
  cbn in EK. injection EK as -> EK. inversion ND; subst. constructor.
  - cbn. split; [reflexivity|]. destruct (H k v) as (w & Hw & HR); [left; reflexivity|]. cbn in Hw.
    rewrite ostr_eqb_refl in Hw. congruence.
  - apply IH; [assumption|exact EK|]. intros k0 v0 H0. destruct (H k0 v0) as (w & Hw & HR); [right; exact H0|].
    exists w. split; [|exact HR]. cbn in Hw. destruct (ostr_eqb k0 k) eqn:E; [|exact Hw]. apply ostr_eqb_eq in E. subst k0.
    exfalso. apply H2. apply in_map_iff. exists (k, v0). auto.
Qed.
Lemma some_keys {V} (P : str -> Prop) (d : dict V) : (forall k, In k (dict_keys d) -> exists n, k = Some n /\ P n) ->
  exists names, dict_keys d = map Some names /\ Forall P names /\ map (fun p => fmt (fst p)) d = names.
Proof.
  unfold dict_keys. induction d as [|[k v] d IH]; intros H; [exists []; repeat split; constructor|].
  destruct (H k) as (n & -> & Hn); [left; reflexivity|]. destruct IH as (names & E1 & E2 & E3).
  { intros k Hk. apply H. right. exact Hk. }
  exists (n :: names). cbn. rewrite E1, E3. repeat split. constructor; assumption.
Qed.
Lemma filter_all {A} (f : A -> bool) l : Forall (fun x => f x = true) l -> filter f l = l.
Proof. induction 1 as [|x l H _ IH]; [reflexivity|]. cbn. rewrite H, IH. reflexivity. Qed.
Lemma filter_no {A} (f : A -> bool) l : Forall (fun x => f x = false) l -> filter f l = [].
Proof. induction 1 as [|x l H _ IH]; [reflexivity|]. cbn. rewrite H. exact IH. Qed.
Lemma NoDup_map_some (l : list str) : NoDup (map Some l) -> NoDup l.
Proof.
  induction l as [|x l IH]; intros H; [constructor|]. inversion H; subst. constructor; [|auto].
  intros X. apply H2. apply in_map. exact X.
Qed.
Lemma holds_nodup a n m : NoDup (map fst a) -> In (n, m) a -> holds a n m.
Proof.
  intros ND H. apply in_split in H. destruct H as (a1 & a2 & ->). exists a1, a2. split; [reflexivity|].
  rewrite map_app in ND. apply NoDup_remove in ND. intros X. apply (proj2 ND). apply in_or_app. right. exact X.
Qed.
(** Writing and reading back: same names in the same order, same attachment
    bytes, and for each document what parsing its own text gives. *)
Theorem C38_archive_round_trip :
  forall cb z h h' a h1,
    zip_unparse cb z h = (h', Ok a) -> well_named z ->
    (forall k b s, In (k, b) (z_bundles z) -> unparse_string b = Ok s -> exists b', parse_string s = Ok b') ->
    exists z', zip_parse None (Some a) h1 = (h1, Ok z')
      /\ z_attachments z' = z_attachments z
      /\ Forall2 (fun p q => fst p = fst q /\ exists s, unparse_string (snd p) = Ok s /\ parse_string s = Ok (snd q))
                 (z_bundles z) (z_bundles z').
Proof.
  intros cb z h h' a h1 HU (ND1 & ND2 & K1 & K2) HP.
  destruct (some_keys _ _ K1) as (bn & EB & FB & EB2). destruct (some_keys _ _ K2) as (an & EA & FA & EA2).
  destruct (C38_written_members _ _ _ _ _ HU) as (docs & -> & HD).
  set (a := docs ++ _) in *.
  assert (ED : map fst docs = bn).
  { rewrite <- EB2. clear - HD. induction HD as [|p m l l' [H _] _ IH]; [reflexivity|]. cbn [map]. f_equal; [exact H|exact IH]. }
  assert (EN : map fst a = bn ++ an).
  { unfold a. rewrite map_app, ED, map_map. cbn [fst]. rewrite EA2. reflexivity. }
  assert (NDN : NoDup (map fst a)).
  { rewrite EN. rewrite EB in ND1. rewrite EA in ND2. apply NoDup_map_some in ND1, ND2. clear - ND1 ND2 FB FA.
    induction ND1 as [|n bn Hn ND1 IH]; [exact ND2|]. inversion FB; subst. cbn. constructor; [|auto].
    intros H. apply in_app_or in H. destruct H as [H|H]; [contradiction|]. rewrite Forall_forall in FA. apply (FA n H). assumption. }
  (* what the archive holds for a bundle and for an attachment *)
  assert (HB : forall k b, In (k, b) (z_bundles z) -> exists n s b' raw, k = Some n /\ reqif_name n
     /\ unparse_string b = Ok s /\ parse_string s = Ok b' /\ utf8_decode raw = Some s /\ holds a n (Some raw)).
  { intros k b H. destruct (K1 k) as (n & -> & RN); [apply in_map_iff; exists (k, b); auto|].
    assert (X : exists m, In m docs /\ fst m = fmt (Some n) /\ exists s raw, unparse_string b = Ok s
                              /\ utf8_encode s = Some raw /\ snd m = Some raw).
    { clear - HD H. induction HD as [|p m l l' HM _ IH]; [destruct H|]. destruct H as [->|H].
      - exists m. cbn in HM. split; [left; reflexivity|exact HM].
      - destruct (IH H) as (m' & H1 & H2). exists m'. split; [right; exact H1|exact H2]. }
    destruct X as ([n' m] & HI & En & s & raw & E1 & E2 & E3). cbn in En, E3. subst n' m.
    destruct (HP _ _ _ H E1) as (b' & E4). exists n, s, b', raw.
    split; [reflexivity|]. split; [exact RN|]. split; [exact E1|]. split; [exact E4|]. split; [apply decode_encode, E2|].
    apply holds_nodup; [exact NDN|]. apply in_or_app. left. exact HI. }
  assert (HA : forall k raw, In (k, raw) (z_attachments z) -> exists n, k = Some n /\ ~ reqif_name n /\ holds a n (Some raw)).
  { intros k raw H. destruct (K2 k) as (n & -> & RN); [apply in_map_iff; exists (k, raw); auto|]. exists n.
    split; [reflexivity|]. split; [exact RN|]. apply holds_nodup; [exact NDN|]. apply in_or_app. right.
    apply in_map_iff. exists (Some n, raw). auto. }
  assert (S : Forall (sound a) (map fst a)).
  { rewrite EN. apply Forall_app. split; apply Forall_forall; intros n Hn.
    - rewrite <- EB2 in Hn. apply in_map_iff in Hn. destruct Hn as ([k b] & E & Hn).
      destruct (HB k b Hn) as (n' & s & b' & raw & -> & RN & _ & E4 & E5 & HH). cbn in E. subst n'.
      exists raw. split; [exact HH|]. eauto.
    - rewrite <- EA2 in Hn. apply in_map_iff in Hn. destruct Hn as ([k b] & E & Hn).
      destruct (HA k b Hn) as (n' & -> & RN & HH). cbn in E. subst n'. exists b. split; [exact HH|]. intros X. contradiction. }
  destruct (proj2 (C37_reading_without_callback_succeeds_iff (Some a) h1)) as (z' & HZ); [eauto|].
  exists z'. split; [exact HZ|].
  destruct (C36_members_are_partitioned _ _ _ _ _ HZ) as (G1 & G2 & document & HDoc & KB & KA).
  assert (DB : Forall (fun n => document n = true) bn).
  { apply Forall_forall. intros n Hn. apply HDoc. rewrite Forall_forall in FB. auto. }
  assert (DA : Forall (fun n => document n = false) an).
  { apply Forall_forall. intros n Hn. destruct (document n) eqn:E; [|reflexivity]. apply HDoc in E.
    rewrite Forall_forall in FA. exfalso. exact (FA n Hn E). }
  assert (DB2 : Forall (fun n => negb (document n) = false) bn).
  { eapply Forall_impl; [|exact DB]. cbn. intros n ->. reflexivity. }
  assert (DA2 : Forall (fun n => negb (document n) = true) an).
  { eapply Forall_impl; [|exact DA]. cbn. intros n ->. reflexivity. }
  assert (KB' : dict_keys (z_bundles z') = map Some (firsts [] (filter document (bn ++ an)))) by (rewrite <- EN; exact KB).
  assert (KA' : dict_keys (z_attachments z') = map Some (firsts [] (filter (fun n => negb (document n)) (bn ++ an)))) by (rewrite <- EN; exact KA).
  clear KB KA. rename KB' into KB, KA' into KA.
  rewrite filter_app, (filter_all _ _ DB), (filter_no _ _ DA), app_nil_r in KB.
  rewrite filter_app, (filter_no _ _ DB2), (filter_all _ _ DA2) in KA. cbn [app] in KA.
  assert (NB : NoDup bn) by (apply NoDup_map_some; rewrite <- EB; exact ND1).
  assert (NA : NoDup an) by (apply NoDup_map_some; rewrite <- EA; exact ND2).
  rewrite firsts_nodup in KB by (auto; intros ? ? []). rewrite firsts_nodup in KA by (auto; intros ? ? []).
  split.
  - assert (F : Forall2 (fun p q => fst p = fst q /\ snd p = snd q) (z_attachments z) (z_attachments z')).
    { apply (dict_by_keys eq); [exact ND2|rewrite KA, EA; reflexivity|]. intros k raw H.
      destruct (HA k raw H) as (n & -> & RN & HH). exists raw. split; [|reflexivity]. apply G2. auto. }
    clear - F. induction F as [|[k v] [k' v'] l l' [H1 H2] _ IH]; [reflexivity|]. cbn in H1, H2. congruence.
  - apply (dict_by_keys (fun b b' => exists s, unparse_string b = Ok s /\ parse_string s = Ok b'));
      [exact ND1|rewrite KB, EB; reflexivity|]. intros k b H.
    destruct (HB k b H) as (n & s & b' & raw & -> & RN & E1 & E4 & E5 & HH). exists b'. split; [|eauto].
    apply G1. split; [exact RN|]. eauto.
Qed.

(** ** Concrete cases *)
Definition document_bytes : bytes := match utf8_encode sample_text with Some b => b | None => [] end.
Definition sample_archive : archive :=
  [("a/readme.txt", Some [1; 2; 200]%N); ("a/doc.reqif", Some document_bytes); (".xml", Some [255%N]);
   ("b/..reqif", Some []); ("x.XML", Some [7%N])].
Example C36_example :
  fst (zip_parse (Some recorder) (Some sample_archive) []) = [Event "a/readme.txt" 1 5; Event "a/doc.reqif" 2 5; Event ".xml" 3 5; Event "b/..reqif" 4 5; Event "x.XML" 5 5]
  /\ option_map (fun z => (dict_keys (z_bundles z), z_attachments z))
        (match snd (zip_parse (Some recorder) (Some sample_archive) []) with Ok z => Some z | Raise _ => None end)
     = Some ([Some "a/doc.reqif"],
        [(Some "a/readme.txt", [1; 2; 200]%N); (Some ".xml", [255%N]); (Some "b/..reqif", []); (Some "x.XML", [7%N])]).
Proof. vm_compute. auto. Qed.
Example C36_example_names : reqif_name "a/doc.reqif" /\ ~ reqif_name ".xml" /\ ~ reqif_name "x.XML".
Proof.
  split; [apply is_reqif_spec; reflexivity|]. split; apply is_reqif_false; reflexivity.
Qed.
Example C37_example :
  (* an undecodable document, a broken one, a callback that raises, a bad member, no archive *)
  snd (zip_parse None (Some [("d.xml", Some [255%N])]) []) = Raise EReqIFZParsingError
  /\ snd (zip_parse None (Some [("d.xml", Some "<REQ-IF")]) []) = Raise EReqIFZParsingError
  /\ snd (zip_parse (Some (fun _ _ => Some (EUser 3))) (Some sample_archive) []) = Raise EReqIFZParsingError
  /\ snd (zip_parse None (Some [("d.txt", None)]) []) = Raise EReqIFZParsingError
  /\ snd (zip_parse None None []) = Raise EReqIFZParsingError.
Proof. vm_compute. auto 6. Qed.
Definition sample_z : zbundle :=
  match snd (zip_parse None (Some sample_archive) []) with Ok z => z | Raise _ => ZBundle [] [] end.
Definition sample_written : archive := match snd (zip_unparse None sample_z []) with Ok a => a | Raise _ => [] end.
Definition reparses (b : bundle) : bool :=
  match unparse_string b with Ok s => is_okb (parse_string s) | Raise _ => true end.
Lemma reparses_ok b s : reparses b = true -> unparse_string b = Ok s -> exists b', parse_string s = Ok b'.
Proof. unfold reparses. intros H E. rewrite E in H. destruct (parse_string s); [eauto|discriminate]. Qed.
Example C38_example :
  well_named sample_z /\ snd (zip_unparse None sample_z []) = Ok sample_written
    /\ (forall k b s, In (k, b) (z_bundles sample_z) -> unparse_string b = Ok s -> exists b', parse_string s = Ok b')
    /\ length (z_bundles sample_z) = 1 /\ length (z_attachments sample_z) = 4 /\ length sample_written = 5.
Proof.
  assert (EB : dict_keys (z_bundles sample_z) = [Some "a/doc.reqif"]) by (vm_compute; reflexivity).
  assert (EA : dict_keys (z_attachments sample_z) = [Some "a/readme.txt"; Some ".xml"; Some "b/..reqif"; Some "x.XML"])
    by (vm_compute; reflexivity).
  split; [|split; [vm_compute; reflexivity|split; [|vm_compute; auto]]].
  - unfold well_named. rewrite EB, EA.
    split; [repeat constructor; cbn; intuition discriminate|]. split; [repeat constructor; cbn; intuition discriminate|].
    split.
    + intros k [<-|[]]. eexists. split; [reflexivity|]. apply is_reqif_spec. vm_compute. reflexivity.
    + intros k H. repeat (destruct H as [<-|H]; [eexists; split; [reflexivity|apply is_reqif_false; vm_compute; reflexivity]|]). destruct H.
  - intros k b s H. apply reparses_ok.
    assert (F : forallb (fun p => reparses (snd p)) (z_bundles sample_z) = true) by (vm_compute; reflexivity).
    rewrite forallb_forall in F. exact (F _ H).
Qed.
(** A document stored under another extension comes back as an attachment. *)
Definition misnamed : zbundle :=
  ZBundle [(Some "doc.reqif2", match parse_string sample_text with Ok b => b | Raise _ => bundle_empty None None end)] [].
Theorem C38_other_extension_refuted :
  exists z a z', snd (zip_unparse None z []) = Ok a /\ length (z_bundles z) = 1
    /\ snd (zip_parse None (Some a) []) = Ok z' /\ z_bundles z' = [].
Proof.
  exists misnamed, (match snd (zip_unparse None misnamed []) with Ok a => a | Raise _ => [] end),
    (match snd (zip_parse None (Some (match snd (zip_unparse None misnamed []) with Ok a => a | Raise _ => [] end)) []) with Ok z => z | Raise _ => sample_z end).
  vm_compute. auto.
Qed.

Print Assumptions C36_members_are_partitioned.
Print Assumptions C36_progress_per_member.
Print Assumptions C37_all_failures_wrapped.
Print Assumptions C37_reading_succeeds_iff.
Print Assumptions C37_reading_without_callback_succeeds_iff.
Print Assumptions C38_written_members.
Print Assumptions C38_write_progress.
Print Assumptions C38_archive_round_trip.
Print Assumptions C38_other_extension_refuted.
