(** ProgressProofs.v -- every use of a callback is a replay of a fixed event list *)
From Verif Require Import Base Xml Utf8 Lxml Py Models AttrDef DataType Header AttrValue SpecObj
  Hierarchy SpecTypes Progress Parser Unparser SpecProgress.

(** [m] plays a prefix of [full], all of it when it succeeds; apart from that
    the callback has no influence. *)
Definition pure {A} (m : callback -> M A) : result A := snd (m None []).
Definition is_ok {A} (r : result A) : Prop := match r with Ok _ => True | Raise _ => False end.
Definition Traced {A} (m : callback -> M A) (full : list event) : Prop :=
  exists evs rest,
    full = evs ++ rest /\ (is_ok (pure m) -> rest = [])
    /\ (forall h, m None h = (h, pure m))
    /\ (forall c h, m (Some c) h = play c h evs (pure m)).

Lemma play_nil {A} c h (r : result A) : play c h [] r = (h, r).
Proof. reflexivity. Qed.
Lemma play_app {A} c h e1 e2 (r : result A) :
  play c h (e1 ++ e2) r =
  match play c h e1 (Ok tt) with
  | (h', Ok _) => play c h' e2 r
  | (h', Raise e) => (h', Raise e)
  end.
Proof.
  revert h. induction e1 as [|e e1 IH]; intros h; [reflexivity|]. cbn.
  destruct (c h e); [reflexivity|]. apply IH.
Qed.
Lemma play_ok {A} c h evs (a : A) :
  play c h evs (Ok a) =
  match play c h evs (Ok tt) with (h', Ok _) => (h', Ok a) | (h', Raise e) => (h', Raise e) end.
Proof.
  revert h. induction evs as [|e evs IH]; intros h; [reflexivity|]. cbn. destruct (c h e); auto.
Qed.
Lemma play_raise {A B} c h evs (x : exn) :
  @play B c h evs (Raise x) =
  match @play A c h evs (Raise x) with (h', Raise e) => (h', Raise e) | (h', Ok _) => (h', Raise x) end.
Proof.
  revert h. induction evs as [|e evs IH]; intros h; [reflexivity|]. cbn. destruct (c h e); auto.
Qed.

Lemma traced_lift {A} (r : result A) : Traced (fun _ => lift r) [].
Proof. exists [], []. repeat split; auto. Qed.
Lemma traced_ret {A} (a : A) : Traced (fun _ => ret a) [].
Proof. exists [], []. repeat split; auto. Qed.
Lemma traced_deliver e : Traced (fun cb => deliver cb e) [e].
Proof.
  exists [e], []. repeat split. intros c h. cbn. destruct (c h e); reflexivity.
Qed.
Lemma pure_bind {A B} (m : callback -> M A) (k : callback -> A -> M B) full :
  Traced m full ->
  pure (fun cb => mbind (m cb) (k cb)) =
  match pure m with Ok a => pure (fun cb => k cb a) | Raise e => Raise e end.
Proof.
  intros (evs & rest & _ & _ & HN & _). unfold pure at 1. unfold mbind. rewrite HN.
  destruct (pure m); reflexivity.
Qed.
Lemma traced_bind {A B} (m : callback -> M A) (k : callback -> A -> M B) f1 f2 :
  Traced m f1 ->
  (forall a, pure m = Ok a -> Traced (fun cb => k cb a) f2) ->
  Traced (fun cb => mbind (m cb) (k cb)) (f1 ++ f2).
Proof.
  intros H1 H2. pose proof (pure_bind m k f1 H1) as HP.
  destruct H1 as (e1 & r1 & Ef & Hok & HN & HS).
  destruct (pure m) as [a|x] eqn:EP.
  - destruct (H2 a eq_refl) as (e2 & r2 & Ef2 & Hok2 & HN2 & HS2).
    rewrite (Hok I), app_nil_r in Ef. subst e1.
    exists (f1 ++ e2), r2. rewrite HP. split; [rewrite <- app_assoc; congruence|].
    split; [exact Hok2|]. split.
    + intros h. unfold mbind. rewrite HN. apply HN2.
    + intros c h. unfold mbind. rewrite HS, play_app, play_ok.
      destruct (play c h f1 (Ok tt)) as [h' [u|e]]; [|reflexivity]. apply HS2.
  - exists e1, (r1 ++ f2). rewrite HP. split; [rewrite app_assoc; congruence|].
    split; [intros []|]. split.
    + intros h. unfold mbind. rewrite HN. reflexivity.
    + intros c h. unfold mbind. rewrite HS, (@play_raise A B).
      destruct (play c h e1 (Raise x)) as [h' [u|e]] eqn:E2; [|reflexivity].
      exfalso. clear -E2. revert h E2. induction e1 as [|e e1 IH]; intros h; cbn; [discriminate|].
      destruct (c h e); [discriminate|apply IH].
Qed.

(** ** track *)
Fixpoint foldM {A S} (body : A -> S -> result S) (items : list A) (s : S) : result S :=
  match items with
  | [] => Ok s
  | x :: items' => let! s' := body x s in foldM body items' s'
  end.
Lemma count_from section total idx n :
  map (fun k => Event section (S k) total) (seq idx (S n)) =
  Event section (idx + 1) total :: map (fun k => Event section (S k) total) (seq (idx + 1) n).
Proof. rewrite !Nat.add_1_r. reflexivity. Qed.
Lemma traced_track_loop {A S} section total (body : A -> S -> result S) items idx s :
  Traced (fun cb => track_loop cb section total body idx items s)
         (map (fun k => Event section (Datatypes.S k) total) (seq idx (length items)))
  /\ pure (fun cb => track_loop cb section total body idx items s) = foldM body items s.
Proof.
  revert idx s. induction items as [|x items IH]; intros idx s.
  - split; [apply traced_ret|reflexivity].
  - cbn [track_loop length]. rewrite count_from.
    assert (T : Traced (fun cb => do! s' := lift (body x s) in
        do! _ := deliver cb (Event section (idx + 1) total) in
        track_loop cb section total body (idx + 1) items s')
        ([] ++ ([Event section (idx + 1) total] ++
           map (fun k => Event section (Datatypes.S k) total) (seq (idx + 1) (length items))))).
    { apply (traced_bind (fun _ => lift (body x s))
               (fun cb s' => do! _ := deliver cb (Event section (idx + 1) total) in
                             track_loop cb section total body (idx + 1) items s')).
      { apply traced_lift. }
      intros s' _. apply (traced_bind (fun cb => deliver cb (Event section (idx + 1) total))
                            (fun cb _ => track_loop cb section total body (idx + 1) items s')).
      { apply traced_deliver. }
      intros _ _. apply IH. }
    split; [exact T|].
    cbn [foldM]. unfold bind.
    rewrite (pure_bind (fun _ => lift (body x s))
               (fun cb s' => do! _ := deliver cb (Event section (idx + 1) total) in
                             track_loop cb section total body (idx + 1) items s') [] (traced_lift _)).
    change (pure (fun _ : callback => lift (body x s))) with (body x s).
    destruct (body x s) as [s'|e]; [|reflexivity].
    rewrite (pure_bind (fun cb => deliver cb (Event section (idx + 1) total))
               (fun cb _ => track_loop cb section total body (idx + 1) items s') _ (traced_deliver _)).
    change (pure (fun cb : callback => deliver cb (Event section (idx + 1) total))) with (Ok tt).
    apply IH.
Qed.
Lemma traced_track {A S} section (body : A -> S -> result S) items s :
  Traced (fun cb => track cb section items body s) (count_up section (length items)).
Proof. apply traced_track_loop. Qed.
Lemma pure_track {A S} section (body : A -> S -> result S) items s :
  pure (fun cb => track cb section items body s) = foldM body items s.
Proof. apply traced_track_loop. Qed.

(** ** parsing *)
Definition section_events (t : str) (n : node) : list event :=
  match find_child t n with Some x => count_up t (length (children x)) | None => [] end.
Lemma traced_section {S} t n (body : node -> S -> result S) s0 :
  Traced (fun cb => section_ cb t n body s0) (section_events t n).
Proof.
  unfold section_, section_events. destruct (find_child t n) as [x|]; [|apply traced_ret].
  rewrite <- (app_nil_r (count_up _ _)).
  apply (traced_bind (fun cb => track cb t (children x) body s0) (fun cb s => ret (true, s))).
  - apply traced_track.
  - intros; apply traced_ret.
Qed.
Definition pure_section {S} t n (body : node -> S -> result S) s0 : result (bool * S) :=
  match find_child t n with
  | None => Ok (false, s0)
  | Some x => let! s := foldM body (children x) s0 in Ok (true, s)
  end.
Lemma pure_section_eq {S} t n (body : node -> S -> result S) s0 :
  pure (fun cb => section_ cb t n body s0) = pure_section t n body s0.
Proof.
  unfold section_, pure_section. destruct (find_child t n) as [x|]; [|reflexivity].
  rewrite (pure_bind (fun cb => track cb t (children x) body s0) (fun cb s => ret (true, s)) _
             (traced_track _ _ _ _)).
  rewrite pure_track. destruct (foldM body (children x) s0); reflexivity.
Qed.

Definition pure_content (n : node) : result (content * lookup * list exn) :=
  let! _ := py_assert (tag_is "REQ-IF-CONTENT" n) in
  let! (has_dt, (dts, dt_lookup)) := pure_section "DATATYPES" n data_type_body ([], []) in
  let! (has_st, (sts, st_lookup)) := pure_section "SPEC-TYPES" n spec_type_body ([], []) in
  let! (has_sp, sps) := pure_section "SPECIFICATIONS" n specification_body [] in
  let! (has_sr, (srs, parents, exns)) :=
     pure_section "SPEC-RELATIONS" n spec_relation_body ([], [], []) in
  let! (has_so, (sos, so_lookup)) := pure_section "SPEC-OBJECTS" n spec_object_body ([], []) in
  let! (has_rg, rgs) := pure_section "SPEC-RELATION-GROUPS" n relation_group_body [] in
  Ok (Content (when_ has_dt dts) (when_ has_st sts) (when_ has_so sos) (when_ has_sr srs)
               (when_ has_sp sps) (when_ has_rg rgs),
       Lookup dt_lookup st_lookup so_lookup parents true,
       exns).

Lemma traced_bind_pure {A B} (m : callback -> M A) (k : callback -> A -> M B) f1 f2 p (q : A -> result B) :
  Traced m f1 -> pure m = p ->
  (forall a, p = Ok a -> Traced (fun cb => k cb a) f2 /\ pure (fun cb => k cb a) = q a) ->
  Traced (fun cb => mbind (m cb) (k cb)) (f1 ++ f2)
  /\ pure (fun cb => mbind (m cb) (k cb)) = bind p q.
Proof.
  intros H1 Hp H2. split.
  - apply traced_bind; [exact H1|]. intros a Ha. apply H2. congruence.
  - rewrite (pure_bind _ _ _ H1), Hp. destruct p as [a|e]; [apply H2; reflexivity|reflexivity].
Qed.

Lemma content_traced n :
  Traced (fun cb => parse_reqif_content cb n) (content_events n)
  /\ pure (fun cb => parse_reqif_content cb n) = pure_content n.
Proof.
  unfold parse_reqif_content, pure_content.
  assert (E : content_events n =
    [] ++ section_events "DATATYPES" n ++ section_events "SPEC-TYPES" n
    ++ section_events "SPECIFICATIONS" n ++ section_events "SPEC-RELATIONS" n
    ++ section_events "SPEC-OBJECTS" n ++ section_events "SPEC-RELATION-GROUPS" n ++ []) by reflexivity.
  rewrite E.
  apply (traced_bind_pure (fun _ => lift (py_assert (tag_is "REQ-IF-CONTENT" n)))); [apply traced_lift|reflexivity|].
  intros _ _.
  apply (traced_bind_pure (fun cb => section_ cb "DATATYPES" n data_type_body ([], [])));
    [apply traced_section|apply pure_section_eq|]. intros [has_dt [dts dl]] _.
  apply (traced_bind_pure (fun cb => section_ cb "SPEC-TYPES" n spec_type_body ([], [])));
    [apply traced_section|apply pure_section_eq|]. intros [has_st [sts sl]] _.
  apply (traced_bind_pure (fun cb => section_ cb "SPECIFICATIONS" n specification_body []));
    [apply traced_section|apply pure_section_eq|]. intros [has_sp sps] _.
  apply (traced_bind_pure (fun cb => section_ cb "SPEC-RELATIONS" n spec_relation_body ([], [], [])));
    [apply traced_section|apply pure_section_eq|]. intros [has_sr [[srs ps] xs]] _.
  apply (traced_bind_pure (fun cb => section_ cb "SPEC-OBJECTS" n spec_object_body ([], [])));
    [apply traced_section|apply pure_section_eq|]. intros [has_so [sos ol]] _.
  apply (traced_bind_pure (fun cb => section_ cb "SPEC-RELATION-GROUPS" n relation_group_body []));
    [apply traced_section|apply pure_section_eq|]. intros [has_rg rgs] _.
  split; [apply traced_ret|reflexivity].
Qed.

Definition pure_reqif (decl : option str) (root : node) : result bundle :=
  let! nons := strip_if_namespaced root in
  if negb (tag_is "REQ-IF" nons) then Raise EReqIFXMLParsingError
  else
    let ni := namespace_info_of decl root nons in
    match children nons with
    | [] => Ok (bundle_empty (ni_namespace ni) (ni_configuration ni))
    | _ =>
        let! hdr := (match find_child "THE-HEADER" nons with
                         | None => Ok None
                         | Some h => let! x := parse_header h in Ok (Some x)
                         end) in
        let! (core, lk, exns) :=
          match find_child "CORE-CONTENT" nons with
          | None => Ok (None, lookup_empty, [])
          | Some c =>
              match find_child "REQ-IF-CONTENT" c with
              | None => Ok (Some None, lookup_empty, [])
              | Some rc => let! (ct, lk, exns) := pure_content rc in
                           Ok (Some (Some ct), lk, exns)
              end
          end in
        Ok (Bundle ni hdr core
               (match find_child "TOOL-EXTENSIONS" nons with Some _ => true | None => false end)
               lk exns)
    end.
Definition root_events (root : node) : list event :=
  match strip_if_namespaced root with
  | Ok r =>
      if tag_is "REQ-IF" r then
        match find_child "CORE-CONTENT" r with
        | Some c => match find_child "REQ-IF-CONTENT" c with
                    | Some rc => content_events rc | None => [] end
        | None => []
        end
      else []
  | Raise _ => []
  end.
Lemma find_child_children t n x : find_child t n = Some x -> children n <> [].
Proof.
  unfold find_child, find_list, children. intros H. apply find_some in H. destruct H as [Hin Ht].
  intros E. assert (In x (filter (fun k => negb (is_chr k)) (kids_of n))).
  { apply filter_In. split; [exact Hin|]. destruct x; [discriminate| | |]; reflexivity. }
  rewrite E in H. exact H.
Qed.
Lemma reqif_traced decl root :
  Traced (fun cb => parse_reqif cb decl root) (root_events root)
  /\ pure (fun cb => parse_reqif cb decl root) = pure_reqif decl root.
Proof.
  unfold parse_reqif, pure_reqif. change (root_events root) with ([] ++ root_events root).
  apply (traced_bind_pure (fun _ => lift (strip_if_namespaced root))); [apply traced_lift|reflexivity|].
  intros nons Hn. unfold root_events. rewrite Hn.
  destruct (tag_is "REQ-IF" nons) eqn:ET; cbn [negb].
  2:{ split; [|reflexivity]. apply traced_lift. }
  destruct (children nons) as [|k0 ks] eqn:EK.
  { destruct (find_child "CORE-CONTENT" nons) as [c|] eqn:EC.
    - exfalso. apply (find_child_children _ _ _ EC EK).
    - split; [apply traced_ret|reflexivity]. }
  match goal with |- Traced _ ?f /\ _ => change f with ([] ++ f) end.
  apply (traced_bind_pure (fun _ => lift (match find_child "THE-HEADER" nons with
      | Some h => let! x := parse_header h in Ok (Some x) | None => Ok None end)));
    [apply traced_lift|reflexivity|].
  intros hdr _.
  match goal with |- Traced _ ?f /\ _ => rewrite <- (app_nil_r f) end.
  apply (traced_bind_pure (fun cb =>
          match find_child "CORE-CONTENT" nons with
          | None => ret (None, lookup_empty, [])
          | Some c =>
              match find_child "REQ-IF-CONTENT" c with
              | None => ret (Some None, lookup_empty, [])
              | Some rc => do! (ct, lk, exns) := parse_reqif_content cb rc in
                           ret (Some (Some ct), lk, exns)
              end
          end)).
  - destruct (find_child "CORE-CONTENT" nons) as [c|]; [|apply traced_ret].
    destruct (find_child "REQ-IF-CONTENT" c) as [rc|]; [|apply traced_ret].
    rewrite <- (app_nil_r (content_events rc)).
    apply (traced_bind (fun cb => parse_reqif_content cb rc)); [apply content_traced|].
    intros [[ct lk] xs] _. apply traced_ret.
  - destruct (find_child "CORE-CONTENT" nons) as [c|]; [|reflexivity].
    destruct (find_child "REQ-IF-CONTENT" c) as [rc|]; [|reflexivity].
    rewrite (pure_bind (fun cb => parse_reqif_content cb rc) _ _ (proj1 (content_traced rc))).
    rewrite (proj2 (content_traced rc)).
    destruct (pure_content rc) as [[[ct lk] xs]|e]; reflexivity.
  - intros [[core lk] xs] _. split; [apply traced_ret|reflexivity].
Qed.

Definition pure_string (s : str) : result bundle :=
  match s with
  | [] => Raise EReqIFXMLParsingError
  | _ => match lxml_parse s with
         | None => Raise EReqIFXMLParsingError
         | Some (decl, root) => pure_reqif decl root
         end
  end.
Lemma string_traced s :
  Traced (fun cb => parse_from_string cb s) (document_events s)
  /\ parse_string s = pure_string s.
Proof.
  change (parse_string s) with (pure (fun cb => parse_from_string cb s)).
  unfold parse_from_string, document_events, document_content, pure_string. destruct s as [|x s].
  { split; [apply traced_lift|reflexivity]. }
  destruct (lxml_parse (x :: s)) as [[decl root]|].
  2:{ split; [apply traced_lift|reflexivity]. }
  pose proof (reqif_traced decl root) as H. unfold root_events in H.
  destruct (strip_if_namespaced root) as [r|e]; [|exact H].
  destruct (tag_is "REQ-IF" r); [|exact H].
  destruct (find_child "CORE-CONTENT" r) as [c|]; exact H.
Qed.

(** ** unparsing *)
Lemma traced_unparse_section {A} t (f : A -> result str) o out :
  Traced (fun cb => unparse_section cb t f o out) (olen t o)
  /\ pure (fun cb => unparse_section cb t f o out) =
     match o with
     | None => Ok out
     | Some l => let! out' := foldM (append_body f) l (out ++ "      <" ++ t ++ ">" ++ nl) in
                 Ok (out' ++ "      </" ++ t ++ ">" ++ nl)
     end.
Proof.
  unfold unparse_section, olen. destruct o as [l|]; [|split; [apply traced_ret|reflexivity]].
  rewrite <- (app_nil_r (count_up _ _)).
  apply (traced_bind_pure (fun cb => track cb t l (append_body f) (out ++ "      <" ++ t ++ ">" ++ nl))).
  - apply traced_track.
  - apply pure_track.
  - intros out' _. split; [apply traced_ret|reflexivity].
Qed.
Lemma foldM_append {A} (f : A -> result str) l out :
  foldM (append_body f) l out =
  let! parts := mapM f l in Ok (out ++ concat parts).
Proof.
  revert out. induction l as [|x l IH]; intros out.
  - cbn. rewrite app_nil_r. reflexivity.
  - cbn [foldM mapM]. unfold append_body at 1. destruct (f x) as [s|e]; [|reflexivity]. cbn [bind].
    rewrite IH. destruct (mapM f l) as [parts|e]; [|reflexivity]. cbn. rewrite <- app_assoc. reflexivity.
Qed.
Definition pure_unparse_section {A} (t : str) (f : A -> result str) (o : option (list A)) : result str :=
  match o with
  | None => Ok []
  | Some l => let! parts := mapM f l in
              Ok (("      <" ++ t ++ ">" ++ nl) ++ concat parts ++ ("      </" ++ t ++ ">" ++ nl))
  end.
Lemma pure_unparse_section_eq {A} t (f : A -> result str) o out :
  pure (fun cb => unparse_section cb t f o out) =
  let! s := pure_unparse_section t f o in Ok (out ++ s).
Proof.
  rewrite (proj2 (traced_unparse_section t f o out)). destruct o as [l|].
  - rewrite foldM_append. cbn [pure_unparse_section].
    destruct (mapM f l) as [parts|e]; [|reflexivity]. cbn [bind]. rewrite <- !app_assoc. reflexivity.
  - cbn. rewrite app_nil_r. reflexivity.
Qed.
Definition pure_unparse_content (c : content) : result str :=
  let! s1 := pure_unparse_section "DATATYPES" (fun d => Ok (unparse_data_type d)) (rc_data_types c) in
  let! s2 := pure_unparse_section "SPEC-TYPES" unparse_spec_type (rc_spec_types c) in
  let! s3 := pure_unparse_section "SPEC-OBJECTS" unparse_spec_object (rc_spec_objects c) in
  let! s4 := pure_unparse_section "SPEC-RELATIONS" unparse_spec_relation (rc_spec_relations c) in
  let! s5 := pure_unparse_section "SPECIFICATIONS" unparse_specification (rc_specifications c) in
  let! s6 := pure_unparse_section "SPEC-RELATION-GROUPS" (fun g => Ok (unparse_relation_group g))
                             (rc_spec_relation_groups c) in
  Ok (("    <REQ-IF-CONTENT>" ++ nl) ++ s1 ++ s2 ++ s3 ++ s4 ++ s5 ++ s6
      ++ "    </REQ-IF-CONTENT>" ++ nl).

Lemma bind_assoc {A B C} (r : result A) (f : A -> result B) (g : B -> result C) :
  bind (bind r f) g = bind r (fun a => bind (f a) g).
Proof. destruct r; reflexivity. Qed.

Definition content_out_events (c : content) : list event :=
  olen "DATATYPES" (rc_data_types c) ++ olen "SPEC-TYPES" (rc_spec_types c)
  ++ olen "SPEC-OBJECTS" (rc_spec_objects c) ++ olen "SPEC-RELATIONS" (rc_spec_relations c)
  ++ olen "SPECIFICATIONS" (rc_specifications c)
  ++ olen "SPEC-RELATION-GROUPS" (rc_spec_relation_groups c).

Lemma traced_step {A} t (f : A -> result str) l (k : callback -> str -> M str) o f2 (q : str -> result str) :
  (forall s, pure_unparse_section t f l = Ok s ->
     Traced (fun cb => k cb (o ++ s)) f2 /\ pure (fun cb => k cb (o ++ s)) = q s) ->
  Traced (fun cb => mbind (unparse_section cb t f l o) (k cb)) (olen t l ++ f2)
  /\ pure (fun cb => mbind (unparse_section cb t f l o) (k cb)) =
     bind (pure_unparse_section t f l) q.
Proof.
  intros H. pose proof (proj1 (traced_unparse_section t f l o)) as T.
  pose proof (pure_unparse_section_eq t f l o) as P. split.
  - apply traced_bind; [exact T|]. intros a Ha. rewrite P in Ha.
    destruct (pure_unparse_section t f l) as [s|e]; [|discriminate]. injection Ha as <-.
    apply H. reflexivity.
  - rewrite (pure_bind (fun cb => unparse_section cb t f l o) k _ T), P.
    destruct (pure_unparse_section t f l) as [s|e]; [|reflexivity]. cbn [bind].
    apply H. reflexivity.
Qed.
Lemma unparse_content_traced c out :
  Traced (fun cb => unparse_content cb c out) (content_out_events c)
  /\ pure (fun cb => unparse_content cb c out) =
     let! s := pure_unparse_content c in Ok (out ++ s).
Proof.
  assert (E : (let! s := pure_unparse_content c in Ok (out ++ s)) =
    let! s1 := pure_unparse_section "DATATYPES" (fun d => Ok (unparse_data_type d)) (rc_data_types c) in
    let! s2 := pure_unparse_section "SPEC-TYPES" unparse_spec_type (rc_spec_types c) in
    let! s3 := pure_unparse_section "SPEC-OBJECTS" unparse_spec_object (rc_spec_objects c) in
    let! s4 := pure_unparse_section "SPEC-RELATIONS" unparse_spec_relation (rc_spec_relations c) in
    let! s5 := pure_unparse_section "SPECIFICATIONS" unparse_specification (rc_specifications c) in
    let! s6 := pure_unparse_section "SPEC-RELATION-GROUPS" (fun g => Ok (unparse_relation_group g))
                             (rc_spec_relation_groups c) in
    Ok ((((((((out ++ "    <REQ-IF-CONTENT>" ++ nl) ++ s1) ++ s2) ++ s3) ++ s4) ++ s5) ++ s6)
        ++ "    </REQ-IF-CONTENT>" ++ nl)).
  { unfold pure_unparse_content.
    do 6 (match goal with |- context [bind (pure_unparse_section ?t ?f ?l) _] =>
            destruct (pure_unparse_section t f l); [cbn [bind]|reflexivity] end).
    rewrite <- !app_assoc. reflexivity. }
  rewrite E. unfold unparse_content, content_out_events.
  rewrite <- (app_nil_r (olen "SPEC-RELATION-GROUPS" _)).
  match goal with |- Traced (fun cb => mbind (ret ?x) (@?k cb)) ?f /\ _ =>
    change (Traced (fun cb => k cb x) f /\ pure (fun cb => k cb x) =
    let! s1 := pure_unparse_section "DATATYPES" (fun d => Ok (unparse_data_type d)) (rc_data_types c) in
    let! s2 := pure_unparse_section "SPEC-TYPES" unparse_spec_type (rc_spec_types c) in
    let! s3 := pure_unparse_section "SPEC-OBJECTS" unparse_spec_object (rc_spec_objects c) in
    let! s4 := pure_unparse_section "SPEC-RELATIONS" unparse_spec_relation (rc_spec_relations c) in
    let! s5 := pure_unparse_section "SPECIFICATIONS" unparse_specification (rc_specifications c) in
    let! s6 := pure_unparse_section "SPEC-RELATION-GROUPS" (fun g => Ok (unparse_relation_group g))
                             (rc_spec_relation_groups c) in
    Ok ((((((((out ++ "    <REQ-IF-CONTENT>" ++ nl) ++ s1) ++ s2) ++ s3) ++ s4) ++ s5) ++ s6)
        ++ "    </REQ-IF-CONTENT>" ++ nl)) end.
  cbv beta.
  repeat (match goal with |- Traced (fun cb => mbind (unparse_section _ ?t ?f ?l ?o) (@?k cb)) _ /\ _ =>
     apply (traced_step t f l k o) end; intros ? _).
  split; [apply traced_ret|reflexivity].
Qed.

Definition pure_unparse (b : bundle) : result str :=
  let! ns := unparse_namespace_info (b_namespace_info b) in
  let! hd := match b_header b with None => Ok [] | Some h => unparse_header h end in
  let! core := match b_core_content b with
               | None => Ok []
               | Some oc =>
                   let! s := match oc with None => Ok [] | Some c => pure_unparse_content c end in
                   Ok (("  <CORE-CONTENT>" ++ nl) ++ s ++ "  </CORE-CONTENT>" ++ nl)
               end in
  Ok (("<?xml version=""1.0"" encoding=""UTF-8""?>" ++ nl) ++ ns ++ hd ++ core
      ++ (if b_tool_extensions b
          then "  <TOOL-EXTENSIONS>" ++ nl ++ "  </TOOL-EXTENSIONS>" ++ nl else [])
      ++ "</REQ-IF>" ++ nl).

Lemma unparse_traced b :
  Traced (fun cb => unparse cb b) (bundle_events b) /\ unparse_string b = pure_unparse b.
Proof.
  change (unparse_string b) with (pure (fun cb => unparse cb b)).
  unfold unparse, pure_unparse. cbv zeta. change (bundle_events b) with ([] ++ bundle_events b).
  apply (traced_bind_pure (fun _ => lift (unparse_namespace_info (b_namespace_info b))));
    [apply traced_lift|reflexivity|]. intros ns _.
  set (o0 := "<?xml version=""1.0"" encoding=""UTF-8""?>" ++ nl).
  match goal with |- Traced (fun cb => mbind ?m (@?k cb)) ?full /\ _ = ?r =>
    assert (H1 : Traced (fun _ => m) [] /\ pure (fun _ => m) =
      (let! hd := match b_header b with None => Ok [] | Some h => unparse_header h end in
       Ok ((o0 ++ ns) ++ hd)))
  end.
  { destruct (b_header b) as [h|].
    - apply (traced_bind_pure (fun _ => lift (unparse_header h)) (fun _ s => ret ((o0 ++ ns) ++ s)) [] []);
        [apply traced_lift|reflexivity|]. intros s _. split; [apply traced_ret|reflexivity].
    - split; [apply traced_ret|]. cbn [bind]. rewrite app_nil_r. reflexivity. }
  destruct H1 as [T1 P1].
  match goal with |- Traced (fun cb => mbind ?m (@?k cb)) ?full /\ _ = ?r =>
    assert (H2 : Traced (fun cb => mbind m (k cb)) ([] ++ full) /\ pure (fun cb => mbind m (k cb)) =
      bind (let! hd := match b_header b with None => Ok [] | Some h => unparse_header h end in
            Ok ((o0 ++ ns) ++ hd))
       (fun o => let! core := match b_core_content b with
               | None => Ok []
               | Some oc =>
                   let! s := match oc with None => Ok [] | Some c => pure_unparse_content c end in
                   Ok (("  <CORE-CONTENT>" ++ nl) ++ s ++ "  </CORE-CONTENT>" ++ nl)
               end in
        Ok (((o ++ core)
           ++ (if b_tool_extensions b
          then "  <TOOL-EXTENSIONS>" ++ nl ++ "  </TOOL-EXTENSIONS>" ++ nl else []))
      ++ "</REQ-IF>" ++ nl)))
  end.
  { apply traced_bind_pure; [exact T1|exact P1|]. intros o _. clear T1 P1.
    rewrite <- (app_nil_r (bundle_events b)).
    match goal with |- Traced (fun cb => mbind (@?m cb) (@?k cb)) (?f1 ++ ?f2) /\ _ = ?r =>
      assert (H3 : Traced m f1 /\ pure m =
        (let! core := match b_core_content b with
               | None => Ok []
               | Some oc =>
                   let! s := match oc with None => Ok [] | Some c => pure_unparse_content c end in
                   Ok (("  <CORE-CONTENT>" ++ nl) ++ s ++ "  </CORE-CONTENT>" ++ nl)
               end in Ok (o ++ core)))
    end.
    { unfold bundle_events. destruct (b_core_content b) as [[c|]|].
      - change (fun cb => do! out := ret (o ++ "  <CORE-CONTENT>" ++ nl) in
                 (do! out0 := unparse_content cb c out in ret (out0 ++ "  </CORE-CONTENT>" ++ nl)))
          with (fun cb => do! out0 := unparse_content cb c (o ++ "  <CORE-CONTENT>" ++ nl) in
                  ret (out0 ++ "  </CORE-CONTENT>" ++ nl)).
        pose proof (unparse_content_traced c (o ++ "  <CORE-CONTENT>" ++ nl)) as [T P].
        fold (content_out_events c). split.
        + rewrite <- (app_nil_r (content_out_events c)). apply traced_bind; [exact T|].
          intros; apply traced_ret.
        + rewrite (pure_bind _ (fun _ out0 => ret (out0 ++ "  </CORE-CONTENT>" ++ nl)) _ T), P.
          destruct (pure_unparse_content c) as [s|e]; [|reflexivity]. cbn [bind].
          unfold pure, ret; cbn [snd]. rewrite <- !app_assoc. reflexivity.
      - split; [apply traced_ret|]. cbn [bind].
        unfold pure, mbind, ret; cbn [snd].
        rewrite <- !app_assoc. reflexivity.
      - split; [apply traced_ret|]. cbn [bind]. rewrite app_nil_r. reflexivity. }
    destruct H3 as [T3 P3].
    match goal with |- Traced (fun cb => mbind (@?m cb) (@?k cb)) (?f1 ++ ?f2) /\ _ = ?r =>
      assert (H4 : Traced (fun cb => mbind (m cb) (k cb)) (f1 ++ f2) /\
        pure (fun cb => mbind (m cb) (k cb)) =
        bind (let! core := match b_core_content b with
               | None => Ok []
               | Some oc =>
                   let! s := match oc with None => Ok [] | Some c => pure_unparse_content c end in
                   Ok (("  <CORE-CONTENT>" ++ nl) ++ s ++ "  </CORE-CONTENT>" ++ nl)
               end in Ok (o ++ core)) (fun x => Ok ((x
           ++ (if b_tool_extensions b
          then "  <TOOL-EXTENSIONS>" ++ nl ++ "  </TOOL-EXTENSIONS>" ++ nl else []))
      ++ "</REQ-IF>" ++ nl)))
    end.
    { apply traced_bind_pure; [exact T3|exact P3|]. intros x _. split; [apply traced_ret|reflexivity]. }
    rewrite bind_assoc in H4. exact H4. }
  rewrite app_nil_l in H2. destruct H2 as [T2 P2]. split; [exact T2|]. rewrite P2, bind_assoc.
  destruct (match b_header b with None => Ok [] | Some h => unparse_header h end) as [hd|e]; [|reflexivity].
  cbn [bind]. match goal with |- bind ?r _ = bind ?r _ => destruct r as [core|e]; [|reflexivity] end.
  cbn [bind]. rewrite <- !app_assoc. reflexivity.
Qed.
