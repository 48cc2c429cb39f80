(** Prop_Edit.v -- C53: an edit changes the text of what was edited *)
From Verif Require Import Base Xml Utf8 Lxml Py LxmlStr Models AttrDef DataType Header AttrValue SpecObj Hierarchy
  SpecTypes Progress Parser Unparser BundleModel DictProofs SpecTraversal ProgressProofs SpecEdit Prop_Document.

Lemma written_mapM {A} (f : A -> result str) xs xt : written f xs xt <-> mapM f xs = Ok xt.
Proof.
  split.
  - induction 1 as [|x s xs xt H _ IH]; [reflexivity|]. cbn [mapM]. rewrite H. cbn [bind]. rewrite IH. reflexivity.
  - revert xt. induction xs as [|x xs IH]; intros xt H; cbn [mapM] in H.
    + assert (xt = []) by congruence. subst. constructor.
    + destruct (f x) as [s|] eqn:E; [|discriminate]. cbn [bind] in H. destruct (mapM f xs) as [l|]; [|discriminate]. cbn [bind] in H.
      assert (xt = s :: l) by congruence. subst. constructor; [exact E|apply IH; reflexivity].
Qed.
Lemma mapM_raise {A} (f : A -> result str) a at_ y rest e : mapM f a = Ok at_ -> f y = Raise e -> mapM f (a ++ y :: rest) = Raise e.
Proof. intros H1 H2. rewrite mapM_app, H1. cbn [bind mapM]. rewrite H2. reflexivity. Qed.

(** texts with a place in them *)
Definition wrap (C : str -> str) : Prop := exists pre post, forall m, C m = pre ++ m ++ post.
Lemma wrap_id : wrap (fun m => m).
Proof. exists [], []. intros m. rewrite app_nil_r. reflexivity. Qed.
Lemma wrap_l a C : wrap C -> wrap (fun m => a ++ C m).
Proof. intros (p & q & H). exists (a ++ p), q. intros m. rewrite H, <- !app_assoc. reflexivity. Qed.
Lemma wrap_r C a : wrap C -> wrap (fun m => C m ++ a).
Proof. intros (p & q & H). exists p, (q ++ a). intros m. rewrite H, <- !app_assoc. reflexivity. Qed.
Definition placed {A} (f : A -> result str) (w : list A -> result str) : Prop :=
  forall xs s, w xs = Ok s -> exists C xt, wrap C /\ mapM f xs = Ok xt /\ s = C (concat xt)
    /\ (forall ys yt, mapM f ys = Ok yt -> w ys = Ok (C (concat yt)))
    /\ (forall ys e, mapM f ys = Raise e -> w ys = Raise e).
Lemma placed_section {A} t (f : A -> result str) l1 l2 : placed f (fun xs => pure_unparse_section t f (Some (l1 ++ xs ++ l2))).
Proof.
  unfold pure_unparse_section. intros xs s H. rewrite !mapM_app in H. destruct (mapM f l1) as [t1|] eqn:E1; [|discriminate]. cbn [bind] in H.
  destruct (mapM f xs) as [xt|] eqn:EX; [|discriminate]. cbn [bind] in H. destruct (mapM f l2) as [t2|] eqn:E2; [|discriminate]. cbn [bind] in H.
  assert (HC : forall m, concat (t1 ++ m ++ t2) = concat t1 ++ concat m ++ concat t2) by (intros; rewrite !concat_app; reflexivity).
  exists (fun m => ("      <" ++ t ++ ">" ++ nl) ++ (concat t1 ++ m ++ concat t2) ++ "      </" ++ t ++ ">" ++ nl), xt.
  split; [apply wrap_l, wrap_r, wrap_l, wrap_r, wrap_id|]. split; [reflexivity|]. split; [|split].
  - rewrite <- HC. congruence.
  - intros ys yt HY. rewrite !mapM_app, E1, HY, E2. cbn [bind]. rewrite HC. reflexivity.
  - intros ys e HY. rewrite !mapM_app, E1, HY. reflexivity.
Qed.
(** before and after other parts *)
Lemma placed_before {A B} (f : A -> result str) (m : result B) (w : B -> list A -> result str) :
  (forall x, placed f (w x)) -> placed f (fun xs => let! x := m in w x xs).
Proof.
  intros H xs s HT. destruct m as [x|]; [|discriminate]. cbn [bind] in *. apply (H x xs s HT).
Qed.
Definition tail_of (k : str -> result str) : Prop :=
  forall s t, k s = Ok t -> exists D, wrap D /\ forall s', k s' = Ok (D s').
Lemma tail_bind {B} (m : result B) (k : B -> str -> result str) : (forall x, tail_of (k x)) -> tail_of (fun s => let! x := m in k x s).
Proof. intros H s t HT. destruct m as [x|]; [|discriminate]. cbn [bind] in *. apply (H x s t HT). Qed.
Lemma tail_ok D : wrap D -> tail_of (fun s => Ok (D s)).
Proof. intros H s t _. exists D. auto. Qed.
Lemma placed_after {A} (f : A -> result str) (w : list A -> result str) (k : str -> result str) :
  placed f w -> tail_of k -> placed f (fun xs => let! s := w xs in k s).
Proof.
  intros H HK xs t HT. destruct (w xs) as [s|] eqn:E; [|discriminate]. cbn [bind] in HT.
  destruct (H xs s E) as (C0 & xt & H1 & H2 & H3 & H4 & H5). destruct (HK s t HT) as (D & HD & HK'). exists (fun m => D (C0 m)), xt. split.
  { destruct H1 as (p & q & H1). destruct HD as (p' & q' & HD). exists (p' ++ p), (q ++ q'). intros m. rewrite HD, H1, <- !app_assoc. reflexivity. }
  split; [exact H2|]. split; [subst s; pose proof (HK' (C0 (concat xt))); congruence|]. split.
  - intros ys yt HY. rewrite (H4 _ _ HY). cbn [bind]. apply HK'.
  - intros ys e HY. rewrite (H5 _ _ HY). reflexivity.
Qed.
Lemma placed_local {A} (f : A -> result str) (put : list A -> bundle) : placed f (fun xs => pure_unparse (put xs)) -> local unparse_string f put.
Proof.
  intros H xs t HT. rewrite (proj2 (unparse_traced _)) in HT.
  destruct (H xs t HT) as (C & xt & (pre & post & HC) & H1 & H2 & H3 & H4). exists pre, post, xt. rewrite <- HC.
  split; [apply written_mapM, H1|]. split; [exact H2|]. split.
  - intros ys yt HY. rewrite <- HC. rewrite (proj2 (unparse_traced _)).
    apply H3, written_mapM, HY.
  - intros a at_ y rest e HA HY. rewrite (proj2 (unparse_traced _)).
    apply H4. apply written_mapM in HA. exact (mapM_raise f a at_ y rest e HA HY).
Qed.
Ltac wrapping := repeat (apply wrap_r || apply wrap_l); exact wrap_id.
Ltac tails := repeat (apply tail_bind; intros ?); (refine (tail_ok (fun s => _) _)); wrapping.
Ltac placing :=
  first [simple apply placed_section
    |match goal with |- placed ?f (fun xs => bind (@?m xs) (@?k xs)) =>
       lazymatch m with fun _ => ?m0 => simple refine (placed_before f m0 (fun x xs => k xs x) _); intros ?; cbv beta; placing end end
    |match goal with |- placed ?f (fun xs => bind (@?m xs) (@?k xs)) =>
       lazymatch k with fun _ => ?k0 => simple refine (placed_after f m k0 _ _); [placing|tails] end end].
Theorem C53_edits_are_local :
  forall b c,
    (forall l1 l2, local unparse_string (fun d => Ok (unparse_data_type d)) (fun xs => put_data_types b c (l1 ++ xs ++ l2)))
    /\ (forall l1 l2, local unparse_string unparse_spec_type (fun xs => put_spec_types b c (l1 ++ xs ++ l2)))
    /\ (forall l1 l2, local unparse_string unparse_spec_object (fun xs => put_spec_objects b c (l1 ++ xs ++ l2)))
    /\ (forall l1 l2, local unparse_string unparse_spec_relation (fun xs => put_spec_relations b c (l1 ++ xs ++ l2)))
    /\ (forall l1 l2, local unparse_string unparse_specification (fun xs => put_specifications b c (l1 ++ xs ++ l2)))
    /\ (forall l1 l2, local unparse_string (fun g => Ok (unparse_relation_group g)) (fun xs => put_relation_groups b c (l1 ++ xs ++ l2))).
Proof.
  intros b c. unfold put_data_types, put_spec_types, put_spec_objects, put_spec_relations, put_specifications, put_relation_groups.
  split; [|split; [|split; [|split; [|split]]]]; intros l1 l2; apply placed_local; unfold pure_unparse, put_content;
    cbn [b_namespace_info b_header b_core_content b_tool_extensions];
    apply placed_before; intros tag; apply placed_before; intros hd;
    unfold pure_unparse_content; cbn [rc_data_types rc_spec_types rc_spec_objects rc_spec_relations rc_specifications rc_spec_relation_groups].
  all: placing.
Qed.
Print Assumptions C53_edits_are_local.
(** the header likewise *)
Theorem C53_header_edits_are_local :
  forall b h t, unparse_string (put_header b (Some h)) = Ok t ->
    exists pre x post, unparse_header h = Ok x /\ t = pre ++ x ++ post
      /\ unparse_string (put_header b None) = Ok (pre ++ post)
      /\ (forall h' x', unparse_header h' = Ok x' -> unparse_string (put_header b (Some h')) = Ok (pre ++ x' ++ post))
      /\ (forall h' e, unparse_header h' = Raise e -> unparse_string (put_header b (Some h')) = Raise e).
Proof.
  intros b h t H. rewrite (proj2 (unparse_traced _)) in H. unfold pure_unparse, put_header in H.
  cbn [b_namespace_info b_header b_core_content b_tool_extensions] in H.
  destruct (unparse_namespace_info _) as [tag|] eqn:E1; [|discriminate]. cbn [bind] in H.
  destruct (unparse_header h) as [x|] eqn:E2; [|discriminate]. cbn [bind] in H.
  match type of H with bind ?m _ = _ => destruct m as [core|] eqn:E3; [|discriminate] end. cbn [bind] in H.
  match type of H with Ok (?p ++ tag ++ x ++ core ++ ?q) = _ => exists (p ++ tag), x, (core ++ q); assert (HT : p ++ tag ++ x ++ core ++ q = t) by congruence end.
  split; [reflexivity|]. split; [rewrite <- HT, <- !app_assoc; reflexivity|].
  assert (P : forall o r, match o with None => Ok [] | Some h => unparse_header h end = r ->
    unparse_string (put_header b o) = let! hd := r in let! c := Ok core in
      Ok (("<?xml version=""1.0"" encoding=""UTF-8""?>" ++ nl) ++ tag ++ hd ++ c
        ++ (if b_tool_extensions b then "  <TOOL-EXTENSIONS>" ++ nl ++ "  </TOOL-EXTENSIONS>" ++ nl else []) ++ "</REQ-IF>" ++ nl)).
  { intros o r E. rewrite (proj2 (unparse_traced _)). unfold pure_unparse, put_header.
    cbn [b_namespace_info b_header b_core_content b_tool_extensions]. rewrite E1. cbn [bind]. rewrite E, E3. reflexivity. }
  split; [|split].
  - rewrite (P None (Ok []) eq_refl). cbn [bind]. rewrite <- !app_assoc. reflexivity.
  - intros h' x' E. rewrite (P (Some h') _ E). cbn [bind]. rewrite <- !app_assoc. reflexivity.
  - intros h' e E. rewrite (P (Some h') _ E). reflexivity.
Qed.
Print Assumptions C53_header_edits_are_local.
(** The lookup and the recorded errors have no influence on the text. *)
Theorem C53_lookup_and_errors_are_not_written :
  forall i h c te lk lk' ex ex', unparse_string (Bundle i h c te lk ex) = unparse_string (Bundle i h c te lk' ex').
Proof. intros. rewrite !(proj2 (unparse_traced _)). reflexivity. Qed.
Print Assumptions C53_lookup_and_errors_are_not_written.
(** Conversely the lookup does not follow edits: an object put into a parsed
    bundle is written but not found. *)
Definition edit_document : str :=
  "<REQ-IF><CORE-CONTENT><REQ-IF-CONTENT><SPEC-OBJECTS><SPEC-OBJECT IDENTIFIER=""a""><VALUES/><TYPE><SPEC-OBJECT-TYPE-REF>t</SPEC-OBJECT-TYPE-REF></TYPE></SPEC-OBJECT>"
  ++ "<SPEC-OBJECT IDENTIFIER=""b""><TYPE><SPEC-OBJECT-TYPE-REF>t</SPEC-OBJECT-TYPE-REF></TYPE><VALUES/></SPEC-OBJECT></SPEC-OBJECTS></REQ-IF-CONTENT></CORE-CONTENT></REQ-IF>".
Definition edit_content (b : bundle) : content :=
  match b_core_content b with Some (Some c) => c | _ => Content None None None None None None end.
Definition edit_objects (b : bundle) : list spec_object :=
  match rc_spec_objects (edit_content b) with Some l => l | None => [] end.
Definition edit_bundle : bundle := Eval vm_compute in
  match parse_string edit_document with Ok b => b | Raise _ => bundle_empty None None end.
Definition new_object : spec_object := SpecObject "c" [] (Some "t") None None None None.
Definition renamed_object : spec_object := SpecObject "b" [] (Some "t") None None (Some "new name") None.
Theorem C53_lookup_follows_edits_refuted :
  exists s b o t, parse_string s = Ok b
    /\ unparse_string (put_spec_objects b (edit_content b) (edit_objects b ++ [o])) = Ok t
    /\ contains "<SPEC-OBJECT IDENTIFIER=""c""" t = true /\ so_identifier o = "c"
    /\ spec_object_exists (b_lookup (put_spec_objects b (edit_content b) (edit_objects b ++ [o]))) (Some "c") = false.
Proof.
  exists edit_document, edit_bundle, new_object.
  destruct (unparse_string (put_spec_objects edit_bundle (edit_content edit_bundle) (edit_objects edit_bundle ++ [new_object]))) as [t|] eqn:E; [|vm_compute in E; discriminate].
  exists t. split; [vm_compute; reflexivity|]. split; [reflexivity|]. split; [|split; [reflexivity|vm_compute; reflexivity]].
  assert (H : match unparse_string (put_spec_objects edit_bundle (edit_content edit_bundle) (edit_objects edit_bundle ++ [new_object])) with
    | Ok t => contains "<SPEC-OBJECT IDENTIFIER=""c""" t | _ => false end = true) by (vm_compute; reflexivity).
  rewrite E in H. exact H.
Qed.
(** replacing the second object of a document *)
Example C53_example :
  exists a b t, edit_objects edit_bundle = [a; b]
    /\ unparse_string (put_spec_objects edit_bundle (edit_content edit_bundle) ([a] ++ [b] ++ [])) = Ok t
    /\ (exists x, unparse_spec_object renamed_object = Ok x)
    /\ unparse_spec_object (SpecObject "c" [] None None None None (Some (El None "SPEC-OBJECT" [] [] [] []))) = Raise EAssertionError.
Proof.
  assert (L : exists a b, edit_objects edit_bundle = [a; b]) by (vm_compute; eexists; eexists; reflexivity).
  destruct L as (a & b & L). exists a, b.
  assert (H : match unparse_string (put_spec_objects edit_bundle (edit_content edit_bundle) (edit_objects edit_bundle)) with Ok _ => true | _ => false end = true) by (vm_compute; reflexivity).
  rewrite L in H. cbn [app].
  destruct (unparse_string (put_spec_objects edit_bundle (edit_content edit_bundle) [a; b])) as [t|] eqn:E; [|discriminate].
  exists t. split; [exact L|]. split; [reflexivity|]. split; [eexists; vm_compute; reflexivity|vm_compute; reflexivity].
Qed.
