(** Prop_WriteFailure.v -- C58: which bundles can be written, and which exception
    the others raise *)
From Verif Require Import Base Xml Utf8 Lxml Py Models AttrDef DataType Header AttrValue SpecObj Hierarchy SpecTypes Progress Parser
  Unparser SpecAccept SpecFailure SpecWriteFailure ProgressProofs FailureProofs WriteFailureProofs.

(** Writing any bundle, read from a file or put together by hand, raises exactly
    the exception of the first requirement, in writing order, that the bundle
    does not meet ... *)
Theorem C58_raises_exactly :
  forall b e, unparse_string b = Raise e <-> write_failure b = Some e.
Proof. intros b e. rewrite <- bundle_write. destruct (unparse_string b); cbn [failure]; split; congruence. Qed.
(** ... and nothing if all are met. *)
Theorem C58_succeeds_exactly :
  forall b, (exists s, unparse_string b = Ok s) <-> Forall (fun r => fst r = true) (bundle_writing b).
Proof.
  intros b. transitivity (write_failure b = None).
  - rewrite <- bundle_write. destruct (unparse_string b); cbn [failure]; split; try congruence; eauto. intros [? H]; discriminate H.
  - unfold write_failure. split; [|apply unmet_true]. induction (bundle_writing b) as [|[[|] e] l IH]; cbn [first_unmet];
      [constructor|intros H; constructor; [reflexivity|apply IH, H]|discriminate].
Qed.
(** The same for the element writers used on their own. *)
Theorem C58_element_writers :
  forall e,
    (forall h, unparse_header h = Raise e <-> first_unmet (header_writing h) = Some e)
    /\ (forall a, unparse_attribute_definition a = Raise e <-> first_unmet (attr_def_writing a) = Some e)
    /\ (forall t, unparse_spec_type t = Raise e <-> first_unmet (spec_type_writing t) = Some e)
    /\ (forall a, unparse_attribute_value a = Raise e <-> first_unmet (attr_value_writing a) = Some e)
    /\ (forall o, unparse_spec_object o = Raise e <-> first_unmet (spec_object_writing o) = Some e)
    /\ (forall r, unparse_spec_relation r = Raise e <-> first_unmet (spec_relation_writing r) = Some e)
    /\ (forall h, unparse_hier h = Raise e <-> first_unmet (hierarchy_writing h) = Some e)
    /\ (forall s, unparse_specification s = Raise e <-> first_unmet (specification_writing s) = Some e).
Proof.
  assert (G : forall {A} (r : result A) l e, failure r = first_unmet l -> (r = Raise e <-> first_unmet l = Some e)).
  { intros A r l e <-. destruct r; cbn [failure]; split; congruence. }
  intros e. repeat match goal with |- _ /\ _ => split end; intros x; apply G.
  - apply header_write.
  - apply attr_def_write.
  - apply spec_type_write.
  - apply attr_value_write.
  - apply spec_object_write.
  - apply spec_relation_write.
  - apply hier_write.
  - apply specification_write.
Qed.
(** A bundle put together by hand, without XML elements, can only fail for its
    values: the layouts are the usual ones. *)
Theorem C58_unread_elements :
  forall b, (forall a, sa_xml_node a = None -> sa_type a = AT_ENUMERATION ->
               (exists e, unparse_attribute_value a = Raise e) <-> is_list (sa_value a) = false)
    /\ (forall o, so_xml_node o = None ->
               (exists e, unparse_spec_object o = Raise e) <-> exists a e, In a (so_attributes o) /\ unparse_attribute_value a = Raise e)
    /\ (forall r, sr_xml_node r = None -> sr_values_attribute r = None -> exists s, unparse_spec_relation r = Ok s)
    /\ (b_core_content b = None -> b_header b = None -> present (ni_dump (b_namespace_info b)) = true -> exists s, unparse_string b = Ok s).
Proof.
  intros b. repeat match goal with |- _ /\ _ => split end.
  - intros a N T. pose proof (attr_value_write a) as W. unfold attr_value_writing in W. rewrite T, N in W. cbn in W.
    destruct (is_list (sa_value a)), (unparse_attribute_value a); try discriminate W; split; try congruence; eauto.
    intros [? ?]; discriminate.
  - intros o N. pose proof (spec_object_write o) as W. unfold spec_object_writing in W. rewrite N in W. cbn in W.
    split.
    + intros [e H]. rewrite H in W. cbn [failure] in W. clear H. induction (so_attributes o) as [|a l IH]; [discriminate W|].
      cbn [flat_map] in W. rewrite unmet_app in W. rewrite <- attr_value_write in W.
      destruct (unparse_attribute_value a) as [s|e'] eqn:U; cbn [failure] in W.
      * destruct (IH W) as (a' & e' & I & R). exists a', e'. split; [right; exact I|exact R].
      * exists a, e'. split; [left; reflexivity|exact U].
    + intros (a & e & I & R). destruct (unparse_spec_object o) as [s|e'] eqn:U; [|eauto]. exfalso. cbn [failure] in W. clear U.
      induction (so_attributes o) as [|a' l IH]; [destruct I|]. cbn [flat_map] in W. rewrite unmet_app, <- attr_value_write in W.
      destruct I as [->|I]; [rewrite R in W; discriminate W|].
      destruct (failure (unparse_attribute_value a')); [discriminate W|]. apply IH; assumption.
  - intros r N V. pose proof (spec_relation_write r) as W. unfold spec_relation_writing in W. rewrite N, V in W. cbn in W.
    destruct (unparse_spec_relation r); [eauto|discriminate W].
  - intros C H D. apply C58_succeeds_exactly. unfold bundle_writing, namespace_writing. rewrite C, H. cbn [existsb app]. rewrite D.
    constructor; [reflexivity|constructor].
Qed.

(** ** Bundles put together by hand, with one or two defects *)
Definition hand_made (i : namespace_info) (h : option header) (ads : list attr_def) (objs : list spec_object)
    (rels : list spec_relation) (hs : list hier) : bundle :=
  Bundle i h (Some (Some (Content None
     (Some [STObject (SpecObjectType "t" None None None (Some ads)); STGroup (RelationGroupType "g" None None None true None)])
     (Some objs) (Some rels) (Some [Specification "s" None None None None (Some "st") (Some hs) None]) None)))
   false lookup_empty [].
Example C58_example :
  let ns := namespace_info_default in
  let no_ns := NamespaceInfo None true "UTF-8" None None None None None None None in
  let head i := Some (Header i None None RepoNone None None None None) in
  let ad t dv ref nd := AttrDef t "a" (Some "d") nd None None None None ref dv None in
  let val t v nd := SpecAttr t (Some "a") v None nd in
  let obj nd vs := SpecObject "o" vs (Some "t") None None None nd in
  let rel nd v := SpecRelation "r" (Some "rt") (Some "o") (Some "o") nd None None None v in
  let hr k ks := Hier "h" (Some "o") k ks None true None None None false None in
  let el ts := Some (El None "X" [] [] [] (map (fun t => El None t [] [] [] []) ts)) in
  let good_ad := ad AT_STRING (DVStr "v") None None in
  let good_val := val AT_ENUMERATION (VList [Some "e"]) None in
  let good_obj := obj None [good_val; val AT_STRING (VStr "w") None] in
  let good_rel := rel (el ["TYPE"; "SOURCE"; "TARGET"]) None in
  let good_hier := hr 1 (Some [hr 2 None]) in
  map (fun b => (write_failure b, match unparse_string b with Raise e => Some e | Ok _ => None end))
    [hand_made ns (head (Some "h")) [good_ad] [good_obj] [good_rel] [good_hier];
     hand_made no_ns (head (Some [])) [good_ad] [good_obj] [good_rel] [good_hier];
     hand_made ns (head (Some [])) [good_ad] [good_obj] [good_rel] [good_hier];
     hand_made ns None [good_ad; ad AT_BOOLEAN (DVStr "true") None None] [good_obj] [good_rel] [good_hier];
     hand_made ns None [ad AT_STRING DVNone None (el ["TYPE"; "ALTERNATIVE-ID"])] [good_obj] [good_rel] [good_hier];
     hand_made ns None [good_ad] [good_obj; obj (el ["TYPE"]) []] [good_rel] [good_hier];
     hand_made ns None [good_ad] [obj None [val AT_ENUMERATION (VList []) (el ["DEFINITION"])]] [good_rel] [good_hier];
     hand_made ns None [good_ad] [obj None [val AT_ENUMERATION (VStr "e") None]] [good_rel] [good_hier];
     (* the defect of the relation is met before that of the hierarchy *)
     hand_made ns None [good_ad] [good_obj] [rel (el ["TYPE"; "ALTERNATIVE-ID"]) None] [hr 0 None];
     hand_made ns None [good_ad] [good_obj] [good_rel] [hr 1 (Some [hr 0 None])]]
  = map (fun e => (e, e))
    [None; Some EAssertionError; Some ENotImplementedError; Some EAssertionError; Some ENotImplementedError;
     Some EAssertionError; Some EValueError; Some EAssertionError; Some ENotImplementedError; Some EAssertionError].
Proof. vm_compute. reflexivity. Qed.

Print Assumptions C58_raises_exactly.
Print Assumptions C58_succeeds_exactly.
Print Assumptions C58_element_writers.
Print Assumptions C58_unread_elements.
