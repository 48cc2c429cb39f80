(** RT_Hier.v -- the hierarchy and specification round trips *)
From Verif Require Import Base Xml Lxml Py LxmlStr Models AttrDef DataType AttrValue SpecObj Hierarchy XmlProofs DictProofs
  SpecEscape EscapeProofs SpecPrint SpecTraversal TraversalProofs ParserProofs FaithProofs
  Frag RT RT_Header RT_DataType RT_AttrDef RT_SpecTypes RT_Values RT_Objects.

Section Hier.
Variables (p u : str) (ctx : nsmap -> Prop).

Definition fch (ind : str) (closed : bool) (o : option frag) : frag :=
  match o with
  | None => fnil
  | Some g => fws (ind ++ "  ")
              +++ (if closed then fem "CHILDREN" [] else fel "CHILDREN" [] (fws nl +++ g +++ fws (ind ++ "  ")))
              +++ fws nl
  end.
Definition nch (ind : str) (closed : bool) (g : frag) (m : nsmap) : node :=
  el "CHILDREN" [] (if closed then fnil else fws nl +++ g +++ fws (ind ++ "  ")) m.
Lemma fch_elements ind closed o m : elements (f_n (fch ind closed o) m) = match o with None => [] | Some g => [nch ind closed g m] end.
Proof.
  destruct o as [g|]; [|reflexivity]. unfold fch, nch. cbn [fapp f_n]. rewrite !elements_app.
  destruct closed; cbn [fel fem fws ftxt f_n]; rewrite !elements_chr, elements_el; reflexivity.
Qed.
Lemma spaces_more k : spaces (k + 2) = spaces k ++ "  ".
Proof. unfold spaces. rewrite repeat_app. reflexivity. Qed.
Definition hier_attrs (identifier : str) (long_name last_change : option str) (editable table : option bool) : list pattr :=
  [PA "IDENTIFIER" identifier identifier] ++ ob "IS-EDITABLE" editable ++ ob "IS-TABLE-INTERNAL" table
  ++ ta "LAST-CHANGE" last_change ++ ta "LONG-NAME" long_name.
Definition hier_closed (ch : option (list hier)) (closed : bool) : bool :=
  match ch with Some [] => closed | _ => false end.
Lemma printable_hier_eq h : printable_hier h <->
  attr_raw (h_identifier h) /\ ref_ok (h_spec_object h) /\ when attr_raw (h_long_name h) /\ when attr_raw (h_last_change h)
  /\ Forall printable_hier (h_kids h).
Proof.
  destruct h as [i so lv [l|] ln o lc ed tb sc nd]; cbn [printable_hier h_identifier h_spec_object h_long_name h_last_change h_kids h_children].
  - assert (E : forall l, (fix all (l : list hier) : Prop :=
                        match l with [] => True | x :: l' => printable_hier x /\ all l' end) l <-> Forall printable_hier l).
    { clear. induction l as [|k l IH]; [split; auto|]. rewrite Forall_cons_iff, IH. reflexivity. }
    rewrite E. reflexivity.
  - intuition.
Qed.
Lemma editable_bool o : editable_of (option_map bool_str o) = o.
Proof. destruct o as [[]|]; reflexivity. Qed.
Lemma find_nch t ind closed g m l : find_list t (nch ind closed g m :: l) = if str_eqb "CHILDREN" t then Some (nch ind closed g m) else find_list t l.
Proof. apply find_cons. Qed.
Lemma find_nblock' t ind t' r o m l : find_list t (nblock ind t' r o m :: l) = if str_eqb t' t then Some (nblock ind t' r o m) else find_list t l.
Proof. apply find_cons. Qed.

Lemma rt_hier h : forall k, leveled (S k) h -> printable_hier h ->
  rt p u ctx unparse_hier (parse_hier (S k)) erase_hier normal_hier (fun _ => false) h.
Proof.
  induction h as [h IH] using hier_ind'. intros k HL HP. apply leveled_eq in HL. destruct HL as [HL HLK].
  apply printable_hier_eq in HP. destruct HP as (H1 & H2 & H3 & H4 & HPK).
  destruct h as [i so lv ch ln ord lc ed tb sc nd]. cbn [h_identifier h_spec_object h_long_name h_last_change h_level h_kids h_children] in *. subst lv.
  set (ind := spaces (12 + k * 4)).
  assert (HI : forallb text_plain ind = true) by apply spaces_white.
  assert (HI2 : forallb text_plain (ind ++ "  ") = true) by (rewrite forallb_app, HI; reflexivity).
  assert (EK : exists o, (match ch, o with Some l, Some g =>
        good p u g /\ (let! parts := mapM unparse_hier l in Ok (concat parts)) = Ok (f_str g) /\ f_use g = false
        /\ forall m, ctx m -> exists l', mapM (parse_hier (S (S k))) (elements (f_n g m)) = Ok l' /\ map erase_hier l' = map normal_hier l /\ mapM unparse_hier l' = mapM unparse_hier l
      | None, None => True | _, _ => False end)).
  { destruct ch as [l|]; [|exists None; exact I].
    assert (HR : rts p u ctx unparse_hier (parse_hier (S (S k))) erase_hier normal_hier (fun _ => false) l).
    { apply rt_list. rewrite Forall_forall in *. intros x Hx. apply IH; auto. }
    destruct HR as (g & G1 & G2 & G3 & G4). exists (Some g). split; [exact G1|]. split; [exact G2|]. split; [|exact G4].
    rewrite G3. clear. induction l; [reflexivity|exact IHl]. }
  destruct EK as (og & EK).
  remember (hier_closed ch sc) as closed eqn:ECL.
  set (fc := fch ind closed og). set (fo := fblock (spaces (12 + k * 4 + 2)) "OBJECT" "SPEC-OBJECT-REF" so).
  set (body := fws nl +++ (if ord then fo +++ fc else fc +++ fo) +++ fws ind).
  set (as_ := hier_attrs i ln lc ed tb).
  assert (GC : good p u fc).
  { unfold fc, fch. destruct og as [g|]; [|apply good_nil]. destruct ch as [l|]; [|destruct EK]. destruct EK as (G1 & _).
    apply good_app; [apply good_ws, HI2|]. apply good_app; [|apply good_ws; reflexivity]. destruct closed.
    - apply good_em; [reflexivity|split; [reflexivity|constructor]].
    - apply good_el; [reflexivity|split; [reflexivity|constructor]|]. apply good_app; [apply good_ws; reflexivity|]. apply good_app; [exact G1|apply good_ws, HI2]. }
  assert (GO : good p u fo) by (apply fblock_good; [reflexivity|reflexivity|exact H2]).
  assert (SO : f_str fo = print_object ind so).
  { unfold fo. rewrite fblock_str by exact H2. rewrite spaces_more. fold ind. unfold print_object. strs. }
  assert (SC : match ch with
        | None => Ok []
        | Some l => if (match l with [] => sc | _ => false end) then Ok (ind ++ "  <CHILDREN/>" ++ nl)
            else let! parts := mapM unparse_hier l in
              Ok (ind ++ "  <CHILDREN>" ++ nl ++ concat parts ++ ind ++ "  </CHILDREN>" ++ nl)
        end = Ok (f_str fc)).
  { unfold fc, fch. destruct ch as [l|], og as [g|]; [|destruct EK|destruct EK|try rewrite ECL; reflexivity]. destruct EK as (_ & G2 & _).
    assert (EL : (match l with [] => sc | _ => false end) = closed) by (rewrite ECL; destruct l; reflexivity).
    rewrite EL. clear EL ECL. destruct closed; [cbn [fapp fem f_str fws ftxt]; strs|]. destruct (mapM unparse_hier l) as [parts|]; [|discriminate]. cbn [bind] in *.
    apply Ok_inj in G2. rewrite G2. cbn [fapp fel f_str fws ftxt]. strs. }
  assert (EU : unparse_hier (Hier i so (S k) ch ln ord lc ed tb sc nd)
    = Ok (ind ++ "<SPEC-HIERARCHY" ++ render_attrs as_ ++ ">" ++ nl ++ (if ord then f_str fo ++ f_str fc else f_str fc ++ f_str fo) ++ ind ++ "</SPEC-HIERARCHY>" ++ nl)).
  { cbn [unparse_hier base_level bind]. fold unparse_hier ind. rewrite SC. cbn [bind]. rewrite <- SO. unfold as_, hier_attrs. renders. f_equal. destruct ord; strs. }
  exists (fws ind +++ fel "SPEC-HIERARCHY" as_ body +++ fws nl). split; [|split; [|split]].
  - apply good_app; [apply good_ws, HI|]. apply good_app; [|apply good_ws; reflexivity]. apply good_el; [reflexivity|unfold as_, hier_attrs; okattrs_tac|].
    unfold body. apply good_app; [apply good_ws; reflexivity|]. apply good_app; [|apply good_ws, HI]. destruct ord; apply good_app; assumption.
  - rewrite EU. f_equal. unfold body. cbn [fapp fel f_str fws ftxt]. destruct ord; cbn [fapp f_str]; strs.
  - assert (UC : f_use fc = false).
    { unfold fc, fch. destruct og as [g|]; [|reflexivity]. destruct ch as [l|]; [|destruct EK]. destruct EK as (_ & _ & G3 & _).
      destruct closed; cbn [fapp fel fem f_use fws ftxt]; rewrite ?G3; reflexivity. }
    unfold body. cbn [fapp fel f_use fws ftxt]. destruct ord; cbn [fapp f_use]; rewrite UC; reflexivity.
  - intros m Hm. set (n := el "SPEC-HIERARCHY" as_ body m).
    assert (EKm : exists l', map_list erase_hier l' = map_list normal_hier ch
        /\ match og with Some g => let! hs := mapM (parse_hier (S (S k))) (children (nch ind closed g m)) in Ok (Some hs) | None => Ok None end = Ok l'
        /\ match l' with
        | None => Ok []
        | Some l => if (match l with [] => closed | _ => false end) then Ok (ind ++ "  <CHILDREN/>" ++ nl)
            else let! parts := mapM unparse_hier l in
              Ok (ind ++ "  <CHILDREN>" ++ nl ++ concat parts ++ ind ++ "  </CHILDREN>" ++ nl)
        end = Ok (f_str fc)).
    { destruct ch as [l|], og as [g|]; [|destruct EK|destruct EK|exists None; repeat split]. destruct EK as (_ & _ & _ & G4).
      destruct (G4 m Hm) as (l' & L1 & L2 & L3). exists (Some l'). cbn [map_list option_map]. rewrite L2. split; [reflexivity|].
      split.
      - unfold nch. rewrite children_el. destruct closed.
        + cbn [fnil f_n elements filter mapM bind]. destruct l as [|x l]; [|discriminate ECL]. destruct l'; [reflexivity|discriminate].
        + cbn [fapp f_n]. rewrite !elements_app. cbn [fws ftxt f_n]. rewrite !elements_chr, app_nil_r, app_nil_l, L1. reflexivity.
      - rewrite <- SC. rewrite L3, ECL. destruct l as [|x l], l' as [|x' l']; try discriminate; reflexivity. }
    destruct EKm as (l' & L1 & L2 & L3).
    set (h' := Hier i so (S k) l' (drop_empty ln) (match ch with Some _ => ord | None => false end) (drop_empty lc) ed tb closed (Some n)).
    exists n, h'. split; [|split; [|split]].
    + cbn [fapp f_n]. rewrite !elements_app. cbn [fel fws ftxt f_n]. rewrite !elements_chr, elements_el. reflexivity.
    + assert (HA : forall q, attr_opt q n = assoc q (map attr_of as_)) by (intros q; apply attr_el).
      set (no := nblock (spaces (12 + k * 4 + 2)) "OBJECT" "SPEC-OBJECT-REF" so m).
      assert (EC : children n = if ord then no :: match og with None => [] | Some g => [nch ind closed g m] end
                                else match og with None => [] | Some g => [nch ind closed g m] end ++ [no]).
      { unfold n. rewrite children_el. unfold body. cbn [fapp f_n]. rewrite !elements_app. cbn [fws ftxt f_n]. rewrite !elements_chr, app_nil_r, app_nil_l.
        destruct ord; cbn [fapp f_n]; rewrite elements_app; unfold fc; rewrite fch_elements; unfold fo; rewrite fblock_elements; reflexivity. }
      assert (F1 : find_child "OBJECT" n = Some no).
      { rewrite find_child_elements, EC. unfold no. destruct ord; [|destruct og; cbn [app]; rewrite ?find_nch]; lits; rewrite ?find_nblock'; lits; reflexivity. }
      assert (F2 : find_child "CHILDREN" n = match og with Some g => Some (nch ind closed g m) | None => None end).
      { rewrite find_child_elements, EC. unfold no. destruct ord; rewrite ?find_nblock'; lits; destruct og; cbn [app]; rewrite ?find_nch; lits; rewrite ?find_nblock'; lits; reflexivity. }
      assert (F3 : tags_eqb (child_tags n) [Some "OBJECT"; Some "CHILDREN"] = match ch with Some _ => ord | None => false end).
      { unfold child_tags. rewrite EC. unfold no. destruct ch as [l|], og as [g|]; [|destruct EK|destruct EK|]; destruct ord; reflexivity. }
      assert (F4 : (match find_child "CHILDREN" n with Some c => is_self_closed_tag c | None => false end) = closed).
      { rewrite F2. destruct ch as [l|], og as [g|]; [|destruct EK|destruct EK|try rewrite ECL; reflexivity]. unfold nch. rewrite self_closed_el. destruct closed; [reflexivity|].
        cbn [fapp f_n]. rewrite !elements_app. cbn [fws ftxt f_n]. rewrite !elements_chr. cbn [app]. destruct (elements (f_n g m) ++ []); reflexivity. }
      assert (F5 : match find_child "CHILDREN" n with None => Ok None | Some c => let! hs := mapM (parse_hier (S (S k))) (children c) in Ok (Some hs) end = Ok l').
      { rewrite F2. destruct og; exact L2. }
      assert (PE := parse_hier_eq (S k) None "SPEC-HIERARCHY" [] m (map pnode as_) (f_n body m)). cbv zeta in PE.
      change (El None "SPEC-HIERARCHY" [] m (map pnode as_) (f_n body m)) with n in PE. rewrite PE. clear PE.
      change (tag_is "SPEC-HIERARCHY" n) with true. rewrite F3, F4, F5. unfold find_req, attr_req. rewrite F1, !HA. unfold h', no. clearbody n. cbn [bind py_assert].
      unfold as_, hier_attrs. attrs. rewrite !nblock_find. cbn [bind]. rewrite text_ref by exact H2. rewrite !editable_bool. reflexivity.
    + unfold h'. cbn [erase_hier normal_hier]. unfold map_list in L1. rewrite L1, ECL. unfold hier_closed. destruct ch as [[|x l]|]; reflexivity.
    + rewrite EU. unfold h'. cbn [unparse_hier base_level bind]. fold unparse_hier ind. rewrite L3. cbn [bind]. rewrite <- SO. rewrite !truthy_drop.
      unfold as_, hier_attrs. renders. f_equal. destruct ch as [l|].
      * destruct ord; strs.
      * destruct og; [destruct EK|]. unfold fc. cbn [fch fnil f_str]. destruct ord; rewrite ?app_nil_r, ?app_nil_l; strs.
Qed.

Lemma rt_hiers l : Forall (leveled 1) l -> Forall printable_hier l ->
  rts p u ctx unparse_hier (parse_hier 1) erase_hier normal_hier (fun _ => false) l.
Proof. intros H1 H2. apply rt_list. rewrite Forall_forall in *. intros x Hx. apply rt_hier; auto. Qed.
End Hier.

Lemma filter_rev' {A} (f : A -> bool) l : filter f (rev l) = rev (filter f l).
Proof. induction l as [|x l IH]; [reflexivity|]. cbn [rev filter]. rewrite filter_app, IH. cbn [filter]. destruct (f x); [reflexivity|apply app_nil_r]. Qed.

Section Specification.
Variables (p u : str) (ctx : nsmap -> Prop) (V : str -> Prop) (strip : str -> str) (xuse : str -> bool).
Hypothesis VX : forall v, V v -> exists f, good p u f /\ f_str f = v /\ f_use f = xuse v
  /\ forall m, ctx m -> xhtml_pair (el "THE-VALUE" [] f m) = Ok (v, strip v).

Definition sp_use (s : specification) : bool :=
  match sp_values s with Some l => existsb (sa_use xuse) l | None => false end.
Definition fsptype (o : option str) : frag := foref "TYPE" "SPECIFICATION-TYPE-REF" (drop_empty o).
Definition fspch (o : option frag) : frag :=
  match o with None => fnil
  | Some g => fws "          " +++ fel "CHILDREN" [] (fws nl +++ g +++ fws "          ") +++ fws nl end.
Definition fsp (fv : frag) (oc : option frag) (s : specification) (t : option str) : frag :=
  if ostr_eqb t (Some "TYPE") then fsptype (sp_specification_type s)
  else if ostr_eqb t (Some "CHILDREN") then fspch oc
  else if ostr_eqb t (Some "VALUES") then fv else fnil.
Definition sp_attrs (s : specification) : list pattr :=
  oa "DESC" lxml_escape_for_html (sp_description s) ++ [PA "IDENTIFIER" (sp_identifier s) (sp_identifier s)]
  ++ oa "LAST-CHANGE" raw (sp_last_change s) ++ oa "LONG-NAME" lxml_escape_for_html (sp_long_name s).

Lemma rt_specification s : printable_specification V s ->
  rt p u ctx unparse_specification parse_specification erase_specification (normal_specification strip) sp_use s.
Proof.
  intros (H1 & H2 & H3 & H4 & H5 & H6 & H7 & H8 & H9 & H10 & H11).
  assert (HT : drop_empty (sp_specification_type s) <> None -> ref_ok (drop_empty (sp_specification_type s))).
  { destruct (sp_specification_type s) as [[|c x]|]; cbn [drop_empty]; intros HN; try congruence. exists (c :: x). split; [reflexivity|]. split; [discriminate|exact H5]. }
  (* values *)
  assert (HV : exists f, good p u f /\ unparse_attribute_values (sp_values s) = Ok (f_str f) /\ f_use f = sp_use s /\
    forall m, ctx m -> exists o', map_list erase_value o' = map_list (normal_value strip) (sp_values s)
      /\ unparse_attribute_values o' = unparse_attribute_values (sp_values s)
      /\ match sp_values s with
         | None => elements (f_n f m) = [] /\ f_str f = [] /\ o' = None
         | Some _ => exists nv, elements (f_n f m) = [nv] /\ tag nv = Some "VALUES" /\ parse_attribute_values (Some nv) = Ok o' end).
  { unfold sp_use. destruct (sp_values s) as [l|].
    - destruct (rt_values p u ctx V strip xuse VX l H6) as (f & F1 & F2 & F3 & F4). exists f. split; [exact F1|]. split; [exact F2|]. split; [exact F3|].
      intros m Hm. destruct (F4 m Hm) as (nv & l' & N1 & N2 & N3 & N4 & N5). exists (Some l'). cbn [map_list option_map]. rewrite N4. split; [reflexivity|].
      split; [exact N5|]. exists nv. auto.
    - exists fnil. split; [apply good_nil|]. split; [reflexivity|]. split; [reflexivity|]. intros m _. exists None. repeat split. }
  destruct HV as (fv & V1 & V2 & V3 & V4).
  (* children *)
  assert (HC : exists oc, good p u (fspch oc)
     /\ match sp_children s with None => Ok [] | Some l => unparse_specification_children l end = Ok (f_str (fspch oc))
     /\ f_use (fspch oc) = false
     /\ forall m, ctx m -> exists o', map_list erase_hier o' = map_list normal_hier (sp_children s)
        /\ match o' with None => Ok [] | Some l => unparse_specification_children l end
           = match sp_children s with None => Ok [] | Some l => unparse_specification_children l end
        /\ match sp_children s with
           | None => elements (f_n (fspch oc) m) = [] /\ f_str (fspch oc) = [] /\ o' = None
           | Some _ => exists nc, elements (f_n (fspch oc) m) = [nc] /\ tag nc = Some "CHILDREN"
               /\ (let! hs := mapM (parse_hier 1) (children nc) in Ok (Some hs)) = Ok o' end).
  { destruct (sp_children s) as [l|].
    - cbn [each] in H7, H8. destruct (rt_hiers p u ctx l H8 H7) as (g & G1 & G2 & G3 & G4). exists (Some g).
      unfold unparse_specification_children. split; [|split; [|split]].
      + cbn [fspch]. good_body. apply good_el; [reflexivity|split; [reflexivity|constructor]|]. good_body. exact G1.
      + destruct (mapM unparse_hier l) as [parts|]; [|discriminate]. cbn [bind] in *. apply Ok_inj in G2. rewrite G2. f_equal; cbn [fspch fapp fel f_str fws ftxt]; strs.
      + cbn [fspch fapp fel f_use fws ftxt]. rewrite G3. assert (E : existsb (fun _ : hier => false) l = false) by (clear; induction l; [reflexivity|exact IHl]). rewrite E. reflexivity.
      + intros m Hm. destruct (G4 m Hm) as (l' & L1 & L2 & L3). exists (Some l'). cbn [map_list option_map]. rewrite L2, L3. split; [reflexivity|]. split; [reflexivity|].
        eexists. split; [cbn [fspch fapp f_n]; rewrite !elements_app; cbn [fel fws ftxt f_n]; rewrite !elements_chr, elements_el; reflexivity|]. split; [reflexivity|].
        rewrite children_el. cbn [fapp f_n]. rewrite !elements_app. cbn [fws ftxt f_n]. rewrite !elements_chr, app_nil_r, app_nil_l, L1. reflexivity.
    - exists None. split; [apply good_nil|]. split; [reflexivity|]. split; [reflexivity|]. intros m _. exists None. repeat split. }
  destruct HC as (oc & C1 & C2 & C3 & C4).
  assert (HPR : forall t, In t (sp_order s) -> unparse_sp_child s t = Ok (f_str (fsp fv oc s t))).
  { intros t _. unfold unparse_sp_child, fsp. destruct (ostr_eqb t (Some "TYPE")).
    - unfold fsptype. rewrite foref_str by exact HT. f_equal. destruct (sp_specification_type s) as [[|c x]|]; [reflexivity| |reflexivity]. cbn [drop_empty ref_block]. strs.
    - destruct (ostr_eqb t (Some "CHILDREN")); [exact C2|]. destruct (ostr_eqb t (Some "VALUES")); [exact V2|reflexivity]. }
  exists (fws "        " +++ fel "SPECIFICATION" (sp_attrs s) (fws nl +++ fblocks (fsp fv oc s) (sp_order s) +++ fws "        ") +++ fws nl).
  split; [|split; [|split]].
  - apply ordered_good; [reflexivity|unfold sp_attrs, raw; okattrs_tac|reflexivity|]. intros t _. unfold fsp.
    destruct (ostr_eqb t (Some "TYPE")); [apply foref_good; [reflexivity|reflexivity|exact HT]|].
    destruct (ostr_eqb t (Some "CHILDREN")); [exact C1|]. destruct (ostr_eqb t (Some "VALUES")); [exact V1|apply good_nil].
  - unfold unparse_specification. change (tags_or (sp_xml_node s) ["TYPE"; "CHILDREN"; "VALUES"]) with (sp_order s).
    pose proof (blocks_print (fsp fv oc s) (sp_order s) _ HPR) as HP. destruct (mapM _ _) as [parts|]; [|discriminate].
    cbn [bind] in HP |- *. apply Ok_inj in HP. f_equal. unfold sp_attrs. cbn [fapp fel f_str fws ftxt]. rewrite HP. renders. strs.
  - rewrite ordered_use.
    assert (HO : forall x, x <> Some "VALUES" -> f_use (fsp fv oc s x) = false).
    { intros x N. unfold fsp. destruct (ostr_eqb x (Some "TYPE")); [apply foref_use|]. destruct (ostr_eqb x (Some "CHILDREN")); [exact C3|].
      destruct (ostr_eqb_spec x (Some "VALUES")); [contradiction|reflexivity]. }
    destruct (sp_values s) as [l|] eqn:EV.
    + apply (existsb_one _ _ (Some "VALUES")); [apply H11; discriminate|exact V3|exact HO].
    + unfold sp_use in V3 |- *. rewrite EV in V3 |- *. apply not_true_is_false. intros H. apply existsb_exists in H. destruct H as (x & _ & Hx).
      destruct (ostr_eqb_spec x (Some "VALUES")) as [->|N]; [unfold fsp in Hx; lits|rewrite HO in Hx by exact N; discriminate].
      revert Hx. lits. congruence.
  - intros m Hm. destruct (V4 m Hm) as (v' & N1 & N2 & N3). destruct (C4 m Hm) as (c' & M1 & M2 & M3).
    set (n := el "SPECIFICATION" (sp_attrs s) (fws nl +++ fblocks (fsp fv oc s) (sp_order s) +++ fws "        ") m).
    assert (EC : children n = elements (f_n (fblocks (fsp fv oc s) (sp_order s)) m)) by apply ordered_children.
    assert (HB : block_ok (fsp fv oc s) (sp_order s) m).
    { intros t _. unfold fsp. destruct (ostr_eqb_spec t (Some "TYPE")) as [->|].
      { unfold fsptype. rewrite foref_elements. destruct (drop_empty _); [right; eexists; split; reflexivity|left; split; reflexivity]. }
      destruct (ostr_eqb_spec t (Some "CHILDREN")) as [->|].
      { destruct (sp_children s); [right|left; tauto]. destruct M3 as (nc & A1 & A2 & _). eauto. }
      destruct (ostr_eqb_spec t (Some "VALUES")) as [->|]; [|left; split; reflexivity].
      destruct (sp_values s); [right|left; tauto]. destruct N3 as (nv & A1 & A2 & _). eauto. }
    set (s' := Specification (sp_identifier s) (sp_description s) (sp_last_change s) (sp_long_name s) v' (drop_empty (sp_specification_type s)) c' (Some n)).
    exists n, s'. split; [apply ordered_elements|]. split; [|split].
    + assert (HA : forall q, attr_opt q n = assoc q (map attr_of (sp_attrs s))) by (intros q; apply attr_el).
      assert (HTG : tag_contains "SPECIFICATION" n = Ok true) by reflexivity.
      assert (F1 : opt_ref "TYPE" "SPECIFICATION-TYPE-REF" n = drop_empty (sp_specification_type s)).
      { unfold opt_ref. rewrite find_child_elements, EC, find_blocks by exact HB. unfold fsp. lits. unfold fsptype. rewrite foref_elements.
        destruct (drop_empty (sp_specification_type s)) as [x|] eqn:ED.
        - assert (HI : In (Some "TYPE") (sp_order s)) by (apply H9; discriminate). apply ostr_mem_In in HI. rewrite HI. cbn [hd_error]. rewrite nblock_find.
          apply text_ref, HT. discriminate.
        - cbn [hd_error]. destruct (ostr_mem _ _); reflexivity. }
      assert (F2 : parse_attribute_values (find_child "VALUES" n) = Ok v').
      { rewrite find_child_elements, EC, find_blocks by exact HB. unfold fsp. lits. destruct (sp_values s) as [l|].
        - destruct N3 as (nv & A1 & A2 & A3). assert (HI : In (Some "VALUES") (sp_order s)) by (apply H11; discriminate). apply ostr_mem_In in HI. rewrite HI, A1. exact A3.
        - destruct N3 as (A1 & A2 & ->). rewrite A1. cbn [hd_error]. destruct (ostr_mem _ _); reflexivity. }
      assert (F3 : match last_child "CHILDREN" n with None => Ok None | Some c => let! hs := mapM (parse_hier 1) (children c) in Ok (Some hs) end = Ok c').
      { unfold last_child.
        assert (EL : find_list "CHILDREN" (rev (kids_of n)) = find_list "CHILDREN" (rev (children n))).
        { unfold children, find_list. generalize (kids_of n). clear. intros l. rewrite <- !filter_rev'. generalize (rev l). clear. intros l.
          induction l as [|x l IH]; [reflexivity|]. cbn [filter find]. destruct x; cbn [is_chr negb]; cbn [find]; [exact IH|destruct (tag_is _ _); [reflexivity|exact IH]..]. }
        rewrite EL, EC, find_blocks_last by exact HB. unfold fsp. lits. destruct (sp_children s) as [l|].
        - destruct M3 as (nc & A1 & A2 & A3). assert (HI : In (Some "CHILDREN") (sp_order s)) by (apply H10; discriminate). apply ostr_mem_In in HI. rewrite HI, A1. exact A3.
        - destruct M3 as (A1 & A2 & ->). rewrite A1. cbn [hd_error]. destruct (ostr_mem _ _); reflexivity. }
      unfold parse_specification, attr_req. rewrite HTG, F1, F2, F3, !HA. unfold s'. clearbody n. cbn [bind py_assert]. unfold sp_attrs. attrs. reflexivity.
    + unfold s', erase_specification, normal_specification. cbn [sp_identifier sp_description sp_last_change sp_long_name sp_values sp_specification_type sp_children]. rewrite N1, M1. reflexivity.
    + unfold unparse_specification. change (tags_or (sp_xml_node s) ["TYPE"; "CHILDREN"; "VALUES"]) with (sp_order s).
      change (tags_or (sp_xml_node s') ["TYPE"; "CHILDREN"; "VALUES"]) with (map tag (children n)). rewrite EC.
      assert (HR := blocks_reprint (fsp fv oc s) (sp_order s) (unparse_sp_child s') m HB).
      pose proof (blocks_print (fsp fv oc s) (sp_order s) _ HPR) as HP. rewrite <- HP in HR.
      destruct (mapM (unparse_sp_child s) _) as [parts|]; [|discriminate].
      assert (HR' : (let! parts0 := mapM (unparse_sp_child s') (map tag (elements (f_n (fblocks (fsp fv oc s) (sp_order s)) m))) in Ok (concat parts0)) = Ok (concat parts)).
      { apply HR. intros t Ht _. rewrite <- HPR by exact Ht. unfold unparse_sp_child. cbn [s' sp_values sp_children sp_specification_type]. rewrite N2, M2.
        destruct (sp_specification_type s) as [[|c x]|]; reflexivity. }
      destruct (mapM (unparse_sp_child s') _) as [parts'|]; [|discriminate]. cbn [bind] in *. apply Ok_inj in HR'. rewrite HR'. reflexivity.
Qed.
End Specification.
