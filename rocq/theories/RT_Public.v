(** RT_Public.v -- from fragments to statements about documents *)
From Verif Require Import Base Xml Utf8 Lxml Py LxmlStr Models AttrDef DataType Header AttrValue SpecObj Hierarchy
  SpecTypes Parser Unparser XmlProofs DictProofs SpecEscape EscapeProofs SpecPrint SpecXhtml
  SpecDocument SpecRoundTrip Frag RT RT_Header RT_AttrDef RT_SpecTypes RT_Values RT_Xhtml RT_Content RT_Document RT_Strip.

Lemma read_plain_document r body : root_ok r -> reads (f_str body) (f_x body) ->
  etree_parse (root_text r ++ f_str body ++ "</REQ-IF>")
  = Some (XDoc None (XElem "REQ-IF" (map attr_of (root_pattrs r)) (f_x body))).
Proof.
  intros HR HB. assert (E : read_text (root_text r ++ f_str body ++ "</REQ-IF>")
    = Some (XDoc None (XElem "REQ-IF" (map attr_of (root_pattrs r)) (f_x body)))).
  { unfold read_text. rewrite root_text_eq.
    assert (SB : forall s, skip_bom (("<REQ-IF" ++ render_attrs (root_pattrs r) ++ ">") ++ s) = ("<REQ-IF" ++ render_attrs (root_pattrs r) ++ ">") ++ s) by reflexivity.
    rewrite SB.
    assert (T : ("<REQ-IF" ++ render_attrs (root_pattrs r) ++ ">") ++ f_str body ++ "</REQ-IF>"
      = "<" ++ "REQ-IF" ++ render_attrs (root_pattrs r) ++ ">" ++ f_str body ++ "</" ++ "REQ-IF" ++ ">") by (rewrite <- !app_assoc; reflexivity).
    rewrite T. unfold init. rewrite (run_elem "REQ-IF" (root_pattrs r) (f_str body) (f_x body)); [|reflexivity|apply root_wf, HR|apply reads_reads0, HB].
    reflexivity. }
  unfold etree_parse. rewrite E. reflexivity.
Qed.
Lemma frag_stands_in r p u f n : root_ok r -> dict_get (rt_decls r) None = None ->
  (f_use f = true -> dict_get (rt_decls r) (Some p) = Some u) ->
  good p u f -> elements (f_n f (rt_decls r)) = [n] -> stands_in r (f_str f) n.
Proof.
  intros HR HD HU HG HN. exists (root_node r (f_n f (rt_decls r))). split.
  - unfold lxml_parse. rewrite read_plain_document; [|exact HR|apply HG]. cbn [d_root d_decl].
    rewrite (root_resolve r HR (f_n f (rt_decls r))); [reflexivity|].
    apply (g_plain p u f HG); [exact HU|exact HD].
  - unfold root_node, children. cbn [kids_of]. exact HN.
Qed.
Lemma plain_root_ok : root_ok plain_root.
Proof. repeat split; try constructor. Qed.
Lemma xhtml_root_ok p u : xhtml_ns p u -> root_ok (xhtml_root p u).
Proof.
  intros [H _]. repeat split; cbn.
  - constructor; [intros []|constructor].
  - constructor; [intros []|constructor].
  - constructor; [exact H|constructor].
  - constructor.
  - constructor.
Qed.
Lemma xhtml_ns_parts p u : xhtml_ns p u -> plain_name p = true /\ p <> "xml" /\ contains xhtml_uri u = true.
Proof. intros [(_ & _ & _ & [H _] & H2 & _) H3]. auto. Qed.
Definition here (p u : str) : nsmap := [(Some p, u)].

Section Here.
Context {X : Type}.
Variables (unp : X -> result str) (erase normal : X -> X) (use : X -> bool) (x : X).
Lemma rt_xhtml p u parse : xhtml_ns p u ->
  rt p u (fun m => m = here p u) unp parse erase normal use x ->
  round_trip (xhtml_root p u) unp parse erase normal x.
Proof.
  intros HX (f & F1 & F2 & F3 & F4). destruct (F4 _ eq_refl) as (n & x' & A1 & A2 & A3 & A4).
  exists (f_str f), n, x'. split; [exact F2|]. split; [|split; [exact A2|split; [exact A3|rewrite A4; exact F2]]].
  eapply frag_stands_in; [apply xhtml_root_ok, HX|reflexivity| |exact F1|exact A1].
  intros _. cbn [xhtml_root rt_decls dict_get ostr_eqb]. rewrite str_eqb_refl. reflexivity.
Qed.
Lemma rt_plain parse : (forall p u, rt p u (fun _ => True) unp parse erase normal (fun _ => false) x) ->
  round_trip plain_root unp parse erase normal x.
Proof.
  intros H. destruct (H "xhtml" xhtml_uri) as (f & F1 & F2 & F3 & F4). destruct (F4 [] I) as (n & x' & A1 & A2 & A3 & A4).
  exists (f_str f), n, x'. split; [exact F2|]. split; [|split; [exact A2|split; [exact A3|rewrite A4; exact F2]]].
  eapply frag_stands_in; [apply plain_root_ok|reflexivity| |exact F1|exact A1]. rewrite F3. discriminate.
Qed.
Lemma solid_ok (parse : node -> result (option X)) n x' : solid parse n = Ok x' -> parse n = Ok (Some x').
Proof. unfold solid. destruct (parse n) as [[y|]|e]; cbn; try discriminate. intros E. apply Ok_inj in E. subst. reflexivity. Qed.
Lemma round_trip_solid r parse : round_trip r unp (solid parse) erase normal x -> round_trip_opt r unp parse erase normal x.
Proof.
  intros (s & n & x' & H1 & H2 & H3 & H4). exists s, n, x'. split; [exact H1|]. split; [exact H2|]. split; [apply solid_ok, H3|exact H4].
Qed.
End Here.

(** the XHTML values that can be written below the tag [xhtml_root p u] *)
Lemma xhtml_text_value p u v : xhtml_text p v <-> xhtml_value (here p u) p u v.
Proof.
  split.
  - intros (f & H1 & H2). exists f. split; [exact H1|]. split; [exact H2|]. split; [intros _; reflexivity|discriminate].
  - intros (f & H1 & H2 & _). exists f. auto.
Qed.
Lemma xhtml_text_default p u v : xhtml_text p v <-> xhtml_default (here p u) p u v.
Proof.
  unfold xhtml_default. rewrite <- xhtml_text_value. split; [intros H; split; [exact H|discriminate]|intros [H _]; exact H].
Qed.
Section HereX.
Variables p u : str.
Hypothesis HX : xhtml_ns p u.
Lemma here_default : ~ In (None, u) (here p u).
Proof. intros [H|[]]. discriminate. Qed.
Lemma DX_here v : xhtml_text p v -> exists f, good p u f /\ f_str f = v /\ f_use f = lt_in v
  /\ forall m, m = here p u -> stringify_namespaced_children (el "THE-VALUE" [] f m) None = Ok v.
Proof.
  intros H. apply (xhtml_text_default p u) in H. destruct (xhtml_ns_parts p u HX) as (H1 & H2 & H3).
  apply (DX_xhtml p u (here p u)); auto using here_default.
Qed.
Lemma VX_here v : xhtml_text p v -> exists f, good p u f /\ f_str f = v /\ f_use f = lt_in v
  /\ forall m, m = here p u -> xhtml_pair (el "THE-VALUE" [] f m) = Ok (v, strip_text p v).
Proof.
  intros H. apply (xhtml_text_value p u) in H. destruct (xhtml_ns_parts p u HX) as (H1 & H2 & H3).
  apply (VX_xhtml p u (here p u) (strip_text p)); auto using here_default, strip_text_strips.
Qed.
End HereX.
