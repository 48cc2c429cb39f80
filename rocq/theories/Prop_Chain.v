(** Prop_Chain.v -- C84: any number of format and passthrough commands, one after the other *)
From Verif Require Import Base Xml Utf8 Lxml Py Models Progress Parser Unparser Serialise Validate Zip Anonymize Dump Commands
  SpecCommands SpecPrint SpecDocument SpecXml SpecFormat SpecLayout SpecConventional SpecAccept SpecKeep SpecChain
  XmlProofs ParserProofs FormatProofs SpaceProofs LayoutProofs Utf8Proofs Prop_Accept Prop_Document Prop_Settle Prop_Commands Prop_Format Prop_Reformat ConventionalCheck Prop_Conventional Prop_ConventionalFormat.
From Verif Require Import SpecAnonymize SpecHidden SpecParse Prop_ConventionalAnonymize.
From Verif Require SpecParallel Prop_Parallel.

(** ** What can be formatted can be formatted again *)
Lemma digits_ascii d c : number 10 decimal d c -> ascii d.
Proof.
  intros H. induction H as [c d [E L]|s n c d _ IH [E L]]; [constructor; [lia|constructor]|].
  apply Forall_app. split; [exact IH|]. constructor; [lia|constructor].
Qed.
Lemma encoded_is_ascii s s' : SpecFormat.encoded true s s' -> ascii s'.
Proof.
  intros H. induction H as [|c s s' C _ IH|c d s s' _ _ D _ IH]; [constructor|constructor; auto|].
  constructor; [reflexivity|]. constructor; [reflexivity|]. apply Forall_app. split; [apply (digits_ascii _ _ D)|]. constructor; [reflexivity|exact IH].
Qed.
Lemma white_dec c : white c \/ ~ white c.
Proof. destruct (in_dec N.eq_dec c [0x20; 0x9; 0xD; 0xA]%N); auto. Qed.
Lemma split_white s : exists w r, s = w ++ r /\ Forall white w /\ match r with [] => True | c :: _ => ~ white c end.
Proof.
  induction s as [|c s (w & r & -> & A & B)]; [exists [], []; auto|].
  destruct (white_dec c) as [W|W]; [exists (c :: w), r; auto|]. exists [], (c :: w ++ r). auto.
Qed.
Lemma split_word s : exists w r, s = w ++ r /\ Forall (fun c => ~ white c) w /\ match r with [] => True | c :: _ => white c end.
Proof.
  induction s as [|c s (w & r & -> & A & B)]; [exists [], []; auto|].
  destruct (white_dec c) as [W|W]; [exists [], (c :: w ++ r); auto|]. exists (c :: w), r. auto.
Qed.
Lemma portable_instruction s : ascii s -> portable true (Pin s).
Proof.
  intros A. destruct (split_word s) as (t & r & -> & T & R). destruct (split_white r) as (w & z & -> & W & Z).
  unfold ascii in A. rewrite !Forall_app in A. destruct A as (A1 & A2 & A3). constructor; try assumption; [intros _; exact A1|].
  intros ->. destruct z; [reflexivity|]. cbn [app] in R. contradiction.
Qed.
Lemma pieces_portable kids t m : pieces kids = (t, m) -> Forall (fun z => portable true (fst z)) m -> Forall (portable true) kids.
Proof.
  revert t m. induction kids as [|k kids IH]; intros t m H F; [constructor|]. cbn [pieces] in H. destruct (pieces kids) as [t0 m0] eqn:E.
  destruct k; injection H as <- <-; (constructor; [|eapply IH; [reflexivity|]]); try (inversion F; assumption); try assumption. constructor.
Qed.
Lemma portable_respaced n : forall n', portable true n -> respaced true n n' -> portable true n'.
Proof.
  induction n as [c|s|s|ns l d i a kids IH] using node_ind'; intros n' P H; inversion H; subst.
  - constructor.
  - apply portable_instruction. match goal with E : same_instruction _ _ _ |- _ => destruct E as (x0 & w0 & w1 & r0 & _ & _ & _ & _ & EE) end. apply (encoded_is_ascii _ _ EE).
  - exact P.
  - inversion P as [| | |? ? ? ? ? ? P1 P2 P3 P4]; subst. constructor; try assumption.
    match goal with F : Forall2 _ m m' |- _ => rename F into HF end. match goal with K : pieces kids = _ |- _ => rename K into HP end.
    match goal with K : pieces kids' = _ |- _ => apply (pieces_portable _ _ _ K) end.
    assert (IN : forall z, In z m -> In (fst z) kids) by (intros z HZ; apply (pieces_in kids); rewrite HP; exact HZ).
    clear - HF IN P4 IH. induction HF as [|y y' m m' [G1 G2] _ IHm]; constructor.
    + rewrite Forall_forall in IH, P4. assert (HI : In (fst y) kids) by (apply IN; left; reflexivity). apply (IH _ HI); auto.
    + apply IHm. intros z HZ. apply IN. right. exact HZ.
Qed.
Lemma portables_respaced l l' : Forall2 (respaced true) l l' -> Forall (portable true) l -> Forall (portable true) l'.
Proof. induction 1; intros F; inversion F; subst; constructor; eauto using portable_respaced. Qed.
Lemma pieces_markup kids t m : pieces kids = (t, m) -> Forall (fun z => ascii_markup (fst z)) m -> Forall ascii_markup kids.
Proof.
  revert t m. induction kids as [|k kids IH]; intros t m H F; [constructor|]. cbn [pieces] in H. destruct (pieces kids) as [t0 m0] eqn:E.
  destruct k; injection H as <- <-; (constructor; [|eapply IH; [reflexivity|]]); try (inversion F; assumption); try assumption. constructor.
Qed.
Lemma markup_respaced n : forall n', ascii_markup n -> respaced true n n' -> ascii_markup n'.
Proof.
  induction n as [c|s|s|ns l d i a kids IH] using node_ind'; intros n' P H; inversion H; subst.
  - constructor. eapply encoded_is_ascii. eassumption.
  - constructor. match goal with E : same_instruction _ _ _ |- _ => destruct E as (x0 & w0 & w1 & r0 & _ & _ & _ & _ & EE) end. apply (encoded_is_ascii _ _ EE).
  - exact P.
  - inversion P as [| | |? ? ? ? ? ? P4]; subst. constructor.
    match goal with F : Forall2 _ m m' |- _ => rename F into HF end. match goal with K : pieces kids = _ |- _ => rename K into HP end.
    match goal with K : pieces kids' = _ |- _ => apply (pieces_markup _ _ _ K) end.
    assert (IN : forall z, In z m -> In (fst z) kids) by (intros z HZ; apply (pieces_in kids); rewrite HP; exact HZ).
    clear - HF IN P4 IH. induction HF as [|y y' m m' [G1 G2] _ IHm]; constructor.
    + rewrite Forall_forall in IH, P4. assert (HI : In (fst y) kids) by (apply IN; left; reflexivity). apply (IH _ HI); auto.
    + apply IHm. intros z HZ. apply IN. right. exact HZ.
Qed.
Lemma tidy_kids x p kids kids' t m t' m' :
  Forall (fun k => forall p n', tidy x p k -> respaced true k n' -> tidy x p n') kids ->
  pieces kids = (t, m) -> pieces kids' = (t', m') ->
  Forall2 (fun y z => respaced true (fst y) (fst z) /\ same_text (snd y) (snd z)) m m' ->
  Forall (tidy x p) (items kids) -> Forall (tidy x p) (items kids').
Proof.
  intros IH E E' HF HT.
  assert (IN : forall z, In z m -> In (fst z) kids) by (intros z HZ; apply (pieces_in kids); rewrite E; exact HZ).
  rewrite (items_pieces _ _ _ E) in HT. rewrite (items_pieces _ _ _ E'). clear E E'.
  induction HF as [|y z m m' [G1 G2] _ IHm]; cbn [map] in *; [constructor|]. inversion HT; subst. constructor.
  - rewrite Forall_forall in IH. apply (IH (fst y)); auto. apply IN. left. reflexivity.
  - apply IHm; [assumption|]. intros w HW. apply IN. right. exact HW.
Qed.
Lemma tidy_respaced x n : forall p n', tidy x p n -> respaced true n n' -> tidy x p n'.
Proof.
  induction n as [c|s|s|ns l d i a kids IH] using node_ind'; intros p n' T H; [inversion H|..].
  - inversion H as [? s' E| | |]; subst. constructor. intros _. apply (encoded_is_ascii _ _ E).
  - inversion T.
  - inversion H as [| |? ? ? ? ? ? HK|? ? ? ? ? ? kids' t t' m m' HM E E' HT HF]; subst; [exact T|].
    inversion T as [|? ? ? ? ? ? ? TX|? ? ? ? ? ? ? FR AK|? p' ? ? ? ? ? ? TI TK]; subst.
    + exfalso. apply HM. assert (A : snd (pieces kids) = []); [|rewrite E in A; exact A].
      apply pieces_all. apply forallb_forall. intros k HK. rewrite Forall_forall in TX. destruct (TX k HK) as [c ->]. reflexivity.
    + apply tidy_free; [exact FR|].
      assert (M : ascii_markup (El ns l d i a kids')) by (apply (markup_respaced (El ns l d i a kids)); [constructor; exact AK|exact H]).
      inversion M; assumption.
    + apply (tidy_element x p p'); [exact TI|]. apply (tidy_kids x p' kids kids' t m t' m' IH E E' HF TK).
Qed.
Lemma tidy_root_respaced x n n' : tidy_root x n -> respaced true n n' -> tidy_root x n'.
Proof.
  intros (ns & l & d & i & a & kids & -> & T) H. inversion H as [| |? ? ? ? ? ? HK|? ? ? ? ? ? kids' t t' m m' HM E E' HT HF]; subst.
  - exists ns, l, d, i, a, kids. auto.
  - exists ns, l, d, i, a, kids'. split; [reflexivity|].
    apply (tidy_kids x InReqIF kids kids' t m t' m'); try assumption. apply Forall_forall. intros k _. apply tidy_respaced.
Qed.
(** A file that can be formatted can be formatted again and again. *)
Lemma formattable_again x s : formattable x s -> exists t, format_text s = Ok t /\ ascii t /\ formattable x t.
Proof.
  intros (decl & root & R & U & P & P1 & P2 & T).
  destruct (C60_formatting_keeps_the_document s decl root R P P1 P2) as (t & root' & E & A & R' & _ & S & S1 & S2).
  exists t. split; [exact E|]. split; [exact A|]. eexists _, root'. split; [exact R'|].
  split; [apply (utf8_doc _ _ _ R'); vm_compute; reflexivity|]. eauto 10 using portable_respaced, portables_respaced, tidy_root_respaced.
Qed.

(** ** The chain *)
Lemma path_fine_later t s cwd r o : path_fine s o -> path_fine (final s (perform t s cwd r)) o.
Proof.
  unfold path_fine, final, output_dir_missing. destruct (Prop_Parallel.apply_all_alike (changes (perform t s cwd r)) s) as [A B].
  rewrite <- A, <- B. auto.
Qed.
Lemma passing_step t s cwd i o raw out :
  fs_file s i = Some raw -> ends_with ".reqifz" i = false -> passthrough_reqif raw = Ok out -> path_fine s o ->
  let r := perform t s cwd (RPassthrough i o) in ended r = Exit 0 /\ fs_file (final s r) o = Some out.
Proof.
  intros F Z P (D & W & _) r.
  assert (NC : new_content t s (RPassthrough i o) = Some out) by (cbn [new_content]; rewrite F, Z, P; reflexivity).
  pose proof (C41_success t s cwd (RPassthrough i o) o out eq_refl NC D W) as E. split; [exact E|].
  destruct (C41_output_file t s cwd (RPassthrough i o) o eq_refl E) as (d & N & G & _). rewrite NC in N. injection N as <-. exact G.
Qed.
Lemma formatting_step t s cwd i o raw text :
  fs_file s i = Some raw -> utf8_decode raw = Some text -> formattable false text -> path_fine s o ->
  let r := perform t s cwd (RFormat i o) in
  ended r = Exit 0 /\ exists f, fs_file (final s r) o = Some f /\ utf8_decode f = Some f /\ formattable false f
    /\ forall out, passthrough_reqif raw = Ok out <-> passthrough_reqif f = Ok out.
Proof.
  intros F U FT (D & W & _) r. destruct (formattable_again _ _ FT) as (f & E & A & FF).
  destruct FT as (decl & root & R & HU & P & P1 & P2 & T). destruct (C60_same_document raw text decl root U R HU) as [X _].
  assert (N : ended r = Exit 0).
  { unfold r. cbn [perform]. unfold format. rewrite F. unfold format_bytes. rewrite X, E. unfold write_bytes. rewrite W. reflexivity. }
  split; [exact N|]. destruct (C41_output_file t s cwd (RFormat i o) o eq_refl N) as (d & C & G & _). fold r in G.
  cbn [new_content] in C. rewrite F in C. unfold format_bytes in C. rewrite X, E in C. injection C as <-.
  exists f. split; [exact G|]. split; [apply (ascii_bytes _ A)|]. split; [exact FF|].
  apply (C79_formatting_makes_no_difference raw text decl root f U R HU P P1 P2 T E).
Qed.
Lemma chain t cwd out :
  passthrough_reqif out = Ok out ->
  forall l s i raw, fs_file s i = Some raw -> ends_with ".reqifz" i = false -> passthrough_reqif raw = Ok out ->
    Forall (fun jo => path_fine s (snd jo)) l ->
    (In Formatting (map fst l) -> exists text text', utf8_decode raw = Some text /\ formattable false text /\ utf8_decode out = Some text' /\ formattable false text') ->
    went t s cwd i out l.
Proof.
  intros ST l. induction l as [|[j o] l IH]; intros s i raw F Z P PF FT; [exact I|]. cbn [went]. inversion PF as [|? ? P1 P2]; subst. cbn [snd] in P1.
  assert (P3 : Forall (fun jo => path_fine (final s (perform t s cwd (request_of j i o))) (snd jo)) l)
    by (eapply Forall_impl; [|exact P2]; intros jo; apply path_fine_later).
  destruct j; cbn [request_of] in *.
  - destruct FT as (text & text' & U & FT & U' & FT'); [left; reflexivity|].
    destruct (formatting_step t s cwd i o raw text F U FT P1) as (E & f & G & UF & FF & SAME). apply SAME in P.
    split; [exact E|]. split; [exists f; auto|]. apply (IH _ o f G); [apply P1|exact P|exact P3|]. intros _. exists f, text'. auto.
  - destruct (passing_step t s cwd i o raw out F Z P P1) as (E & G).
    split; [exact E|]. split; [exists out; auto|]. apply (IH _ o out G); [apply P1|exact ST|exact P3|].
    intros HI. destruct FT as (text & text' & U & FT & U' & FT'); [right; exact HI|]. exists text', text'. auto.
Qed.

(** ** C84
    A conventional file that is accepted and can be written (C78) is passed through any
    number of times: every command succeeds and writes the same bytes. *)
Theorem C84_passed_through_again_and_again :
  forall t s cwd i raw text root r p u,
    fs_file s i = Some raw -> ends_with ".reqifz" i = false -> utf8_decode raw = Some text ->
    conventional_text r p u text root -> accepted_document root -> writes root ->
    exists out, passthrough_reqif raw = Ok out
      /\ forall paths, Forall (path_fine s) paths -> went t s cwd i out (map (fun o => (Passing, o)) paths).
Proof.
  intros t s cwd i raw text root r p u F Z U C A W.
  destruct (C78_conventional_files_pass_through r p u raw text root U C A W) as (out & _ & _ & E & ST & _).
  exists out. split; [exact E|]. intros paths PF. apply (chain t cwd out ST _ s i raw F Z E).
  - apply Forall_map. exact PF.
  - rewrite map_map. cbn [fst]. intros HI. exfalso. apply in_map_iff in HI. destruct HI as (o & D & _). discriminate D.
Qed.
(** If the XHTML values hold text only, it may be formatted in between, in any order and
    any number of times. *)
Theorem C84_any_order :
  forall t s cwd i raw text root r p u,
    fs_file s i = Some raw -> ends_with ".reqifz" i = false -> utf8_decode raw = Some text ->
    conventional_text r p u text root -> accepted_document root -> writes root ->
    formattable false text -> (forall out text', passthrough_reqif raw = Ok out -> utf8_decode out = Some text' -> formattable false text') ->
    exists out, passthrough_reqif raw = Ok out
      /\ forall l, Forall (fun jo => path_fine s (snd jo)) l -> went t s cwd i out l.
Proof.
  intros t s cwd i raw text root r p u F Z U C A W FT FO.
  destruct (C78_conventional_files_pass_through r p u raw text root U C A W) as (out & text' & _ & E & ST & U' & _).
  exists out. split; [exact E|]. intros l PF. apply (chain t cwd out ST _ s i raw F Z E PF). intros _. exists text, text'. eauto 6.
Qed.
(** In particular the last file is the same whatever was done before, if the last command is passthrough. *)
Lemma went_last t cwd out l : forall s i, went t s cwd i out l -> forall j o, went t s cwd i out (l ++ [(j, o)]) ->
  exists f, fs_file (SpecParallel.in_turn t cwd s (requests i (l ++ [(j, o)]))) o = Some f
    /\ match j with Passing => f = out | Formatting => passthrough_reqif f = Ok out end.
Proof.
  induction l as [|[j0 o0] l IH]; intros s i W j o W'; cbn [app requests SpecParallel.in_turn went] in *.
  - destruct W' as (_ & G & _). exact G.
  - destruct W as (_ & _ & W). destruct W' as (_ & _ & W'). apply (IH _ _ W _ _ W').
Qed.
Theorem C84_last_output :
  forall t s cwd i out l o, went t s cwd i out (l ++ [(Passing, o)]) ->
    fs_file (SpecParallel.in_turn t cwd s (requests i (l ++ [(Passing, o)]))) o = Some out.
Proof.
  intros t s cwd i out l o W.
  assert (W0 : went t s cwd i out l).
  { revert s i W. induction l as [|[j0 o0] l IH]; intros s i W; [exact I|]. cbn [app went] in *. destruct W as (A & B & W). split; [exact A|]. split; [exact B|]. apply IH, W. }
  destruct (went_last t cwd out l s i W0 Passing o W) as (f & G & ->). exact G.
Qed.
Print Assumptions C84_passed_through_again_and_again.
Print Assumptions C84_any_order.
Print Assumptions C84_last_output.

(** ** An example: a file with text in an XHTML value, a comment and characters beyond ASCII *)
Definition chain_file : str :=
  "<?xml version='1.0' encoding='UTF-8'?>" ++ nl ++ "<REQ-IF xmlns='http://www.omg.org/spec/ReqIF/20110401/reqif.xsd' xmlns:reqif-xhtml='http://www.w3.org/1999/xhtml'>" ++ nl
  ++ "<THE-HEADER><REQ-IF-HEADER IDENTIFIER='h'><TITLE>caf" ++ [0xE9%N] ++ " &amp; u</TITLE></REQ-IF-HEADER></THE-HEADER>" ++ nl
  ++ "<CORE-CONTENT><REQ-IF-CONTENT><SPEC-OBJECTS><!-- c --><SPEC-OBJECT IDENTIFIER='o'><VALUES><ATTRIBUTE-VALUE-XHTML><DEFINITION><ATTRIBUTE-DEFINITION-XHTML-REF>a</ATTRIBUTE-DEFINITION-XHTML-REF></DEFINITION>"
  ++ "<THE-VALUE>some  text</THE-VALUE></ATTRIBUTE-VALUE-XHTML>"
  ++ "<ATTRIBUTE-VALUE-STRING THE-VALUE='x &amp; &quot;y&quot;'><DEFINITION><ATTRIBUTE-DEFINITION-STRING-REF>b</ATTRIBUTE-DEFINITION-STRING-REF></DEFINITION></ATTRIBUTE-VALUE-STRING></VALUES>"
  ++ "<TYPE><SPEC-OBJECT-TYPE-REF>ot</SPEC-OBJECT-TYPE-REF></TYPE></SPEC-OBJECT></SPEC-OBJECTS></REQ-IF-CONTENT></CORE-CONTENT></REQ-IF>".
Definition one_file (d : bytes) : fs := FS (fun p => if str_eqb p "a.reqif" then Some d else None) (fun _ => true) (fun _ => true).
Definition text_of (d : bytes) : str := match utf8_decode d with Some t => t | None => [] end.
Example C84_example :
  let raw := Prop_ConventionalFormat.encoded chain_file in
  let l := [(Formatting, "b.reqif" : str); (Passing, "c.reqif" : str); (Formatting, "a.reqif" : str); (Formatting, "b.reqif" : str); (Passing, "a.reqif" : str)] in
  utf8_decode raw = Some chain_file
  /\ conventional_text conventional_root "reqif-xhtml" "http://www.w3.org/1999/xhtml" chain_file (tree_of chain_file)
  /\ accepted_document (tree_of chain_file) /\ writes (tree_of chain_file)
  /\ formattable false chain_file /\ passthrough_reqif raw = Ok (passed_on raw) /\ formattable false (text_of (passed_on raw))
  /\ Forall (fun jo => path_fine (one_file raw) (snd jo)) l /\ passed_on raw <> raw.
Proof.
  cbv zeta. assert (HD : document_root chain_file = Some (tree_of chain_file)) by (vm_compute; reflexivity).
  split; [vm_compute; reflexivity|]. split; [|split; [|split; [|split; [|split; [|split; [|split]]]]]].
  - split.
    + exists (fst (opened_of chain_file)), (snd (opened_of chain_file)). split; [vm_compute; reflexivity|].
      exists [], (kids_of (snd (opened_of chain_file))). split; [vm_compute; reflexivity|constructor].
    + apply root_okb_ok. vm_compute. reflexivity.
    + split; [reflexivity|discriminate].
    + vm_compute. reflexivity.
    + exact HD.
    + exists "THE-HEADER". split; [left; reflexivity|vm_compute; discriminate].
    + apply conventionalb_ok. vm_compute. reflexivity.
  - assert (HE : exists b, parse_string chain_file = Ok b) by (exists (or_empty (parse_string chain_file)); vm_compute; reflexivity).
    apply C52_accepted_exactly_when in HE. destruct HE as (r0 & E & H). assert (E2 : r0 = tree_of chain_file) by congruence. rewrite <- E2. exact H.
  - apply (C50_writable_exactly_when_the_tree_is _ _ (or_empty (parse_string chain_file)) HD); [vm_compute; reflexivity|vm_compute; discriminate|].
    exists (match unparse_string (or_empty (parse_string chain_file)) with Ok t => t | Raise _ => [] end). vm_compute. reflexivity.
  - apply formattableb_sound. vm_compute. reflexivity.
  - vm_compute. reflexivity.
  - apply formattableb_sound. vm_compute. reflexivity.
  - repeat (apply Forall_cons; [split; [vm_compute; reflexivity|split; vm_compute; reflexivity]|]). constructor.
  - vm_compute. discriminate.
Qed.
(** With elements in an XHTML value it is not so: formatting first changes what
    passthrough writes, though the file is conventional. *)
Theorem C84_any_order_refuted :
  exists raw text out out',
    utf8_decode raw = Some text
    /\ conventional_text conventional_root "reqif-xhtml" "http://www.w3.org/1999/xhtml" text (tree_of text)
    /\ accepted_document (tree_of text) /\ writes (tree_of text) /\ formattable true text
    /\ (forall t, fs_file (SpecParallel.in_turn t "/" (one_file raw) [RPassthrough "a.reqif" "c.reqif"]) "c.reqif" = Some out)
    /\ (forall t, fs_file (SpecParallel.in_turn t "/" (one_file raw) [RFormat "a.reqif" "b.reqif"; RPassthrough "b.reqif" "c.reqif"]) "c.reqif" = Some out')
    /\ out <> out'.
Proof.
  pose (raw := Prop_ConventionalFormat.encoded conventional_example).
  exists raw, conventional_example, (passed_on raw), (passed_on (formatted conventional_example)).
  split; [vm_compute; reflexivity|]. destruct C78_example as (A & B & C). split; [exact A|]. split; [exact B|]. split; [exact C|].
  split; [apply formattableb_sound; vm_compute; reflexivity|].
  assert (PF : forall o, ends_with ".reqifz" o = false -> output_dir_missing (one_file raw) o = false -> path_fine (one_file raw) o) by (intros o X Y; split; auto).
  split; [|split].
  - intros t. destruct (passing_step t (one_file raw) "/" "a.reqif" "c.reqif" raw (passed_on raw)) as (_ & G); try exact G; try (vm_compute; reflexivity). split; [vm_compute; reflexivity|split; vm_compute; reflexivity].
  - intros t. cbn [SpecParallel.in_turn].
    assert (FT : formattable true conventional_example) by (apply formattableb_sound; vm_compute; reflexivity).
    set (s1 := final (one_file raw) (perform t (one_file raw) "/" (RFormat "a.reqif" "b.reqif"))).
    assert (G1 : fs_file s1 "b.reqif" = Some (formatted conventional_example)).
    { assert (N : ended (perform t (one_file raw) "/" (RFormat "a.reqif" "b.reqif")) = Exit 0) by (vm_compute; reflexivity).
      destruct (C41_output_file t (one_file raw) "/" (RFormat "a.reqif" "b.reqif") "b.reqif" eq_refl N) as (d & E & G & _). fold s1 in G. rewrite G, <- E. vm_compute. reflexivity. }
    destruct (passing_step t s1 "/" "b.reqif" "c.reqif" (formatted conventional_example) (passed_on (formatted conventional_example))) as (_ & G); try exact G; try exact G1; try reflexivity.
    apply path_fine_later. split; [vm_compute; reflexivity|]. split; vm_compute; reflexivity.
  - vm_compute. discriminate.
Qed.
Print Assumptions C84_any_order_refuted.

(** ** Files with elements in XHTML values *)
Lemma pieces_free kids t m : pieces kids = (t, m) -> forallb (fun z => pi_free (fst z)) m = forallb pi_free kids.
Proof.
  revert t m. induction kids as [|k kids IH]; intros t m H; [injection H as <- <-; reflexivity|]. cbn [pieces] in H. destruct (pieces kids) as [t0 m0] eqn:E.
  specialize (IH _ _ eq_refl). destruct k; injection H as <- <-; cbn [forallb fst]; rewrite IH; reflexivity.
Qed.
Lemma free_respaced n : forall n', pi_free n = true -> respaced true n n' -> pi_free n' = true.
Proof.
  induction n as [c|s|s|ns l d i a kids IH] using node_ind'; intros n' P H; inversion H; subst; try exact P; try discriminate P; try reflexivity.
  cbn [pi_free] in P |- *.
  match goal with F : Forall2 _ m m' |- _ => rename F into HF end. match goal with K : pieces kids = _ |- _ => rename K into HP end.
  match goal with K : pieces kids' = _ |- _ => rewrite <- (pieces_free _ _ _ K) end.
  rewrite <- (pieces_free _ _ _ HP) in P.
  assert (IN : forall z, In z m -> In (fst z) kids) by (intros z HZ; apply (pieces_in kids); rewrite HP; exact HZ).
  clear - HF IN P IH. induction HF as [|y y' m m' [G1 G2] _ IHm]; [reflexivity|]. cbn [forallb] in *. apply andb_prop in P. destruct P as [Q1 Q2].
  apply andb_true_intro. split.
  - rewrite Forall_forall in IH. assert (HI : In (fst y) kids) by (apply IN; left; reflexivity). apply (IH _ HI); auto.
  - apply IHm; [exact Q2|]. intros z HZ. apply IN. right. exact HZ.
Qed.
(** the conditions of C79 on the bytes of a file *)
Definition formattable_conventional (r : SpecDocument.root_tag) (p u : str) (raw : bytes) : Prop :=
  exists text decl opened root,
    utf8_decode raw = Some text /\ read_document text = Some (decl, opened) /\ in_utf8 decl
    /\ portable true opened /\ Forall (portable true) (fst (surroundings text)) /\ Forall (portable true) (snd (surroundings text))
    /\ tidy_root true opened /\ ascii_markup opened /\ pi_free opened = true
    /\ conventional_text r p u text root /\ accepted_document root /\ writes root.
Lemma format_once t s cwd r p u i o raw :
  fs_file s i = Some raw -> formattable_conventional r p u raw -> path_fine s o ->
  let x := perform t s cwd (RFormat i o) in
  ended x = Exit 0 /\ exists f, fs_file (final s x) o = Some f /\ formattable_conventional r p u f.
Proof.
  intros F (text & decl & opened & root & U & R & HU & P & P1 & P2 & T & M & PI & C & A & W) (D & CW & _) x.
  destruct (C60_same_document raw text decl opened U R HU) as [X _].
  destruct (C60_formatting_keeps_the_document text decl opened R P P1 P2) as (f & opened' & E & AS & R' & _ & S & S1 & S2).
  destruct (C79_formatted_files_are_conventional r p u text decl opened root f R HU P P1 P2 T M PI E C) as (root' & C' & _ & AA & WW).
  assert (N : ended x = Exit 0).
  { unfold x. cbn [perform]. unfold format. rewrite F. unfold format_bytes. rewrite X, E. unfold write_bytes. rewrite CW. reflexivity. }
  split; [exact N|]. destruct (C41_output_file t s cwd (RFormat i o) o eq_refl N) as (d & K & G & _). fold x in G.
  cbn [new_content] in K. rewrite F in K. unfold format_bytes in K. rewrite X, E in K. injection K as <-.
  exists f. split; [exact G|]. exists f, (Some "xml version=""1.0"" encoding=""UTF-8"""), opened', root'.
  split; [apply (ascii_bytes _ AS)|]. split; [exact R'|]. split; [apply (utf8_doc _ _ _ R'); vm_compute; reflexivity|].
  split; [eapply portable_respaced; eassumption|]. split; [eapply portables_respaced; eassumption|]. split; [eapply portables_respaced; eassumption|].
  split; [eapply tidy_root_respaced; eassumption|]. split; [eapply markup_respaced; eassumption|]. split; [eapply free_respaced; eassumption|].
  split; [exact C'|]. split; [apply AA, A|apply (WW A), W].
Qed.
(** Such a file may be formatted any number of times; what is there then may be passed
    through any number of times, with the same bytes every time. *)
Theorem C84_formatted_first :
  forall t cwd r p u paths s i raw,
    fs_file s i = Some raw -> ends_with ".reqifz" i = false -> formattable_conventional r p u raw -> Forall (path_fine s) paths ->
    let l := map (fun o => (Formatting, o)) paths in
    let s' := SpecParallel.in_turn t cwd s (requests i l) in
    all_succeed t s cwd (requests i l)
    /\ exists raw' out, fs_file s' (last_path i l) = Some raw' /\ passthrough_reqif raw' = Ok out
         /\ forall paths', Forall (path_fine s) paths' -> went t s' cwd (last_path i l) out (map (fun o => (Passing, o)) paths').
Proof.
  intros t cwd r p u paths. induction paths as [|o paths IH]; intros s i raw F Z C PF; cbv zeta; cbn [map requests request_of last_path SpecParallel.in_turn all_succeed].
  - split; [exact I|]. exists raw. destruct C as (text & decl & opened & root & U & _ & _ & _ & _ & _ & _ & _ & _ & C & A & W).
    destruct (C84_passed_through_again_and_again t s cwd i raw text root r p u F Z U C A W) as (out & E & H). exists out. auto.
  - inversion PF as [|? ? P1 P2]; subst. destruct (format_once t s cwd r p u i o raw F C P1) as (E & f & G & CF).
    assert (P3 : forall q, Forall (path_fine s) q -> Forall (path_fine (final s (perform t s cwd (RFormat i o)))) q)
      by (intros q Q; eapply Forall_impl; [|exact Q]; intros a; apply path_fine_later).
    destruct (IH _ o f G (proj2 (proj2 P1)) CF (P3 _ P2)) as (B & raw' & out & H1 & H2 & H3).
    split; [split; [exact E|exact B]|]. exists raw', out. split; [exact H1|]. split; [exact H2|]. intros q Q. apply H3, P3, Q.
Qed.
(** The output of anonymize may be passed through any number of times, too (under the conditions of C80; C80_example meets them). *)
Theorem C84_anonymized_first :
  forall tl s cwd i m raw text decl opened uri root r p u,
    fs_file s i = Some raw -> utf8_decode raw = Some text -> lxml_parse text = Some (decl, opened) -> portable false opened ->
    ns_get (node_nsmap opened) None = Some uri -> one_namespace uri opened -> orderly_root true opened ->
    prefix_in_use opened \/ no_xhtml_default opened -> tools_apart opened -> header_texts root ->
    conventional_text r p u text root -> accepted_document root -> writes root ->
    ends_with ".reqifz" m = false ->
    let first := perform tl s cwd (RAnonymize i m) in
    ended first = Exit 0 ->
    exists raw' out, fs_file (final s first) m = Some raw' /\ passthrough_reqif raw' = Ok out
      /\ forall paths, Forall (path_fine s) paths -> went tl (final s first) cwd m out (map (fun o => (Passing, o)) paths).
Proof.
  intros tl s cwd i m raw text decl opened uri root r p u HF HU HL HO NS ON OR PU TA HTX HC HAD HW EZ first EN.
  destruct (C41_output_file tl s cwd (RAnonymize i m) m eq_refl EN) as (d & N & F & _). fold first in F. cbn [new_content] in N. rewrite HF in N.
  destruct (anonymize_output tl raw) as [a|e] eqn:EO; [|discriminate N].
  destruct (C80_anonymized_files_are_conventional tl raw text decl opened uri a r p u root HU HL HO NS ON OR PU TA HTX EO HC HAD) as (root' & HC' & AA & WW).
  assert (DE : utf8_decode d = Some a) by (apply decode_encode; congruence).
  destruct (C84_passed_through_again_and_again tl (final s first) cwd m d a root' r p u F EZ DE HC' AA (WW HW)) as (out & E & H).
  exists d, out. split; [exact F|]. split; [exact E|]. intros q Q. apply H. eapply Forall_impl; [|exact Q]. intros o. apply path_fine_later.
Qed.
Print Assumptions C84_formatted_first.
Print Assumptions C84_anonymized_first.
Example C84_formatted_example :
  formattable_conventional conventional_root "reqif-xhtml" "http://www.w3.org/1999/xhtml" (Prop_ConventionalFormat.encoded conventional_example).
Proof.
  destruct C79_example as ((decl & opened & R & HU & P & P1 & P2 & T) & M & PI & _ & C & A & W).
  exists conventional_example, decl, opened, (tree_of conventional_example). split; [vm_compute; reflexivity|].
  assert (E : opened = snd (opened_of conventional_example)) by (unfold opened_of; rewrite (utf8_document _ _ _ R HU); reflexivity).
  rewrite E in *. auto 15.
Qed.
