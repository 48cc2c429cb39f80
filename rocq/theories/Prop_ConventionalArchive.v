(** Prop_ConventionalArchive.v -- archives of conventional documents survive
    passthrough (C78) *)
From Verif Require Import Base Xml Utf8 Lxml Py LxmlStr Models AttrDef Header Progress Parser Unparser Serialise Validate Zip Commands
  SpecAccept SpecCommands SpecProgress SpecDocument SpecSettle SpecParse SpecKeep SpecZip SpecArchive SpecConventional DictProofs
  Prop_Accept Prop_Zip Prop_Document Prop_Settle Prop_Keep Prop_Commands Prop_Archive Prop_Conventional.

(** [raw] is a conventional document that reqif reads and writes. *)
Definition passes (raw : bytes) : Prop :=
  exists r p u s root, utf8_decode raw = Some s /\ conventional_text r p u s root /\ accepted_document root /\ writes root.
(** Every member of the archive can be decompressed, and every document in it is
    conventional. *)
Definition conventional_archive (a : archive) : Prop :=
  forall n, In n (map fst a) -> exists raw, holds a n (Some raw) /\ (reqif_name n -> passes raw).

Lemma conventional_plain a : conventional_archive a -> plain_documents a.
Proof.
  intros H n raw s b HR HH HU HP.
  assert (HI : In n (map fst a)) by (destruct HH as (a1 & a2 & -> & _); rewrite map_app; apply in_or_app; right; left; reflexivity).
  destruct (H n HI) as (raw' & H1 & H2). pose proof (holds_fun _ _ _ _ HH H1) as E. assert (raw' = raw) by congruence. subst raw'.
  destruct (H2 HR) as (r & p & u & s' & root & U & C & _). assert (s' = s) by congruence. subst s'.
  exists r, p, u. exact (C78_conventional_documents_can_be_read_back r p u s root b C HP).
Qed.
Lemma Forall2_make {A B} (R : A -> B -> Prop) l : (forall x, In x l -> exists y, R x y) -> exists l', Forall2 R l l'.
Proof.
  induction l as [|x l IH]; intros H; [exists []; constructor|]. destruct (H x (or_introl eq_refl)) as (y & Hy).
  destruct IH as (l' & Hl); [intros z Hz; apply H; right; exact Hz|]. exists (y :: l'). constructor; assumption.
Qed.
(** Such an archive passes through.  The result has the same names, other files
    with the same bytes, and every document with its content; passing it through
    again changes nothing. *)
Theorem C78_conventional_archives_pass_through :
  forall document, (forall n, document n = true <-> reqif_name n) ->
  forall t raw a, t_unzip t raw = Some a -> conventional_archive a ->
    (forall a', t_unzip t (t_zip t a') = Some a') ->
    exists a', passthrough_reqifz t raw = Ok (t_zip t a') /\ passthrough_reqifz t (t_zip t a') = Ok (t_zip t a')
      /\ NoDup (map fst a') /\ (forall n, In n (map fst a') <-> In n (map fst a))
      /\ (forall n x, ~ reqif_name n -> holds a n (Some x) -> holds a' n (Some x))
      /\ (forall n x, reqif_name n -> holds a n (Some x) ->
            exists x' s s' root root', holds a' n (Some x') /\ utf8_decode x = Some s /\ utf8_decode x' = Some s'
              /\ document_root s = Some root /\ document_root s' = Some root' /\ document_kept root root').
Proof.
  intros document HD t raw a EU HC EZ.
  assert (HP : exists a', passed document a a').
  { destruct (Forall2_make (fun n m => fst m = n /\ exists raw raw', holds a n (Some raw) /\ passthrough_reqif raw = Ok raw' /\ snd m = Some raw')
      (firsts [] (filter document (map fst a)))) as (docs & F1).
    { intros n Hn. apply firsts_In in Hn. destruct Hn as [Hn _]. apply filter_In in Hn. destruct Hn as [Hn Hd].
      destruct (HC n Hn) as (x & H1 & H2). destruct (H2 (proj1 (HD n) Hd)) as (r & p & u & s & root & U & C & A & W).
      destruct (C78_conventional_files_pass_through r p u x s root U C A W) as (out & _ & _ & E & _).
      exists (n, Some out). split; [reflexivity|]. exists x, out. auto. }
    destruct (Forall2_make (fun n m => fst m = n /\ exists raw, holds a n (Some raw) /\ snd m = Some raw)
      (firsts [] (filter (fun n => negb (document n)) (map fst a)))) as (others & F2).
    { intros n Hn. apply firsts_In in Hn. destruct Hn as [Hn _]. apply filter_In in Hn. destruct Hn as [Hn _].
      destruct (HC n Hn) as (x & H1 & _). exists (n, Some x). split; [reflexivity|]. exists x. auto. }
    exists (docs ++ others), docs, others. auto. }
  destruct HP as (a' & HP). pose proof (conventional_plain a HC) as PL. exists a'.
  destruct (C74_second_pass_changes_nothing document HD t raw a a' EU HP PL (EZ a')) as [E1 E2].
  destruct (C74_nothing_is_lost document HD a a' HP) as (N1 & N2 & N3 & _).
  split; [exact E1|]. split; [exact E2|]. split; [exact N1|]. split; [exact N2|]. split; [exact N3|].
  exact (C74_documents_are_kept document HD a a' HP PL).
Qed.

(** ** Example *)
Definition conventional_files : archive :=
  [("img/p.png", Some [137; 80; 78; 71]%N); ("b/settle.reqif", Some (raw_of conventional_example)); ("notes", Some [255%N])].
Example C78_archive_example : conventional_archive conventional_files.
Proof.
  intros n Hn. cbn [map fst conventional_files In] in Hn. destruct Hn as [<-|[<-|[<-|[]]]].
  - exists [137; 80; 78; 71]%N. split; [exists [], [("b/settle.reqif", Some (raw_of conventional_example)); ("notes", Some [255%N])]; split; [reflexivity|vm_compute; intuition discriminate]|].
    intros H. apply is_reqif_spec in H. vm_compute in H. discriminate.
  - exists (raw_of conventional_example). split; [exists [("img/p.png", Some [137; 80; 78; 71]%N)], [("notes", Some [255%N])]; split; [reflexivity|vm_compute; intuition discriminate]|].
    intros _. exists conventional_root, "reqif-xhtml", "http://www.w3.org/1999/xhtml", conventional_example, (tree_of conventional_example).
    split; [vm_compute; reflexivity|exact C78_example].
  - exists [255%N]. split; [exists [("img/p.png", Some [137; 80; 78; 71]%N); ("b/settle.reqif", Some (raw_of conventional_example))], []; split; [reflexivity|vm_compute; intuition discriminate]|].
    intros H. apply is_reqif_spec in H. vm_compute in H. discriminate.
Qed.

(** zipping that can be undone: a simple encoding of archives *)
Fixpoint packed (a : archive) : bytes :=
  match a with
  | [] => []
  | (n, m) :: a => N.of_nat (length n) :: n ++ match m with None => [0%N] | Some x => N.of_nat (S (length x)) :: x end ++ packed a
  end.
Fixpoint unpacked (fuel : nat) (raw : bytes) : option archive :=
  match fuel, raw with
  | _, [] => Some []
  | 0, _ => None
  | S fuel, k :: raw =>
      let name := firstn (N.to_nat k) raw in
      match skipn (N.to_nat k) raw with
      | [] => None
      | d :: raw =>
          match N.to_nat d with
          | 0 => option_map (cons (name, None)) (unpacked fuel raw)
          | S d => option_map (cons (name, Some (firstn d raw))) (unpacked fuel (skipn d raw))
          end
      end
  end.
Lemma firstn_length_app {A} (x y : list A) : firstn (length x) (x ++ y) = x.
Proof. rewrite firstn_app, Nat.sub_diag, firstn_all, firstn_O. apply app_nil_r. Qed.
Lemma skipn_length_app {A} (x y : list A) : skipn (length x) (x ++ y) = y.
Proof. rewrite skipn_app, Nat.sub_diag, skipn_all. reflexivity. Qed.
Lemma unpacked_packed a : forall fuel, length a <= fuel -> unpacked fuel (packed a) = Some a.
Proof.
  induction a as [|[n m] a IH]; intros fuel H; [destruct fuel; reflexivity|]. destruct fuel as [|fuel]; [cbn in H; lia|]. cbn [length] in H.
  cbn [packed unpacked]. rewrite Nat2N.id, firstn_length_app, skipn_length_app. destruct m as [x|]; cbn [app].
  - rewrite Nat2N.id, firstn_length_app, skipn_length_app, IH by lia. reflexivity.
  - cbn [N.to_nat]. rewrite IH by lia. reflexivity.
Qed.
Lemma packed_length a : length a <= length (packed a).
Proof. induction a as [|[n m] a IH]; [auto|]. cbn [packed length]. rewrite !app_length. lia. Qed.
Definition packing : tools :=
  Tools (fun _ => 0%N) (fun raw => unpacked (length raw) raw) packed (fun _ => []) (t_environment no_tools) [].
Example C78_tools_example : forall a, t_unzip packing (t_zip packing a) = Some a.
Proof. intros a. apply unpacked_packed, packed_length. Qed.

Print Assumptions C78_conventional_archives_pass_through.
