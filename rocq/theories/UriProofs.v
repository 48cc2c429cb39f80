(** UriProofs.v -- the parser of namespace names follows RFC 3986 *)
From Verif Require Import Base Xml Lxml SpecUri DictProofs.

Lemma one_of_ok l c : existsb (N.eqb c) l = true <-> one_of l c.
Proof.
  unfold one_of. rewrite existsb_exists. split.
  - intros (x & HI & E). apply N.eqb_eq in E. subst. exact HI.
  - intros H. exists c. split; [exact H|apply N.eqb_refl].
Qed.
Lemma alpha_ok c : is_alpha c = true <-> alpha c.
Proof. unfold is_alpha, alpha. rewrite orb_true_iff, !andb_true_iff, !N.leb_le. lia. Qed.
Lemma digit_ok c : is_digit_ c = true <-> digit c.
Proof. unfold is_digit_, digit. rewrite andb_true_iff, !N.leb_le. lia. Qed.
Lemma hexdig_ok c : is_hex_ c = true <-> hexdig c.
Proof. unfold is_hex_, hexdig. rewrite !orb_true_iff, digit_ok, !andb_true_iff, !N.leb_le. tauto. Qed.
Lemma host_char_ok c : uri_host c = true <-> host_char c.
Proof.
  unfold uri_host, host_char, unreserved, sub_delim.
  change (str_of_bytes _) with ("-._~" ++ "!$&'()*+,;=") || idtac.
  rewrite !orb_true_iff, alpha_ok, digit_ok, one_of_ok.
  assert (H : one_of "-._~!$&'()*+,;=" c <-> one_of "-._~" c \/ one_of "!$&'()*+,;=" c).
  { unfold one_of. rewrite <- in_app_iff. reflexivity. }
  rewrite H. tauto.
Qed.
Lemma pchar_ok c : uri_pchar c = true <-> pchar c.
Proof. unfold uri_pchar, pchar. rewrite orb_true_iff, host_char_ok, one_of_ok. reflexivity. Qed.

(** no percent sign and no delimiter among the characters of a kind *)
Definition stops (ok : N -> bool) (s : str) : Prop := match s with [] => True | c :: _ => ok c = false /\ c <> 37%N end.
Lemma skip_encoded (P : N -> Prop) ok p r : (forall c, ok c = true <-> P c) -> ok 37%N = false ->
  encoded P p -> stops ok r -> uri_skip ok (p ++ r) = r.
Proof.
  intros HP H37 HE HS. induction HE as [|c s HC HE IH|a b s HA HB HE IH].
  - destruct r as [|c r]; [reflexivity|]. destruct HS as [H1 H2]. cbn [app uri_skip]. rewrite (proj2 (N.eqb_neq c 37) H2), H1. reflexivity.
  - cbn [app uri_skip]. assert (HK : ok c = true) by (apply HP, HC). destruct (N.eqb_spec c 37) as [->|]; [congruence|]. rewrite HK. exact IH.
  - cbn [app]. change (("%" ++ a :: b :: s) ++ r) with (37%N :: a :: b :: s ++ r). cbn [uri_skip]. rewrite N.eqb_refl.
    rewrite (proj2 (hexdig_ok a) HA), (proj2 (hexdig_ok b) HB). exact IH.
Qed.
Lemma skip_split (P : N -> Prop) ok : (forall c, ok c = true <-> P c) ->
  forall s, exists p, s = p ++ uri_skip ok s /\ encoded P p.
Proof.
  intros HP s. remember (length s) as n eqn:E. assert (L : length s <= n) by lia. clear E. revert s L.
  induction n as [|n IH]; intros [|c s] L; cbn [length] in L; try lia; try (exists []; split; [reflexivity|constructor]).
  cbn [uri_skip]. destruct (N.eqb_spec c 37) as [->|].
  - destruct s as [|a [|b r]]; try (exists []; split; [reflexivity|constructor]).
    destruct (is_hex_ a && is_hex_ b) eqn:EH; [|exists []; split; [reflexivity|constructor]].
    apply andb_true_iff in EH. destruct EH as [HA HB]. destruct (IH r) as (p & E & HE); [cbn in L; lia|].
    exists (37%N :: a :: b :: p). split; [cbn [app]; do 3 f_equal; exact E|].
    apply (encoded_percent P a b p); [apply hexdig_ok, HA|apply hexdig_ok, HB|exact HE].
  - destruct (ok c) eqn:EO; [|exists []; split; [reflexivity|constructor]].
    destruct (IH s) as (p & E & HE); [lia|]. exists (c :: p). split; [cbn [app]; f_equal; exact E|constructor; [apply HP, EO|exact HE]].
Qed.
Lemma encoded_impl (P Q : N -> Prop) s : (forall c, P c -> Q c) -> encoded P s -> encoded Q s.
Proof. intros H. induction 1; [constructor|constructor; auto|apply encoded_percent; auto]. Qed.
Lemma encoded_app P s t : encoded P s -> encoded P t -> encoded P (s ++ t).
Proof.
  intros HS HT. induction HS; [exact HT|cbn [app]; constructor; assumption|].
  change (("%" ++ a :: b :: s) ++ t) with ("%" ++ a :: b :: (s ++ t)). apply encoded_percent; assumption.
Qed.

(** the characters that begin a part *)
Definition after (k : N) (s : str) : option str := match s with c :: r => if N.eqb c k then Some r else None | [] => None end.
Lemma after_spec k s r : after k s = Some r <-> s = k :: r.
Proof.
  destruct s as [|c s]; cbn [after]; [split; discriminate|]. destruct (N.eqb_spec c k) as [->|N]; split; try congruence.
Qed.
Ltac literal := intros; match goal with |- _ = match after ?k ?s with _ => _ end =>
  destruct s as [|c s']; [reflexivity|]; unfold after; destruct (N.eqb_spec c k) as [->|NE]; [reflexivity|];
  destruct c as [|p]; [reflexivity|]; repeat (destruct p; try reflexivity); congruence end.
Lemma match_63 {A} s (f : str -> A) (g : A) : match s with 63%N :: r => f r | _ => g end = match after 63 s with Some r => f r | None => g end.
Proof. literal. Qed.
Lemma match_35 {A} s (f : str -> A) (g : A) : match s with 35%N :: r => f r | _ => g end = match after 35 s with Some r => f r | None => g end.
Proof. literal. Qed.
Lemma match_64 {A} s (f : str -> A) (g : A) : match s with 64%N :: r => f r | _ => g end = match after 64 s with Some r => f r | None => g end.
Proof. literal. Qed.
Lemma match_91 {A} s (f : str -> A) (g : A) : match s with 91%N :: r => f r | _ => g end = match after 91 s with Some r => f r | None => g end.
Proof. literal. Qed.
Lemma match_47 {A} s (f : str -> A) (g : A) : match s with 47%N :: r => f r | _ => g end = match after 47 s with Some r => f r | None => g end.
Proof. literal. Qed.

Definition QC := fun c => uri_pchar c || existsb (N.eqb c) "/?".
Definition FC := fun c => uri_pchar c || existsb (N.eqb c) "/?[]".
Lemma QC_ok c : QC c = true <-> pchar c \/ one_of "/?" c.
Proof. unfold QC. rewrite orb_true_iff, pchar_ok, one_of_ok. reflexivity. Qed.
Lemma FC_ok c : FC c = true <-> pchar c \/ one_of "/?[]" c.
Proof. unfold FC. rewrite orb_true_iff, pchar_ok, one_of_ok. reflexivity. Qed.
Lemma end_eq s : uri_end s =
  let s1 := match after 63 s with Some r => uri_skip QC r | None => s end in
  let s2 := match after 35 s1 with Some r => uri_skip FC r | None => s1 end in
  match s2 with [] => true | _ => false end.
Proof. unfold uri_end. rewrite match_63. cbv zeta. rewrite match_35. reflexivity. Qed.
Definition suffix (s : str) : Prop := exists q f, s = q ++ f /\ query q /\ fragment f.
Lemma end_spec s : uri_end s = true <-> suffix s.
Proof.
  rewrite end_eq. cbv zeta. split.
  - intros H.
    assert (F : forall s1, match match after 35 s1 with Some r => uri_skip FC r | None => s1 end with [] => true | _ => false end = true -> fragment s1).
    { intros s1 H1. destruct (after 35 s1) as [r|] eqn:E.
      - apply after_spec in E. subst s1. right. exists r. split; [reflexivity|].
        destruct (skip_split _ _ FC_ok r) as (p & EP & HP). destruct (uri_skip FC r); [|discriminate]. rewrite app_nil_r in EP. subst. exact HP.
      - destruct s1; [left; reflexivity|discriminate]. }
    apply F in H. destruct (after 63 s) as [r|] eqn:E.
    + apply after_spec in E. subst s. destruct (skip_split _ _ QC_ok r) as (p & EP & HP).
      exists (63%N :: p), (uri_skip QC r). split; [cbn [app]; congruence|]. split; [right; exists p; split; [reflexivity|exact HP]|exact H].
    + exists [], s. split; [reflexivity|]. split; [left; reflexivity|exact H].
  - intros (q & f & -> & HQ & HF).
    assert (F : match match after 35 f with Some r => uri_skip FC r | None => f end with [] => true | _ => false end = true).
    { destruct HF as [->|(x & -> & HX)]; [reflexivity|]. cbn [app after]. rewrite N.eqb_refl.
      rewrite <- (app_nil_r x), (skip_encoded _ FC x [] FC_ok eq_refl HX I). reflexivity. }
    destruct HQ as [->|(x & -> & HX)].
    + cbn [app]. assert (EA : after 63 f = None) by (destruct HF as [->|(y & -> & _)]; reflexivity). rewrite EA. exact F.
    + change (("?" ++ x) ++ f) with (63%N :: (x ++ f)). cbn [after]. rewrite N.eqb_refl.
      rewrite (skip_encoded _ QC x f QC_ok eq_refl HX); [exact F|]. destruct HF as [->|(y & -> & _)]; [exact I|].
      split; [reflexivity|discriminate].
Qed.
(** what may follow an authority: nothing, a path, a query or a fragment *)
Definition tail (t : str) : Prop := match t with [] => True | c :: _ => c = 47%N \/ c = 63%N \/ c = 35%N end.
Lemma suffix_tail s : suffix s -> match s with [] => True | c :: _ => c = 63%N \/ c = 35%N end.
Proof.
  intros (q & f & -> & [->|(x & -> & _)] & HF); [|cbn; auto]. destruct HF as [->|(y & -> & _)]; cbn; auto.
Qed.

Definition digits := fix go (s : str) : str := match s with d :: s' => if is_digit_ d then go s' else s | [] => [] end.
Lemma port_eq s : uri_port s = match after 58 s with
  | Some (c :: r) => if is_digit_ c then Some (digits r) else None
  | Some [] => None
  | None => Some s
  end.
Proof.
  unfold uri_port. destruct s as [|c s]; [reflexivity|]. cbn [after]. destruct (N.eqb_spec c 58) as [->|NE]; [destruct s; reflexivity|].
  destruct c as [|p]; [reflexivity|]; repeat (destruct p; try reflexivity); congruence.
Qed.
Lemma digits_split s : exists d, s = d ++ digits s /\ Forall digit d.
Proof.
  induction s as [|c s (d & E & H)]; [exists []; split; [reflexivity|constructor]|]. cbn [digits].
  destruct (is_digit_ c) eqn:ED; [|exists []; split; [reflexivity|constructor]].
  exists (c :: d). split; [cbn [app]; f_equal; exact E|constructor; [apply digit_ok, ED|exact H]].
Qed.
Lemma digits_eat d t : Forall digit d -> tail t -> digits (d ++ t) = t.
Proof.
  intros H T. induction H as [|c d HC HD IH].
  - destruct t as [|c t]; [reflexivity|]. cbn [app digits]. destruct T as [->|[->| ->]]; reflexivity.
  - cbn [app digits]. rewrite (proj2 (digit_ok c) HC). exact IH.
Qed.
Lemma port_split s t : uri_port s = Some t -> exists p, s = p ++ t /\ port p.
Proof.
  rewrite port_eq. destruct (after 58 s) as [[|c r]|] eqn:E; [discriminate| |].
  - apply after_spec in E. subst s. destruct (is_digit_ c) eqn:ED; [|discriminate]. intros H. injection H as <-.
    destruct (digits_split r) as (d & E & H). exists (58%N :: c :: d). split; [cbn [app]; do 2 f_equal; exact E|].
    right. exists (c :: d). split; [reflexivity|]. split; [discriminate|constructor; [apply digit_ok, ED|exact H]].
  - intros H. injection H as <-. exists []. split; [reflexivity|left; reflexivity].
Qed.
Lemma port_eat p t : port p -> tail t -> uri_port (p ++ t) = Some t.
Proof.
  rewrite port_eq. intros [->|(d & -> & HN & HD)] T.
  - cbn [app]. destruct t as [|c t]; [reflexivity|]. cbn [after]. destruct T as [->|[->| ->]]; reflexivity.
  - destruct d as [|c d]; [contradiction|]. inversion HD as [|? ? HC HR]; subst.
    change ((":" ++ c :: d) ++ t) with (58%N :: c :: (d ++ t)). cbn [after]. rewrite N.eqb_refl, (proj2 (digit_ok c) HC), digits_eat; auto.
Qed.

Definition IC := fun c => uri_host c || N.eqb c 58.
Lemma IC_ok c : IC c = true <-> host_char c \/ one_of ":" c.
Proof. unfold IC. rewrite orb_true_iff, host_char_ok, N.eqb_eq. unfold one_of. cbn. intuition congruence. Qed.
Definition bracket := fix go (s : str) : option str := match s with [] => None | c :: s' => if N.eqb c 93 then Some s' else go s' end.
Lemma authority_eq s : uri_authority s =
  let s := match after 64 (uri_skip IC s) with Some r => r | None => s end in
  match after 91 s with
  | Some r => match bracket r with Some r => uri_port r | None => None end
  | None => uri_port (uri_skip uri_host s)
  end.
Proof. unfold uri_authority. rewrite match_64. cbv zeta. rewrite match_91. reflexivity. Qed.
Lemma bracket_split s t : bracket s = Some t <-> exists a, s = a ++ 93%N :: t /\ ~ In 93%N a.
Proof.
  split.
  - revert t. induction s as [|c s IH]; intros t H; [discriminate|]. cbn [bracket] in H. destruct (N.eqb_spec c 93) as [->|N].
    + injection H as <-. exists []. split; [reflexivity|intros []].
    + destruct (IH t H) as (a & -> & HA). exists (c :: a). split; [reflexivity|]. intros [E|E]; [congruence|contradiction].
  - intros (a & -> & HA). induction a as [|c a IH]; [reflexivity|]. cbn [app bracket]. destruct (N.eqb_spec c 93) as [->|N].
    + destruct HA. left. reflexivity.
    + apply IH. intros H. apply HA. right. exact H.
Qed.
Definition host_port (s : str) : option str :=
  match after 91 s with
  | Some r => match bracket r with Some r => uri_port r | None => None end
  | None => uri_port (uri_skip uri_host s)
  end.
Lemma host_port_split s t : host_port s = Some t -> exists h p, s = h ++ p ++ t /\ host h /\ port p.
Proof.
  unfold host_port. destruct (after 91 s) as [r|] eqn:E.
  - apply after_spec in E. subst s. destruct (bracket r) as [r'|] eqn:EB; [|discriminate]. intros H.
    apply bracket_split in EB. destruct EB as (a & -> & HA). apply port_split in H. destruct H as (p & -> & HP).
    exists (91%N :: a ++ [93%N]), p. split; [cbn [app]; rewrite <- app_assoc; reflexivity|]. split; [|exact HP].
    right. exists a. split; [reflexivity|exact HA].
  - intros H. apply port_split in H. destruct H as (p & E2 & HP). destruct (skip_split _ _ host_char_ok s) as (h & E3 & HH).
    exists h, p. split; [congruence|]. split; [left; exact HH|exact HP].
Qed.
Lemma port_stops p t : port p -> tail t -> stops uri_host (p ++ t).
Proof.
  intros [->|(d & -> & _)] T; cbn [app].
  - destruct t as [|c t]; [exact I|]. destruct T as [->|[->| ->]]; split; try reflexivity; discriminate.
  - split; [reflexivity|discriminate].
Qed.
Lemma host_port_eat h p t : host h -> port p -> tail t -> host_port (h ++ p ++ t) = Some t.
Proof.
  intros [HH|(a & -> & HA)] HP T; unfold host_port.
  - assert (EA : after 91 (h ++ p ++ t) = None).
    { destruct (after 91 (h ++ p ++ t)) as [r|] eqn:E; [|reflexivity]. apply after_spec in E. exfalso.
      inversion HH as [|c s HC HE|a b s HA HB HE]; subst; cbn [app] in E.
      - pose proof (port_stops p t HP T) as ST. rewrite E in ST. destruct HP as [->|(d & -> & _)]; [|discriminate].
        cbn [app] in E. subst t. destruct T as [T|[T|T]]; discriminate.
      - injection E as -> _. apply host_char_ok in HC. discriminate.
      - discriminate. }
    rewrite EA, (skip_encoded _ uri_host h (p ++ t) host_char_ok eq_refl HH (port_stops p t HP T)). apply port_eat; assumption.
  - change (("[" ++ a ++ "]") ++ p ++ t) with (91%N :: (a ++ [93%N]) ++ p ++ t). cbn [after]. rewrite N.eqb_refl.
    rewrite (proj2 (bracket_split _ (p ++ t))); [apply port_eat; assumption|]. exists a. split; [rewrite <- app_assoc; reflexivity|exact HA].
Qed.
Lemma authority_split s t : uri_authority s = Some t -> exists a, s = a ++ t /\ authority a.
Proof.
  rewrite authority_eq. cbv zeta. fold (host_port (match after 64 (uri_skip IC s) with Some r => r | None => s end)).
  intros H. apply host_port_split in H. destruct H as (h & p & E & HH & HP).
  destruct (after 64 (uri_skip IC s)) as [r|] eqn:EA.
  - apply after_spec in EA. destruct (skip_split _ _ IC_ok s) as (i & E2 & HI). rewrite EA in E2. subst r.
    exists ((i ++ [64%N]) ++ h ++ p). split; [rewrite E2, <- !app_assoc; reflexivity|].
    exists (i ++ [64%N]), h, p. split; [reflexivity|]. split; [right; exists i; split; [reflexivity|exact HI]|auto].
  - exists (h ++ p). split; [rewrite <- app_assoc; exact E|]. exists [], h, p. split; [reflexivity|]. split; [left; reflexivity|auto].
Qed.
Lemma no_userinfo h p t : host h -> port p -> tail t -> after 64 (uri_skip IC (h ++ p ++ t)) = None.
Proof.
  assert (TS : forall t, tail t -> stops IC t).
  { intros [|c x] T; [exact I|]. destruct T as [->|[->| ->]]; split; try reflexivity; discriminate. }
  assert (TA : forall t, tail t -> after 64 t = None) by (intros [|c x] T; [reflexivity|]; destruct T as [->|[->| ->]]; reflexivity).
  intros [HH|(a & -> & HA)] HP T.
  - assert (HI : encoded (fun c => host_char c \/ one_of ":" c) (h ++ p)).
    { apply encoded_app; [eapply encoded_impl; [|exact HH]; auto|]. destruct HP as [->|(d & -> & _ & HD)]; [constructor|].
      constructor; [right; left; reflexivity|]. clear -HD. induction HD as [|c d HC HD IH]; [constructor|]. constructor; [|exact IH].
      left. left. right. left. exact HC. }
    rewrite app_assoc, (skip_encoded _ IC (h ++ p) t IC_ok eq_refl HI (TS t T)). apply TA, T.
  - reflexivity.
Qed.
Lemma authority_eat a t : authority a -> tail t -> uri_authority (a ++ t) = Some t.
Proof.
  intros (u & h & p & -> & HU & HH & HP) T. rewrite authority_eq. cbv zeta.
  fold (host_port (match after 64 (uri_skip IC ((u ++ h ++ p) ++ t)) with Some r => r | None => (u ++ h ++ p) ++ t end)).
  rewrite <- !app_assoc. destruct HU as [->|(i & -> & HI)].
  - cbn [app]. rewrite (no_userinfo h p t HH HP T). apply host_port_eat; assumption.
  - rewrite <- app_assoc. rewrite (skip_encoded _ IC i _ IC_ok eq_refl HI); [|split; [reflexivity|discriminate]].
    change ("@" ++ h ++ p ++ t) with (64%N :: (h ++ p ++ t)). cbn [after]. rewrite N.eqb_refl. apply host_port_eat; assumption.
Qed.

Definition PC := fun c => uri_pchar c || N.eqb c 47.
Lemma PC_ok c : PC c = true <-> pchar c \/ c = 47%N.
Proof. unfold PC. rewrite orb_true_iff, pchar_ok, N.eqb_eq. reflexivity. Qed.
Lemma path_pieces p : encoded (fun c => pchar c \/ c = 47%N) p -> exists s r, p = s ++ r /\ segment s /\ path_abempty r.
Proof.
  induction 1 as [|c p HC HP (s & r & -> & HS & HR)|a b p HA HB HP (s & r & -> & HS & HR)].
  - exists [], []. repeat split; constructor.
  - destruct HC as [HC| ->].
    + exists (c :: s), r. split; [reflexivity|]. split; [constructor; assumption|exact HR].
    + exists [], (47%N :: s ++ r). split; [reflexivity|]. split; [constructor|apply (path_abempty_segment s r HS HR)].
  - exists ("%" ++ a :: b :: s), r. split; [reflexivity|]. split; [apply encoded_percent; assumption|exact HR].
Qed.
Lemma abempty_encoded p : path_abempty p -> encoded (fun c => pchar c \/ c = 47%N) p.
Proof.
  induction 1 as [|s r HS HR IH]; [constructor|]. constructor; [right; reflexivity|].
  apply encoded_app; [eapply encoded_impl; [|exact HS]; auto|exact IH].
Qed.
Lemma abempty_cons c p : path_abempty (c :: p) -> c = 47%N.
Proof. intros H. inversion H. reflexivity. Qed.
Lemma suffix_stops ok t : ok 63%N = false -> ok 35%N = false -> suffix t -> stops ok t.
Proof.
  intros H1 H2 H. apply suffix_tail in H. destruct t as [|c t]; [exact I|]. destruct H as [->| ->]; split; try assumption; discriminate.
Qed.
Lemma path_eat p t : encoded (fun c => pchar c \/ c = 47%N) p -> suffix t -> uri_path (p ++ t) = t.
Proof. intros HP HT. apply (skip_encoded _ PC p t PC_ok eq_refl HP). apply suffix_stops; [reflexivity|reflexivity|exact HT]. Qed.
(** a path after an authority, then a query and a fragment *)
Lemma abempty_end t : uri_end (match after 47 t with Some _ => uri_path t | None => t end) = true
  <-> exists p e, t = p ++ e /\ path_abempty p /\ suffix e.
Proof.
  rewrite end_spec. split.
  - destruct (after 47 t) as [x|] eqn:E; intros H.
    + destruct (skip_split _ _ PC_ok t) as (p & E2 & HP). change (uri_skip PC t) with (uri_path t) in E2.
      exists p, (uri_path t). split; [exact E2|]. split; [|exact H].
      destruct (path_pieces p HP) as ([|c s] & r & -> & HS & HR); [exact HR|]. exfalso.
      apply after_spec in E. rewrite E in E2. cbn [app] in E2. injection E2 as <- _.
      inversion HS as [|? ? HC|]; subst. apply pchar_ok in HC. discriminate.
    + exists [], t. split; [reflexivity|]. split; [constructor|exact H].
  - intros (p & e & -> & HP & HE). destruct p as [|c p].
    + cbn [app]. destruct (after 47 e) as [x|] eqn:E; [|exact HE]. apply after_spec in E. subst e. apply suffix_tail in HE.
      destruct HE as [HE|HE]; discriminate.
    + pose proof (abempty_cons _ _ HP) as ->. cbn [app after]. rewrite N.eqb_refl.
      change (47%N :: p ++ e) with ((47%N :: p) ++ e). rewrite path_eat; [exact HE|apply abempty_encoded, HP|exact HE].
Qed.
Definition NC := fun c => uri_pchar c && negb (N.eqb c 58).
Lemma NC_ok c : NC c = true <-> host_char c \/ one_of "@" c.
Proof.
  unfold NC. rewrite andb_true_iff, pchar_ok, negb_true_iff, N.eqb_neq. unfold pchar, one_of. cbn. split.
  - intros [[H|[H|[H|[]]]] N]; auto; congruence.
  - intros [H|[H|[]]].
    + split; [auto|]. intros ->. apply host_char_ok in H. discriminate.
    + subst. split; [auto|discriminate].
Qed.
Lemma hier_eq (b : bool) s : uri_hier b s =
  match after 47 s with
  | Some x => match after 47 x with
              | Some r => match uri_authority r with
                          | Some t => uri_end (match after 47 t with Some _ => uri_path t | None => t end)
                          | None => false end
              | None => if b then let t := uri_skip NC s in uri_end (match after 47 t with Some _ => uri_path t | None => t end) else uri_end (uri_path s)
              end
  | None => if b then let t := uri_skip NC s in uri_end (match after 47 t with Some _ => uri_path t | None => t end) else uri_end (uri_path s)
  end.
Proof.
  unfold uri_hier. fold NC.
  assert (M : forall t, match t with 47%N :: _ => uri_path t | _ => t end = match after 47 t with Some _ => uri_path t | None => t end).
  { intros t. apply (match_47 t (fun _ => uri_path t) t). }
  rewrite M. destruct s as [|c s]; [reflexivity|]. cbn [after]. destruct (N.eqb_spec c 47) as [->|NE].
  - destruct s as [|c s]; [reflexivity|]. cbn [after]. destruct (N.eqb_spec c 47) as [->|NE].
    + destruct (uri_authority s) as [t|]; [rewrite M|]; reflexivity.
    + destruct c as [|p]; [reflexivity|]. repeat (destruct p; try reflexivity). congruence.
  - destruct c as [|p]; [reflexivity|]. repeat (destruct p; try reflexivity). congruence.
Qed.
Definition alone (b : bool) : str -> Prop := if b then path_noscheme else path_rootless.
(** a path without authority *)
Lemma alone_spec (b : bool) (s : str) : (forall r, s <> 47%N :: 47%N :: r) ->
  (if b then let t := uri_skip NC s in uri_end (match after 47 t with Some _ => uri_path t | None => t end) else uri_end (uri_path s)) = true
  <-> exists h e, s = h ++ e /\ (path_absolute h \/ alone b h \/ h = []) /\ suffix e.
Proof.
  intros HN. destruct b; cbv zeta.
  - rewrite abempty_end. split.
    + intros (p & e & E & HP & HE). destruct (skip_split _ _ NC_ok s) as (i & E2 & HI). rewrite E, app_assoc in E2.
      exists (i ++ p), e. split; [exact E2|]. split; [|exact HE]. destruct i as [|c i].
      * cbn [app] in *. inversion HP as [|x r HX HR]; subst; [right; right; reflexivity|]. left.
        destruct x as [|c x]; [|right; exists (c :: x), r; split; [reflexivity|]; split; [split; [exact HX|discriminate]|exact HR]].
        destruct r as [|c r]; [left; reflexivity|]. exfalso. pose proof (abempty_cons _ _ HR) as ->. eapply HN. cbn. reflexivity.
      * right. left. exists (c :: i), p. split; [reflexivity|]. split; [split; [exact HI|discriminate]|exact HP].
    + intros (h & e & -> & HH & HE). destruct HH as [HH|[HH| ->]].
      * assert (HX : exists x, h = 47%N :: x /\ path_abempty h).
        { destruct HH as [->|(x & r & -> & [HX _] & HR)].
          - exists []. split; [reflexivity|]. apply (path_abempty_segment [] []); constructor.
          - exists (x ++ r). split; [reflexivity|]. apply path_abempty_segment; assumption. }
        destruct HX as (x & E & HP). exists h, e. split; [|auto]. subst h. reflexivity.
      * destruct HH as (x & r & -> & [HX NX] & HR). exists r, e. split; [|auto]. rewrite <- app_assoc.
        apply (skip_encoded _ NC x (r ++ e) NC_ok eq_refl HX). destruct r as [|c r]; cbn [app]; [apply suffix_stops; [reflexivity|reflexivity|exact HE]|].
        pose proof (abempty_cons _ _ HR) as ->. split; [reflexivity|discriminate].
      * exists [], e. split; [|split; [constructor|exact HE]]. cbn [app].
        apply (skip_encoded _ NC [] e NC_ok eq_refl (encoded_nil _)). apply suffix_stops; [reflexivity|reflexivity|exact HE].
  - rewrite end_spec. split.
    + intros HE. destruct (skip_split _ _ PC_ok s) as (p & E2 & HP). change (uri_skip PC s) with (uri_path s) in E2.
      exists p, (uri_path s). split; [exact E2|]. split; [|exact HE].
      destruct (path_pieces p HP) as ([|c x] & r & -> & HX & HR).
      * cbn [app] in *. inversion HR as [|x r' HX' HR']; subst; [right; right; reflexivity|]. left.
        destruct x as [|c x]; [|right; exists (c :: x), r'; split; [reflexivity|]; split; [split; [exact HX'|discriminate]|exact HR']].
        destruct r' as [|c r]; [left; reflexivity|]. exfalso. pose proof (abempty_cons _ _ HR') as ->. eapply HN. rewrite E2 at 1. cbn. reflexivity.
      * right. left. exists (c :: x), r. split; [reflexivity|]. split; [split; [exact HX|discriminate]|exact HR].
    + intros (h & e & -> & HH & HE). rewrite path_eat; [exact HE| |exact HE]. destruct HH as [[->|(x & r & -> & [HX _] & HR)]|[(x & r & -> & [HX _] & HR)| ->]].
      * constructor; [right; reflexivity|constructor].
      * apply abempty_encoded, path_abempty_segment; assumption.
      * apply encoded_app; [eapply encoded_impl; [|exact HX]; auto|apply abempty_encoded, HR].
      * constructor.
Qed.
Lemma hier_spec (b : bool) s : uri_hier b s = true <-> exists h e, s = h ++ e /\ hier_part (alone b) h /\ suffix e.
Proof.
  rewrite hier_eq.
  assert (NA : forall h e, s = h ++ e -> suffix e -> (forall r, s <> 47%N :: 47%N :: r) -> ~ exists a p, h = "//" ++ a ++ p).
  { intros h e E _ HN (a & p & ->). apply (HN ((a ++ p) ++ e)). exact E. }
  assert (AL : (forall r, s <> 47%N :: 47%N :: r) ->
    (if b then let t := uri_skip NC s in uri_end (match after 47 t with Some _ => uri_path t | None => t end) else uri_end (uri_path s)) = true
     <-> exists h e, s = h ++ e /\ hier_part (alone b) h /\ suffix e).
  { intros HN. rewrite (alone_spec b s HN). split; intros (h & e & E & HH & HE); exists h, e; (split; [exact E|]; split; [|exact HE]).
    - right. exact HH.
    - destruct HH as [(a & p & -> & _)|HH]; [|exact HH]. exfalso. eapply (NA _ _ E HE HN). exists a, p. reflexivity. }
  destruct (after 47 s) as [x|] eqn:E1.
  - apply after_spec in E1. destruct (after 47 x) as [r|] eqn:E2.
    + apply after_spec in E2. subst x s. split.
      * destruct (uri_authority r) as [t|] eqn:EA; [|discriminate]. rewrite abempty_end. intros (p & e & -> & HP & HE).
        apply authority_split in EA. destruct EA as (a & -> & HA). exists ("//" ++ a ++ p), e.
        split; [change (("//" ++ a ++ p) ++ e) with (47%N :: 47%N :: ((a ++ p) ++ e)); rewrite <- app_assoc; reflexivity|].
        split; [left; exists a, p; auto|exact HE].
      * intros (h & e & E & HH & HE).
        assert (HX : exists a p, h = "//" ++ a ++ p /\ authority a /\ path_abempty p).
        { destruct HH as [HH|HH]; [exact HH|]. exfalso. destruct HH as [[->|(x & y & -> & [HX NX] & HR)]|[HH| ->]].
          - cbn [app] in E. injection E as E. apply suffix_tail in HE. rewrite <- E in HE. destruct HE; discriminate.
          - destruct x as [|c x]; [contradiction|]. cbn [app] in E. injection E as <- _. inversion HX as [|? ? HC|]; subst.
            apply pchar_ok in HC. discriminate.
          - assert (HX : exists x y, h = x ++ y /\ segment x /\ x <> []).
            { destruct b; destruct HH as (x & y & -> & [HX NX] & _); exists x, y; split; auto; split; auto.
              eapply encoded_impl; [|exact HX]. intros c [HC|HC]; [left; exact HC|right; right; exact HC]. }
            destruct HX as ([|c x] & y & -> & HX & NX); [contradiction|]. cbn [app] in E. injection E as <- _.
            inversion HX as [|? ? HC|]; subst. apply pchar_ok in HC. discriminate.
          - cbn [app] in E. apply suffix_tail in HE. rewrite <- E in HE. destruct HE; discriminate. }
        destruct HX as (a & p & -> & HA & HP). change (("//" ++ a ++ p) ++ e) with (47%N :: 47%N :: ((a ++ p) ++ e)) in E.
        injection E as ->. rewrite <- app_assoc.
        rewrite (authority_eat a (p ++ e) HA).
        -- apply abempty_end. exists p, e. auto.
        -- destruct p as [|c p]; cbn [app]; [|left; apply (abempty_cons _ _ HP)]. apply suffix_tail in HE. destruct e; [exact I|]. right. exact HE.
    + apply AL. intros r E. rewrite E1 in E. injection E as ->. cbn [after] in E2. rewrite N.eqb_refl in E2. discriminate.
  - apply AL. intros r E. subst s. cbn [after] in E1. rewrite N.eqb_refl in E1. discriminate.
Qed.
Definition SC := fun c => is_alpha c || is_digit_ c || existsb (N.eqb c) "+-.".
Lemma SC_ok c : SC c = true <-> alpha c \/ digit c \/ one_of "+-." c.
Proof. unfold SC. rewrite !orb_true_iff, alpha_ok, digit_ok, one_of_ok. tauto. Qed.
Lemma scheme_spec s r : uri_scheme s = Some r <-> exists c, s = c ++ 58%N :: r /\ Forall (fun x => alpha x \/ digit x \/ one_of "+-." x) c.
Proof.
  split.
  - induction s as [|x s IH]; [discriminate|]. cbn [uri_scheme]. destruct (N.eqb_spec x 58) as [->|N].
    + intros H. injection H as <-. exists []. split; [reflexivity|constructor].
    + fold (SC x). destruct (SC x) eqn:ES; [|discriminate]. intros H. destruct (IH H) as (c & -> & HC). exists (x :: c).
      split; [reflexivity|constructor; [apply SC_ok, ES|exact HC]].
  - intros (c & -> & HC). induction HC as [|x c HX HC IH]; [reflexivity|]. cbn [app uri_scheme]. apply SC_ok in HX.
    destruct (N.eqb_spec x 58) as [->|N]; [discriminate|]. fold (SC x). rewrite HX. exact IH.
Qed.
Theorem uri_reference_spec s : uri_reference s = true <-> uri_ref s.
Proof.
  unfold uri_reference, uri_ref. rewrite orb_true_iff.
  assert (R : uri_hier true s = true <-> relative_ref s).
  { rewrite hier_spec. unfold relative_ref, suffix. split.
    - intros (h & e & -> & HH & q & f & -> & HQ & HF). exists h, q, f. auto.
    - intros (h & q & f & -> & HH & HQ & HF). exists h, (q ++ f). split; [reflexivity|]. split; [exact HH|]. exists q, f. auto. }
  rewrite R. clear R. apply or_iff_compat_r. unfold uri. split.
  - destruct s as [|c s]; [discriminate|]. rewrite andb_true_iff. intros [HA H].
    destruct (uri_scheme (c :: s)) as [r|] eqn:ES; [|discriminate]. apply scheme_spec in ES. destruct ES as (x & ES & HX).
    apply hier_spec in H. destruct H as (h & e & -> & HH & q & f & -> & HQ & HF).
    exists x, h, q, f. split; [exact ES|]. split; [|auto]. destruct x as [|c' x].
    + cbn [app] in ES. injection ES as -> _. discriminate.
    + cbn [app] in ES. injection ES as <- _. inversion HX; subst. exists c, x. split; [reflexivity|]. split; [apply alpha_ok, HA|assumption].
  - intros (x & h & q & f & E & (c & r & -> & HA & HR) & HH & HQ & HF).
    assert (ES : uri_scheme s = Some (h ++ q ++ f)).
    { apply scheme_spec. exists (c :: r). split; [exact E|]. constructor; [auto|exact HR]. }
    assert (HS : exists s', s = c :: s') by (rewrite E; cbn [app]; eauto). destruct HS as (s' & HS). rewrite HS in *.
    rewrite ES, andb_true_iff. split; [apply alpha_ok, HA|]. apply hier_spec. exists h, (q ++ f). split; [reflexivity|].
    split; [exact HH|]. exists q, f. auto.
Qed.
