(** SerialiseProofs.v -- a written tree is read again *)
From Coq Require Import Permutation.
From Verif Require Import Base Xml Utf8 Lxml Py Parser Serialise SpecXml SpecLines DictProofs XmlProofs LineProofs
  ParserProofs GrammarProofs GrammarMachine GrammarInv GrammarStep GrammarDoc.

(** ** Numbers *)
Lemma dec_number fuel : forall n acc m, (N.size n < N.of_nat fuel)%N -> 
  (forall s, number 10 decimal s n -> number 10 decimal (s ++ acc) m) -> number 10 decimal (dec_digits fuel n acc) m.
Proof.
  induction fuel as [|f IH]; intros n acc m HF H; [lia|]. cbn [dec_digits].
  assert (D : decimal (48 + n mod 10) (n mod 10)) by (split; [lia|apply N.mod_lt; discriminate]).
  destruct (N.eqb_spec (n / 10) 0) as [E|E].
  - apply (H [_]). assert (EN : n = (n mod 10)%N) by (rewrite N.mod_small; [reflexivity|]; apply N.div_small_iff in E; [exact E|discriminate]).
    rewrite EN at 2. constructor. exact D.
  - apply IH.
    + assert (L : (n / 10 <= n / 2)%N) by (apply N.div_le_compat_l; lia).
      assert (S1 : (N.size (n / 2) < N.of_nat f)%N).
      { assert (S2 : (N.size (n / 2) + 1 <= N.size n)%N).
        { rewrite <- N.div2_div. destruct n as [|[p|p|]]; cbn -[N.add]; lia. }
        lia. }
      assert (M : (N.size (n / 10) <= N.size (n / 2))%N).
      { destruct (N.eq_dec (n / 10) 0) as [Z|Z]; [contradiction|]. rewrite !N.size_log2 by lia. apply -> N.succ_le_mono. apply N.log2_le_mono, L. }
      lia.
    + intros s HS. replace (s ++ (48 + n mod 10)%N :: acc) with ((s ++ [(48 + n mod 10)%N]) ++ acc) by (rewrite <- app_assoc; reflexivity).
      apply H. rewrite (N.div_mod n 10) at 2 by discriminate. apply number_more; assumption.
Qed.
Lemma str_of_N_number n : number 10 decimal (str_of_N n) n.
Proof. unfold str_of_N. apply dec_number; [lia|]. intros s H. rewrite app_nil_r. exact H. Qed.
Lemma hex_number fuel : forall n acc m, (N.size n < N.of_nat fuel)%N -> 
  (forall s, number 16 hexadecimal s n -> number 16 hexadecimal (s ++ acc) m) -> number 16 hexadecimal (hex_digits fuel n acc) m.
Proof.
  induction fuel as [|f IH]; intros n acc m HF H; [lia|]. cbn [hex_digits].
  assert (D : hexadecimal (hex_letter (n mod 16)) (n mod 16)).
  { assert (L : (n mod 16 < 16)%N) by (apply N.mod_lt; discriminate). unfold hex_letter, hexadecimal. destruct (N.ltb_spec (n mod 16) 10); lia. }
  destruct (N.eqb_spec (n / 16) 0) as [E|E].
  - apply (H [_]). assert (EN : n = (n mod 16)%N) by (rewrite N.mod_small; [reflexivity|]; apply N.div_small_iff in E; [exact E|discriminate]).
    rewrite EN at 2. constructor. exact D.
  - apply IH.
    + assert (L : (n / 16 <= n / 2)%N) by (apply N.div_le_compat_l; lia).
      assert (S1 : (N.size (n / 2) < N.of_nat f)%N).
      { assert (S2 : (N.size (n / 2) + 1 <= N.size n)%N).
        { rewrite <- N.div2_div. destruct n as [|[p|p|]]; cbn -[N.add]; lia. }
        lia. }
      assert (M : (N.size (n / 16) <= N.size (n / 2))%N).
      { destruct (N.eq_dec (n / 16) 0) as [Z|Z]; [contradiction|]. rewrite !N.size_log2 by lia. apply -> N.succ_le_mono. apply N.log2_le_mono, L. }
      lia.
    + intros s HS. replace (s ++ hex_letter (n mod 16) :: acc) with ((s ++ [hex_letter (n mod 16)]) ++ acc) by (rewrite <- app_assoc; reflexivity).
      apply H. rewrite (N.div_mod n 16) at 2 by discriminate. apply number_more; assumption.
Qed.
Lemma hex_of_N_number n : number 16 hexadecimal (hex_of_N n) n.
Proof. unfold hex_of_N. apply hex_number; [lia|]. intros s H. rewrite app_nil_r. exact H. Qed.

(** ** Characters in the output *)
Definition low (s : str) : Prop := Forall (fun c => (c < 128)%N) s.
Lemma in_charset_app b s t : in_charset b (s ++ t) = in_charset b s ++ in_charset b t.
Proof. destruct b; [apply flat_map_app|reflexivity]. Qed.
Lemma in_charset_low b s : (b = true -> low s) -> in_charset b s = s.
Proof.
  destruct b; [|reflexivity]. intros H. specialize (H eq_refl). cbn [in_charset]. induction H as [|c s H _ IH]; [reflexivity|].
  cbn [flat_map]. rewrite IH. unfold ascii_char. apply N.ltb_lt in H. rewrite H. reflexivity.
Qed.
Lemma in_charset_flat b (f : N -> str) s : in_charset b (flat_map f s) = flat_map (fun c => in_charset b (f c)) s.
Proof. induction s as [|c s IH]; [destruct b; reflexivity|]. cbn [flat_map]. rewrite in_charset_app, IH. reflexivity. Qed.
Lemma in_charset_one b c : in_charset b [c] = if b && N.leb 128 c then "&#" ++ str_of_N c ++ ";" else [c].
Proof.
  destruct b; [|reflexivity]. cbn [in_charset flat_map andb]. rewrite app_nil_r. unfold ascii_char.
  destruct (N.ltb_spec c 128), (N.leb_spec 128 c); try lia; reflexivity.
Qed.
Lemma number_low s n : number 16 hexadecimal s n -> low s.
Proof.
  intros H. apply Forall_forall. intros c HC. destruct (number_digit _ _ _ _ _ H HC) as (d & HD). unfold hexadecimal in HD. lia.
Qed.
Lemma number_low10 s n : number 10 decimal s n -> low s.
Proof.
  intros H. apply Forall_forall. intros c HC. destruct (number_digit _ _ _ _ _ H HC) as (d & HD). unfold decimal in HD. lia.
Qed.

Lemma content_put_char b c t k : char c -> free t -> content t k -> content (in_charset b (put_char c) ++ t) (XChar c :: k).
Proof.
  intros HC HF H. unfold put_char.
  destruct (N.eqb_spec c 60) as [->|N60]; [destruct b; apply (content_reference "lt"); auto using reference_lt|].
  destruct (N.eqb_spec c 62) as [->|N62]; [destruct b; apply (content_reference "gt"); auto using reference_gt|].
  destruct (N.eqb_spec c 38) as [->|N38]; [destruct b; apply (content_reference "amp"); auto using reference_amp|].
  destruct (N.eqb_spec c 13) as [->|N13].
  { destruct b; apply (content_reference "#13"); auto; apply (reference_decimal "13"); auto; apply dec_val_ok; reflexivity. }
  rewrite in_charset_one. destruct (b && N.leb 128 c).
  - replace (("&#" ++ str_of_N c ++ ";") ++ t) with ("&" ++ ("#" ++ str_of_N c) ++ ";" ++ t) by (cbn [app]; rewrite <- app_assoc; reflexivity).
    apply content_reference; [|exact H]. apply reference_decimal; [apply str_of_N_number|exact HC].
  - apply content_free; assumption.
Qed.
Lemma free_put_char b c : free (in_charset b (put_char c)).
Proof.
  unfold put_char.
  destruct (N.eqb_spec c 60) as [->|N60]; [destruct b; apply free_first; discriminate|].
  destruct (N.eqb_spec c 62) as [->|N62]; [destruct b; apply free_first; discriminate|].
  destruct (N.eqb_spec c 38) as [->|N38]; [destruct b; apply free_first; discriminate|].
  destruct (N.eqb_spec c 13) as [->|N13]; [destruct b; apply free_first; discriminate|].
  rewrite in_charset_one. destruct (b && N.leb 128 c); [apply free_first; discriminate|apply free_one, N62].
Qed.
Lemma value_put_char b hex c : char c -> value 34 (in_charset b (put_value_char hex c)) [c].
Proof.
  intros HC.
  assert (R : forall r, reference r c -> low r -> value 34 (in_charset b ("&" ++ r ++ ";")) [c]).
  { intros r HR HL. rewrite in_charset_low.
    - apply (value_reference 34 r c [] []); [exact HR|constructor].
    - intros _. constructor; [reflexivity|]. apply Forall_app. split; [exact HL|]. constructor; [reflexivity|constructor]. }
  assert (LO : forall r, forallb (fun x => N.ltb x 128) r = true -> low r).
  { intros r H. apply Forall_forall. intros x HX. rewrite forallb_forall in H. apply N.ltb_lt, H, HX. }
  unfold put_value_char.
  destruct (N.eqb_spec c 34) as [->|N34]; [apply (R "quot"); [constructor|apply LO; reflexivity]|].
  destruct (N.eqb_spec c 10) as [->|N10].
  { apply (R "#10"); [apply (reference_decimal "10"); [apply dec_val_ok; reflexivity|exact HC]|apply LO; reflexivity]. }
  destruct (N.eqb_spec c 13) as [->|N13].
  { apply (R "#13"); [apply (reference_decimal "13"); [apply dec_val_ok; reflexivity|exact HC]|apply LO; reflexivity]. }
  destruct (N.eqb_spec c 9) as [->|N9].
  { apply (R "#9"); [apply (reference_decimal "9"); [apply dec_val_ok; reflexivity|exact HC]|apply LO; reflexivity]. }
  destruct (N.eqb_spec c 60) as [->|N60]; [apply (R "lt"); [constructor|apply LO; reflexivity]|].
  destruct (N.eqb_spec c 62) as [->|N62]; [apply (R "gt"); [constructor|apply LO; reflexivity]|].
  destruct (N.eqb_spec c 38) as [->|N38]; [apply (R "amp"); [constructor|apply LO; reflexivity]|].
  destruct (hex && N.leb 128 c).
  { replace ("&#x" ++ hex_of_N c ++ ";") with ("&" ++ ("#x" ++ hex_of_N c) ++ ";") by reflexivity.
    apply R; [apply reference_hexadecimal; [apply hex_of_N_number|exact HC]|].
    apply Forall_app. split; [apply LO; reflexivity|apply (number_low _ c), hex_of_N_number]. }
  rewrite in_charset_one. destruct (b && N.leb 128 c).
  - replace ("&#" ++ str_of_N c ++ ";") with ("&" ++ ("#" ++ str_of_N c) ++ ";" ++ []) by reflexivity.
    apply value_reference; [|constructor]. apply reference_decimal; [apply str_of_N_number|exact HC].
  - destruct (N.eqb_spec c 32) as [->|N32].
    + apply (value_white 34 32%N); [left; reflexivity|constructor].
    + apply value_char; try assumption; [|constructor]. unfold white. cbn [In]. intuition congruence.
Qed.
Lemma value_put b hex v : Forall char v -> value 34 (in_charset b (flat_map (put_value_char hex) v)) v.
Proof.
  intros H. rewrite in_charset_flat. induction H as [|c v H _ IH]; [constructor|]. cbn [flat_map].
  apply (value_app _ _ [c] _ v); [apply value_put_char, H|exact IH].
Qed.

(** ** Quoted names of namespaces *)
Definition plain_uri (u : str) : Prop := Forall (fun c => char c /\ ~ In c [9; 10; 13; 38; 60]%N) u.
Lemma value_plain b q u : quote q -> plain_uri u -> ~ In q u -> value q (in_charset b u) u.
Proof.
  intros HQ H. induction H as [|c u [HC HN] _ IH]; intros NQ; [destruct b; constructor|].
  change (c :: u) with ([c] ++ u) at 1. rewrite in_charset_app. change (c :: u) with ([c] ++ u).
  apply value_app; [|apply IH; intros HI; apply NQ; right; exact HI]. rewrite in_charset_one.
  assert (N : c <> 9%N /\ c <> 10%N /\ c <> 13%N /\ c <> 38%N /\ c <> 60%N) by (cbn [In] in HN; intuition congruence).
  destruct (b && N.leb 128 c).
  - replace ("&#" ++ str_of_N c ++ ";") with ("&" ++ ("#" ++ str_of_N c) ++ ";" ++ []) by reflexivity.
    apply value_reference; [|constructor]. apply reference_decimal; [apply str_of_N_number|exact HC].
  - destruct (N.eqb_spec c 32) as [->|N32].
    + apply (value_white q 32%N); [left; reflexivity|constructor].
    + apply value_char; [exact HC| | |apply N|apply N|constructor].
      * unfold white. cbn [In]. intuition congruence.
      * intros ->. apply NQ. left. reflexivity.
Qed.
Lemma not_in_existsb (x : N) l : existsb (N.eqb x) l = false -> ~ In x l.
Proof. intros H HI. apply Bool.not_true_iff_false in H. apply H. apply existsb_exists. exists x. split; [exact HI|apply N.eqb_refl]. Qed.
Lemma value_quot b u : plain_uri u -> value 34 (in_charset b (replace_char 34 "&quot;" u)) u.
Proof.
  intros H. induction H as [|c u [HC HN] HU IH]; [destruct b; constructor|].
  change (replace_char 34 "&quot;" (c :: u)) with ((if N.eqb c 34 then "&quot;" else [c]) ++ replace_char 34 "&quot;" u).
  rewrite in_charset_app. change (c :: u) with ([c] ++ u). apply value_app; [|exact IH].
  destruct (N.eqb_spec c 34) as [->|N34].
  - rewrite in_charset_low by (intros _; repeat constructor). apply (value_reference 34 "quot" 34%N [] []); constructor.
  - apply (value_plain b 34 [c]); [left; reflexivity|constructor; [split; assumption|constructor]|]. cbn [In]. intuition congruence.
Qed.

(** ** Heads of elements *)
Definition fit (a : bool) (n : str) : Prop := name n /\ (a = true -> low n).
Definition raw_def (d : nsref) : str * str := (def_name (fst d), snd d).
Definition raw_attr (x : attr) : str * str := (qualified (prefix_of (a_ns x)) (a_local x), a_val x).
Definition raw_attrs (defs : nsmap) (attrs : list attr) : list (str * str) := map raw_def defs ++ map raw_attr attrs.
Lemma low_of r : forallb (fun x => N.ltb x 128) r = true -> low r.
Proof. intros H. apply Forall_forall. intros x HX. rewrite forallb_forall in H. apply N.ltb_lt, H, HX. Qed.
Lemma charset_fit b n : fit b n -> in_charset b n = n.
Proof. intros [_ H]. apply in_charset_low, H. Qed.
Lemma charset_lit b s : forallb (fun x => N.ltb x 128) s = true -> in_charset b s = s.
Proof. intros H. apply in_charset_low. intros _. apply low_of, H. Qed.
Lemma attribute_text q k t v rest l : quote q -> name k -> SpecXml.value q t v -> attributes rest l ->
  attributes ((" " ++ k ++ "=" ++ [q] ++ t ++ [q]) ++ rest) ((k, v) :: l).
Proof.
  intros HQ HK HV HR.
  replace ((" " ++ k ++ "=" ++ [q] ++ t ++ [q]) ++ rest) with (" " ++ k ++ [] ++ "=" ++ [] ++ [q] ++ t ++ [q] ++ rest)
    by (rewrite <- !app_assoc; reflexivity).
  constructor; auto; [repeat constructor|discriminate].
Qed.
Lemma def_text b d : fit b (def_name (fst d)) -> plain_uri (snd d) ->
  exists q t, quote q /\ in_charset b (put_def d) = " " ++ def_name (fst d) ++ "=" ++ [q] ++ t ++ [q] /\ SpecXml.value q t (snd d).
Proof.
  intros HN HU. unfold put_def, put_quoted. destruct d as [p u]. cbn [fst snd] in *.
  assert (E : forall q t, quote q -> in_charset b (" " ++ def_name p ++ "=" ++ [q] ++ t ++ [q]) = " " ++ def_name p ++ "=" ++ [q] ++ in_charset b t ++ [q]).
  { intros q t HQ. rewrite !in_charset_app, (charset_fit b _ HN), (charset_lit b " " eq_refl), (charset_lit b "=" eq_refl).
    assert (Q : in_charset b [q] = [q]) by (apply charset_lit; destruct HQ as [-> | ->]; reflexivity). rewrite Q. reflexivity. }
  assert (Q34 : quote 34) by (left; reflexivity). assert (Q39 : quote 39) by (right; reflexivity).
  destruct (existsb (N.eqb 34) u) eqn:E34; [destruct (existsb (N.eqb 39) u) eqn:E39|].
  - exists 34%N, (in_charset b (replace_char 34 "&quot;" u)). split; [exact Q34|]. split; [apply E, Q34|apply value_quot, HU].
  - exists 39%N, (in_charset b u). split; [exact Q39|]. split; [apply E, Q39|apply value_plain; auto using not_in_existsb].
  - exists 34%N, (in_charset b u). split; [exact Q34|]. split; [apply E, Q34|apply value_plain; auto using not_in_existsb].
Qed.
Lemma attr_text b hex x : fit b (fst (raw_attr x)) -> Forall char (a_val x) ->
  exists t, in_charset b (put_attr hex x) = " " ++ fst (raw_attr x) ++ "=" ++ [34%N] ++ t ++ [34%N] /\ SpecXml.value 34 t (a_val x).
Proof.
  intros HN HV. exists (in_charset b (flat_map (put_value_char hex) (a_val x))). split; [|apply value_put, HV].
  unfold put_attr, raw_attr in *. cbn [fst] in *. change "=""" with ("=" ++ [34%N]). rewrite !in_charset_app, (charset_fit b _ HN), (charset_lit b " " eq_refl).
  rewrite (charset_lit b "=" eq_refl), (charset_lit b [34%N] eq_refl), <- app_assoc. reflexivity.
Qed.
Definition fit_def (b : bool) (d : nsref) : Prop := fit b (def_name (fst d)) /\ plain_uri (snd d).
Definition fit_attr (b : bool) (x : attr) : Prop := fit b (fst (raw_attr x)) /\ Forall char (a_val x).
Lemma heads_text b hex defs attrs : Forall (fit_def b) defs -> Forall (fit_attr b) attrs ->
  attributes (in_charset b (flat_map put_def defs ++ flat_map (put_attr hex) attrs)) (raw_attrs defs attrs).
Proof.
  intros HD HA. unfold raw_attrs. induction HD as [|d defs [H1 H2] _ IH].
  - cbn [flat_map map app]. induction HA as [|x attrs [H1 H2] _ IH]; [destruct b; constructor|].
    cbn [flat_map map]. rewrite in_charset_app. destruct (attr_text b hex x H1 H2) as (t & -> & HV).
    apply (attribute_text 34 _ t (a_val x)); [left; reflexivity|apply H1|exact HV|exact IH].
  - cbn [flat_map map app]. rewrite <- app_assoc, in_charset_app. destruct (def_text b d H1 H2) as (q & t & HQ & -> & HV).
    apply (attribute_text q _ t (snd d)); [exact HQ|apply H1|exact HV|exact IH].
Qed.

(** ** Trees *)
Inductive writable (b : bool) : node -> Prop :=
| writable_chr c : char c -> writable b (Chr c)
| writable_cmt s : comment s -> ~ In 13%N s -> writable b (Cmt s)
| writable_pin s : instruction s -> ~ In 13%N s -> (b = true -> low (pi_target s)) -> writable b (Pin s)
| writable_el ns l defs inh attrs kids :
    fit b (qualified (prefix_of ns) l) -> Forall (fit_def b) defs -> Forall (fit_attr b) attrs -> Forall (writable b) kids ->
    writable b (El ns l defs inh attrs kids).
(** the tree without its namespaces resolved *)
Fixpoint unresolve (n : node) : xnode :=
  match n with
  | Chr c => XChar c
  | Cmt s => XComment s
  | Pin s => XPI s
  | El ns l defs _ attrs kids => XElem (qualified (prefix_of ns) l) (raw_attrs defs attrs) (map unresolve kids)
  end.
(** comments and processing instructions as they are written *)
Fixpoint refined (b : bool) (n : node) : node :=
  match n with
  | Chr c => Chr c
  | Cmt s => Cmt (in_charset b s)
  | Pin s => Pin (in_charset b (pi_normal s))
  | El ns l defs inh attrs kids => El ns l defs inh attrs (map (refined b) kids)
  end.
(** line breaks and indentation as they are added *)
Definition padding (f : bool) (s : str) : list node := if f then map Chr s else [].
Fixpoint pretty (fmt : bool) (level : nat) (n : node) : node :=
  match n with
  | El ns l defs inh attrs kids =>
      El ns l defs inh attrs
        match kids with
        | [] => []
        | _ =>
            let fmt' := fmt && negb (existsb is_chr kids) in
            padding fmt' nl
            ++ flat_map (fun k => padding fmt' (indentation (S level)) ++ [pretty fmt' (S level) k] ++ padding fmt' nl) kids
            ++ padding fmt' (indentation level)
        end
  | _ => n
  end.
Lemma is_chr_refined b n : is_chr (refined b n) = is_chr n.
Proof. destruct n; reflexivity. Qed.
Lemma existsb_refined b l : existsb is_chr (map (refined b) l) = existsb is_chr l.
Proof. induction l as [|n l IH]; [reflexivity|]. cbn [map existsb]. rewrite is_chr_refined, IH. reflexivity. Qed.

Lemma skip_word {A} (x : A) w : ~ In x w -> forall z a r, w ++ z = a ++ x :: r -> exists a', a = w ++ a' /\ z = a' ++ x :: r.
Proof.
  induction w as [|y w IH]; intros HN z a r H; [exists a; auto|]. destruct a as [|y' a].
  - cbn in H. injection H as <- _. exfalso. apply HN. left. reflexivity.
  - cbn in H. injection H as <- H. destruct (IH (fun HI => HN (or_intror HI)) _ _ _ H) as (a' & -> & ->). exists a'. auto.
Qed.
Lemma pair_kept (f : N -> str) x y : (forall c, f c = [c] \/ f c <> [] /\ ~ In x (f c) /\ ~ In y (f c)) ->
  forall s a b, flat_map f s = a ++ x :: y :: b -> exists a' b', s = a' ++ x :: y :: b'.
Proof.
  intros HF s. induction s as [|c s IH]; intros a b H; [destruct a; discriminate H|]. cbn [flat_map] in H. destruct (HF c) as [E|(E1 & E2 & E3)].
  - rewrite E in H. destruct a as [|c' a].
    + cbn in H. injection H as -> H. destruct s as [|d s]; [discriminate H|]. cbn [flat_map] in H. destruct (HF d) as [D|(D1 & D2 & D3)].
      * rewrite D in H. cbn in H. injection H as -> _. exists [], s. reflexivity.
      * destruct (f d) as [|e w]; [contradiction|]. cbn in H. injection H as -> _. exfalso. apply D3. left. reflexivity.
    + cbn in H. injection H as <- H. destruct (IH _ _ H) as (a' & b' & ->). exists (c :: a'), b'. reflexivity.
  - destruct (skip_word x (f c) E2 _ _ _ H) as (a0 & _ & H'). destruct (IH _ _ H') as (a' & b' & ->). exists (c :: a'), b'. reflexivity.
Qed.
Lemma reference_text n c : In c ("&#" ++ str_of_N n ++ ";") -> In c "&#0123456789;".
Proof.
  rewrite !in_app_iff. intros [H|[H|H]]; [cbn [In] in *; tauto| |cbn [In] in *; tauto].
  destruct (number_digit _ _ _ _ _ (str_of_N_number n) H) as (d & -> & HD).
  assert (D : (d = 0 \/ d = 1 \/ d = 2 \/ d = 3 \/ d = 4 \/ d = 5 \/ d = 6 \/ d = 7 \/ d = 8 \/ d = 9)%N) by lia.
  cbn [In]. intuition (subst; auto 15).
Qed.
Lemma ascii_char_cases x y c : ~ In x "&#0123456789;" -> ~ In y "&#0123456789;" ->
  ascii_char c = [c] \/ ascii_char c <> [] /\ ~ In x (ascii_char c) /\ ~ In y (ascii_char c).
Proof.
  intros HX HY. unfold ascii_char. destruct (N.ltb c 128); [left; reflexivity|right]. split; [discriminate|].
  split; intros H; apply reference_text in H; auto.
Qed.
Lemma absent_charset b x y s : ~ In x "&#0123456789;" -> ~ In y "&#0123456789;" -> absent [x; y] s -> absent [x; y] (in_charset b s).
Proof.
  intros HX HY H. destruct b; [|exact H]. intros p q E. cbn [in_charset] in E.
  destruct (pair_kept ascii_char x y (fun c => ascii_char_cases x y c HX HY) s p q E) as (a & b & E'). apply (H a b). exact E'.
Qed.
Lemma char_low c : In c "&#0123456789;" -> char c.
Proof. intros H. apply char_ok. cbn [In] in H. repeat (destruct H as [<-|H]; [reflexivity|]). contradiction. Qed.
Lemma chars_charset b s : Forall char s -> Forall char (in_charset b s).
Proof.
  destruct b; [|auto]. intros H. cbn [in_charset]. induction H as [|c s H _ IH]; [constructor|]. cbn [flat_map]. apply Forall_app. split; [|exact IH].
  unfold ascii_char. destruct (N.ltb c 128); [constructor; [exact H|constructor]|]. apply Forall_forall. intros x HX. apply char_low, (reference_text c), HX.
Qed.
Lemma comment_charset b s : comment s -> comment (in_charset b s).
Proof.
  intros [H1 H2]. split; [apply chars_charset, H1|].
  replace (in_charset b s ++ "-") with (in_charset b (s ++ "-")) by (rewrite in_charset_app; destruct b; reflexivity).
  apply (absent_charset b 45 45); [cbn [In]; intuition discriminate|cbn [In]; intuition discriminate|exact H2].
Qed.
Lemma absent_joined x y m u v : m <> x -> m <> y -> absent [x; y] u -> absent [x; y] v -> absent [x; y] (u ++ m :: v).
Proof.
  intros HX HY HU HV a b E. revert a E HU. induction u as [|c u IH]; intros a E HU.
  - cbn in E. destruct a as [|c' a]; [injection E as E _; contradiction|]. injection E as <- E. apply (HV a b E).
  - destruct a as [|c' a].
    + cbn in E. injection E as -> E. destruct u as [|d u]; [cbn in E; injection E as E _; contradiction|].
      cbn in E. injection E as -> E. apply (HU [] u). reflexivity.
    + cbn in E. injection E as <- E. apply (IH a E). intros p q EQ. apply (HU (c :: p) q). rewrite EQ. reflexivity.
Qed.
Lemma absent_suffix p u v : absent p (u ++ v) -> absent p v.
Proof. intros H a b ->. apply (H (u ++ a) b). rewrite <- app_assoc. reflexivity. Qed.
Lemma drop_while_suffix {A} (f : A -> bool) l : exists p, l = p ++ drop_while f l /\ Forall (fun x => f x = true) p.
Proof.
  induction l as [|x l IH]; [exists []; split; [reflexivity|constructor]|]. cbn [drop_while]. destruct (f x) eqn:E; [|exists []; split; [reflexivity|constructor]].
  destruct IH as (p & H & HF). exists (x :: p). split; [cbn; congruence|constructor; assumption].
Qed.
Lemma take_drop {A} (f : A -> bool) l : l = take_while f l ++ drop_while f l.
Proof. induction l as [|x l IH]; [reflexivity|]. cbn. destruct (f x); [cbn; congruence|reflexivity]. Qed.
Lemma pi_parts s : exists sp, s = pi_target s ++ sp ++ pi_data s /\ Forall white sp /\ (existsb is_ws s = true -> sp <> []) /\ (existsb is_ws s = false -> sp = [] /\ pi_data s = []).
Proof.
  unfold pi_target, pi_data. set (r := drop_while (fun c => negb (is_ws c)) s).
  assert (E : s = take_while (fun c => negb (is_ws c)) s ++ r) by apply take_drop.
  destruct (drop_while_suffix is_ws r) as (sp & H & HF). exists sp. split; [rewrite <- H; exact E|].
  split; [eapply Forall_impl; [|exact HF]; intros c HC; apply white_ok, HC|].
  assert (T : forall x, In x (take_while (fun c => negb (is_ws c)) s) -> is_ws x = false).
  { clear. induction s as [|c s IH]; intros x HX; [contradiction HX|]. cbn in HX. destruct (is_ws c) eqn:E; cbn in HX; [contradiction|].
    destruct HX as [<-|HX]; auto. }
  assert (R : r = [] \/ exists c r', r = c :: r' /\ is_ws c = true).
  { unfold r. clear. induction s as [|c s IH]; [left; reflexivity|]. cbn. destruct (is_ws c) eqn:E; cbn; [right; eauto|exact IH]. }
  split.
  - intros HW ->. cbn [app] in H. destruct R as [R|(c & r' & R & HC)].
    + rewrite R, app_nil_r in E. apply existsb_exists in HW. destruct HW as (x & HX & HW). rewrite E in HX. apply T in HX. congruence.
    + rewrite R in H. cbn [drop_while] in H. rewrite HC in H. destruct (drop_while_suffix is_ws r') as (p & HP & _).
      apply (f_equal (@length _)) in H, HP. rewrite app_length in HP. cbn [length] in H. lia.
  - intros HW. destruct R as [R|(c & r' & R & HC)].
    + rewrite R in H |- *. destruct sp; [auto|discriminate H].
    + exfalso. apply Bool.not_true_iff_false in HW. apply HW. apply existsb_exists. exists c. split; [|exact HC]. rewrite E, R. apply in_or_app. right. left. reflexivity.
Qed.
Lemma low_pi_target b s : instruction s -> (b = true -> low (pi_target s)) -> fit b (pi_target s).
Proof. intros H HL. split; [apply instruction_target in H; apply H|exact HL]. Qed.
Lemma instruction_charset b s : instruction s -> (b = true -> low (pi_target s)) -> instruction (in_charset b (pi_normal s)).
Proof.
  intros H HL. pose proof (instruction_target _ H) as HT. pose proof (low_pi_target b s H HL) as HF. destruct H as (H1 & H2 & _).
  destruct (pi_parts s) as (sp & E & HS & HW & HN). unfold pi_normal. destruct (existsb is_ws s) eqn:EW.
  - assert (N1 : Forall char (pi_target s ++ " " ++ pi_data s)).
    { rewrite E in H1. rewrite !Forall_app in H1 |- *. split; [apply H1|]. split; [|apply H1]. constructor; [apply char_ok; reflexivity|constructor]. }
    split; [apply chars_charset, N1|]. split.
    + apply (absent_charset b 63 62); [cbn [In]; intuition discriminate|cbn [In]; intuition discriminate|].
      apply absent_joined; [discriminate|discriminate| |].
      * rewrite E in H2. apply absent_prefix in H2. exact H2.
      * rewrite E in H2. apply absent_suffix in H2. apply absent_suffix in H2. exact H2.
    + rewrite !in_charset_app, (charset_fit b _ HF). exists (pi_target s), (in_charset b " " ++ in_charset b (pi_data s)).
      split; [reflexivity|]. split; [exact HT|]. right. rewrite (charset_lit b " " eq_refl). exists 32%N, (in_charset b (pi_data s)).
      split; [reflexivity|left; reflexivity].
  - destruct (HN eq_refl) as [-> EP]. rewrite EP, !app_nil_r in E. rewrite E at 1. rewrite (charset_fit b _ HF), <- E.
    split; [exact H1|]. split; [exact H2|]. exists s, []. split; [rewrite app_nil_r; reflexivity|]. split; [|left; reflexivity].
    rewrite E. exact HT.
Qed.

(** ** The text of a tree is read as the tree *)
Lemma content_white s t k : Forall white s -> content t k -> content (s ++ t) (map XChar s ++ k).
Proof.
  intros H HC. induction H as [|c s H _ IH]; [exact HC|]. cbn [app map]. apply content_char; [apply white_char, H| | | |exact IH];
    [..|intros t' E; injection E as -> _]; try intros ->; apply white_ok in H; discriminate H.
Qed.
Lemma white_indentation n : Forall white (indentation n).
Proof. unfold indentation. apply Forall_forall. intros x HX. apply repeat_spec in HX. subst x. left. reflexivity. Qed.
Lemma white_nl : Forall white nl.
Proof. constructor; [unfold white; cbn [In]; auto|constructor]. Qed.
Lemma charset_white b s : Forall white s -> in_charset b s = s.
Proof.
  intros H. apply in_charset_low. intros _. eapply Forall_impl; [|exact H]. intros c HC. apply white_ok in HC.
  unfold is_ws in HC. rewrite !orb_true_iff, !N.eqb_eq in HC. lia.
Qed.
Lemma charset_pad b (f : bool) (s : str) : Forall white s -> in_charset b (if f then s else []) = if f then s else [].
Proof. intros H. destruct f; [apply charset_white, H|destruct b; reflexivity]. Qed.
Lemma content_pad (f : bool) (s t : str) k : Forall white s -> content t k -> content ((if f then s else []) ++ t) (map unresolve (padding f s) ++ k).
Proof.
  intros H HC. destruct f; [|exact HC]. cbn [padding]. rewrite map_map. apply (content_white s t k H HC).
Qed.
Lemma in_charset_flat_map {A} b (f : A -> str) l : in_charset b (flat_map f l) = flat_map (fun x => in_charset b (f x)) l.
Proof. induction l as [|x l IH]; [destruct b; reflexivity|]. cbn [flat_map]. rewrite in_charset_app, IH. reflexivity. Qed.
Lemma free_pad (f : bool) (s : str) : Forall white s -> free (if f then s else []).
Proof. intros H. destruct f; [apply free_white, H|exact free_nil]. Qed.
Lemma free_put b hex f lvl n : free (in_charset b (put hex f lvl n)).
Proof.
  destruct n as [c|ns l defs inh attrs kids|s|s]; [apply free_put_char|..]; cbn [put].
  - destruct kids; rewrite in_charset_app, (charset_lit b "<" eq_refl); apply free_first; discriminate.
  - rewrite in_charset_app, (charset_lit b "<!--" eq_refl). apply free_first; discriminate.
  - rewrite in_charset_app, (charset_lit b "<?" eq_refl). apply free_first; discriminate.
Qed.
Lemma put_text b hex n : writable b n -> forall f lvl, content (in_charset b (put hex f lvl n)) [unresolve (pretty f lvl (refined b n))]
  /\ match n with El _ _ _ _ _ _ => element (in_charset b (put hex f lvl n)) (unresolve (pretty f lvl (refined b n))) | _ => True end.
Proof.
  induction n as [c|s|s|ns l defs inh attrs kids IH] using node_ind'; intros H f lvl; inversion H; subst; [split; [|exact I]..|].
  - cbn [put refined pretty unresolve]. pose proof (content_put_char b c [] [] ltac:(assumption) free_nil content_nil) as G. rewrite app_nil_r in G. exact G.
  - cbn [put refined pretty unresolve]. rewrite !in_charset_app, (charset_lit b "<!--" eq_refl), (charset_lit b "-->" eq_refl).
    apply (content_comment (in_charset b s) [] []); [apply comment_charset; assumption|constructor].
  - cbn [put refined pretty unresolve]. rewrite !in_charset_app, (charset_lit b "<?" eq_refl), (charset_lit b "?>" eq_refl).
    apply (content_instruction _ [] []); [apply instruction_charset; assumption|constructor].
  - cbn [refined]. match goal with |- _ /\ ?G => assert (EL : G); [|split; [apply content_one_element, EL|exact EL]] end.
    match goal with H1 : fit b _, H2 : Forall (fit_def b) _, H3 : Forall (fit_attr b) _, H4 : Forall (writable b) _ |- _ =>
      rename H1 into HN; rename H2 into HD; rename H3 into HA; rename H4 into HK end.
    pose proof (heads_text b hex defs attrs HD HA) as HT.
    cbn [put pretty unresolve]. set (q := qualified (prefix_of ns) l) in *. clearbody q.
    destruct kids as [|k0 kids].
    + cbn [map]. rewrite (app_assoc (flat_map put_def defs)), !(in_charset_app b "<"), !(in_charset_app b q), (in_charset_app b (flat_map put_def defs ++ _)).
      rewrite (charset_fit b q HN), (charset_lit b "<" eq_refl), (charset_lit b "/>" eq_refl).
      apply (element_empty q _ _ []); [apply HN|exact HT|constructor].
    + cbn [map]. change (refined b k0 :: map (refined b) kids) with (map (refined b) (k0 :: kids)). rewrite existsb_refined.
      set (ks := k0 :: kids) in *. set (f' := f && negb (existsb is_chr ks)). clearbody ks f'. clear H f k0 kids.
      rewrite (app_assoc (flat_map put_def defs)). rewrite !(in_charset_app b "<"), (in_charset_app b q (_ ++ _)), (in_charset_app b (flat_map put_def defs ++ _)).
      rewrite !(in_charset_app b ">"), (in_charset_app b (if f' then nl else [])), (in_charset_app b (flat_map _ ks)), (in_charset_app b (if f' then indentation lvl else [])).
      rewrite (in_charset_app b "</"), (in_charset_app b q).
      rewrite (charset_fit b q HN), (charset_lit b "<" eq_refl), (charset_lit b ">" eq_refl), (charset_lit b "</" eq_refl).
      rewrite !charset_pad by auto using white_nl, white_indentation.
      rewrite in_charset_flat_map.
      match goal with |- element ?t (XElem ?q ?a ?k) => 
        replace t with ("<" ++ q ++ in_charset b (flat_map put_def defs ++ flat_map (put_attr hex) attrs) ++ [] ++ ">"
          ++ ((if f' then nl else []) ++ flat_map (fun x => in_charset b ((if f' then indentation (S lvl) else []) ++ put hex f' (S lvl) x ++ (if f' then nl else []))) ks
              ++ (if f' then indentation lvl else [])) ++ "</" ++ q ++ [] ++ ">") by (rewrite <- !app_assoc; reflexivity) end.
      apply element_full; [apply HN|exact HT|constructor| |constructor]. clear HT HN HD HA.
      rewrite map_app. apply content_pad; [apply white_nl|]. rewrite map_app.
      apply content_app; [|apply joined_free, free_pad, white_indentation|].
      * induction HK as [|k ks HK _ IHK]; [constructor|]. inversion IH as [|? ? IH1 IH2]; subst. cbn [map flat_map]. rewrite map_app.
        apply content_app; [| |apply IHK, IH2]; [rewrite map_app|].
        2: { apply joined_free, free_flat_map. intros x _. rewrite !in_charset_app, !charset_pad by auto using white_nl, white_indentation.
             apply free_app; [apply free_pad, white_indentation|]. apply free_app; [apply free_put|apply free_pad, white_nl]. }
        rewrite in_charset_app, (in_charset_app b (put _ _ _ _)), !charset_pad by auto using white_nl, white_indentation.
        apply content_pad; [apply white_indentation|]. rewrite map_app. apply content_app; [apply (IH1 HK)|apply joined_free, free_pad, white_nl|].
        rewrite <- (app_nil_r (if f' then nl else [])), <- (app_nil_r (map unresolve (padding f' nl))). apply content_pad; [apply white_nl|constructor].
      * rewrite <- (app_nil_r (if f' then indentation lvl else [])), <- (app_nil_r (map unresolve (padding f' (indentation lvl)))).
        apply content_pad; [apply white_indentation|constructor].
Qed.
Lemma put_content b hex n : writable b n -> forall f lvl, content (in_charset b (put hex f lvl n)) [unresolve (pretty f lvl (refined b n))].
Proof. intros H f lvl. apply (put_text b hex n H f lvl). Qed.

(** ** Namespaces *)
Definition head_resolves (env : nsmap) (ns : option nsref) (l : str) (defs : nsmap) (attrs : list attr) : Prop :=
  resolve env (XElem (qualified (prefix_of ns) l) (raw_attrs defs attrs) []) = Some (El ns l defs env attrs []).
Inductive resolvable : nsmap -> node -> Prop :=
| resolvable_chr env c : resolvable env (Chr c)
| resolvable_cmt env s : resolvable env (Cmt s)
| resolvable_pin env s : resolvable env (Pin s)
| resolvable_el env ns l defs attrs kids :
    head_resolves env ns l defs attrs -> Forall (resolvable (extend defs env)) kids -> resolvable env (El ns l defs env attrs kids).
Lemma resolve_head env name attrs kids :
  resolve env (XElem name attrs kids)
  = match resolve env (XElem name attrs []) with
    | Some (El ns l defs inh a _) => match map_opt (resolve (extend defs env)) kids with Some ks => Some (El ns l defs inh a ks) | None => None end
    | _ => None
    end.
Proof.
  cbn [resolve]. destruct (negb (nodupb (map fst attrs))); [reflexivity|]. destruct (negb (forallb decl_allowed attrs)); [reflexivity|]. destruct (qname name) as [[p l]|]; [|reflexivity].
  destruct (elem_ns _ p); [|reflexivity]. destruct (map_opt (resolve_attr _) attrs); [|reflexivity]. destruct (negb _); [reflexivity|]. reflexivity.
Qed.
Lemma resolve_unresolve n : forall env, resolvable env n -> resolve env (unresolve n) = Some n.
Proof.
  induction n as [c|s|s|ns l defs inh attrs kids IH] using node_ind'; intros env H; inversion H; subst; try reflexivity.
  match goal with H1 : head_resolves _ _ _ _ _, H2 : Forall (resolvable _) _ |- _ => rename H1 into HH; rename H2 into HK end.
  cbn [unresolve]. rewrite resolve_head. unfold head_resolves in HH. rewrite HH.
  assert (E : map_opt (resolve (extend defs inh)) (map unresolve kids) = Some kids).
  { clear H HH. induction HK as [|k kids HK _ IHK]; [reflexivity|]. inversion IH as [|? ? IH1 IH2]; subst. cbn [map map_opt]. rewrite (IH1 _ HK), (IHK IH2). reflexivity. }
  rewrite E. reflexivity.
Qed.

Lemma split_colon_text s : s = match split_colon s with (a, None) => a | (a, Some b) => a ++ ":" ++ b end.
Proof.
  induction s as [|c s IH]; [reflexivity|]. cbn [split_colon]. destruct (N.eqb_spec c 58) as [->|N]; [reflexivity|].
  destruct (split_colon s) as [a [b|]]; [change ((c :: a) ++ ":" ++ b) with (c :: (a ++ ":" ++ b))|]; f_equal; exact IH.
Qed.
Lemma qname_text s p l : qname s = Some (p, l) -> s = qualified p l.
Proof.
  unfold qname. pose proof (split_colon_text s) as E. destruct (split_colon s) as [a [b|]].
  - destruct a as [|x a]; [discriminate|]. destruct b as [|y b]; [discriminate|]. destruct (existsb _ _ || _); [discriminate|]. intros H. injection H as <- <-. exact E.
  - destruct a; [discriminate|]. intros H. injection H as <- <-. exact E.
Qed.
Lemma elem_ns_prefix env p ns : elem_ns env p = Some ns -> prefix_of ns = p.
Proof.
  unfold elem_ns. destruct p as [x|].
  - destruct (str_eqb x "xml"); [intros H; injection H as <-; reflexivity|]. destruct (ns_get env (Some x)); [|discriminate]. intros H. injection H as <-. reflexivity.
  - destruct (ns_get env None) as [[|c u]|]; intros H; injection H as <-; reflexivity.
Qed.
Lemma attr_ns_prefix env p ns : attr_ns env p = Some ns -> prefix_of ns = p.
Proof. unfold attr_ns. destruct p; [apply elem_ns_prefix|]. intros H. injection H as <-. reflexivity. Qed.
Lemma decl_of_name k p : decl_of k = Some p <-> k = def_name p.
Proof.
  unfold decl_of. split.
  - destruct (str_eqb_spec k "xmlns") as [->|N]; [intros H; injection H as <-; reflexivity|].
    pose proof (split_colon_text k) as E. destruct (split_colon k) as [a [b|]]; [|discriminate].
    destruct (str_eqb_spec a "xmlns") as [->|N2]; [|discriminate]. intros H. injection H as <-. exact E.
  - intros ->. destruct p as [x|]; reflexivity.
Qed.
Definition is_decl (kv : str * str) : bool := match decl_of (fst kv) with Some _ => true | None => false end.
Lemma decls_raw attrs : map raw_def (decls attrs) = filter is_decl attrs.
Proof.
  induction attrs as [|[k v] attrs IH]; [reflexivity|]. unfold decls in *. cbn [flat_map filter fst snd]. unfold is_decl at 1. cbn [fst].
  destruct (decl_of k) as [p|] eqn:E; [|exact IH]. cbn [app map]. rewrite IH. f_equal. unfold raw_def. cbn [fst snd]. apply decl_of_name in E. congruence.
Qed.
Lemma decls_filter attrs : decls (filter is_decl attrs) = decls attrs /\ decls (filter (fun x => negb (is_decl x)) attrs) = [].
Proof.
  induction attrs as [|[k v] attrs [IH1 IH2]]; [split; reflexivity|]. cbn [filter]. destruct (is_decl (k, v)) eqn:D; cbn [negb]; unfold is_decl in D; cbn [fst] in D.
  - unfold decls in *. cbn [flat_map fst snd]. destruct (decl_of k); [|discriminate]. cbn [app]. rewrite IH1. split; [reflexivity|exact IH2].
  - unfold decls in *. cbn [flat_map fst snd]. destruct (decl_of k); [discriminate|]. cbn [app]. split; assumption.
Qed.
Lemma attrs_raw env attrs : forall aa, map_opt (resolve_attr env) attrs = Some aa ->
  map raw_attr (concat aa) = filter (fun x => negb (is_decl x)) attrs
  /\ map_opt (resolve_attr env) (filter is_decl attrs) = Some (map (fun _ => []) (filter is_decl attrs))
  /\ exists bb, map_opt (resolve_attr env) (filter (fun x => negb (is_decl x)) attrs) = Some bb /\ concat bb = concat aa.
Proof.
  induction attrs as [|[k v] attrs IH]; intros aa H.
  - injection H as <-. split; [reflexivity|]. split; [reflexivity|]. exists []. split; reflexivity.
  - cbn [map_opt] in H. destruct (resolve_attr env (k, v)) as [a|] eqn:E; [|discriminate].
    fold (map_opt (resolve_attr env) attrs) in H. destruct (map_opt (resolve_attr env) attrs) as [aa'|] eqn:EA; [|discriminate]. injection H as <-.
    destruct (IH _ eq_refl) as (H1 & H2 & bb & H3 & H4). cbn [filter]. 
    assert (DK : is_decl (k, v) = match decl_of k with Some _ => true | None => false end) by reflexivity. rewrite DK. clear DK.
    unfold resolve_attr in E. cbn [fst snd] in E. destruct (decl_of k) as [p|] eqn:ED; cbn [negb].
    + injection E as <-. cbn [concat app map map_opt]. split; [exact H1|]. split.
      * fold (map_opt (resolve_attr env) (filter is_decl attrs)). unfold resolve_attr at 1. cbn [fst]. rewrite ED, H2. reflexivity.
      * exists bb. auto.
    + destruct (qname k) as [[p l]|] eqn:EQ; [|discriminate]. destruct (attr_ns env p) as [ns|] eqn:EN; [|discriminate]. injection E as <-.
      cbn [concat app map]. split.
      * rewrite H1. f_equal. unfold raw_attr. cbn [a_ns a_local a_val]. rewrite (attr_ns_prefix _ _ _ EN), <- (qname_text _ _ _ EQ). reflexivity.
      * split; [exact H2|]. exists ([Attr ns l v] :: bb). split; [|cbn [concat app]; rewrite H4; reflexivity].
        cbn [map_opt]. fold (map_opt (resolve_attr env) (filter (fun x => negb (is_decl x)) attrs)). unfold resolve_attr at 1. cbn [fst snd].
        rewrite ED, EQ, EN. cbv iota. rewrite H3. reflexivity.
Qed.
Lemma map_opt_app {A B} (f : A -> option B) l l' : map_opt f (l ++ l')
  = match map_opt f l, map_opt f l' with Some a, Some b => Some (a ++ b) | _, _ => None end.
Proof.
  induction l as [|x l IH]; cbn [app].
  - change (map_opt f []) with (Some (@nil B)). destruct (map_opt f l'); reflexivity.
  - change (map_opt f (x :: l ++ l')) with (match f x with Some y => match map_opt f (l ++ l') with Some ys => Some (y :: ys) | None => None end | None => None end).
    change (map_opt f (x :: l)) with (match f x with Some y => match map_opt f l with Some ys => Some (y :: ys) | None => None end | None => None end).
    rewrite IH. destruct (f x); [|reflexivity]. destruct (map_opt f l); [|reflexivity]. destruct (map_opt f l'); reflexivity.
Qed.
Lemma nodupb_spec l : nodupb l = true <-> NoDup l.
Proof.
  induction l as [|x l IH]; cbn [nodupb].
  - split; [constructor|reflexivity].
  - rewrite andb_true_iff, IH, negb_true_iff. split.
    + intros [H1 H2]. constructor; [|exact H2]. intros HI. apply str_mem_In in HI. congruence.
    + intros H. inversion H as [|? ? H1 H2]; subst. split; [|exact H2]. apply Bool.not_true_iff_false. intros HI. apply H1, str_mem_In, HI.
Qed.
Lemma nodup_parts {A B} (g : A -> B) (f : A -> bool) l : NoDup (map g l) -> NoDup (map g (filter f l ++ filter (fun x => negb (f x)) l)).
Proof.
  intros H. apply (Permutation_NoDup (l := map g l)); [|exact H]. apply Permutation_map.
  clear H. induction l as [|x l IH]; [constructor|]. cbn [filter]. destruct (f x); cbn [negb app]; [constructor; exact IH|].
  apply Permutation_cons_app, IH.
Qed.
Lemma resolve_resolvable : forall x env n, resolve env x = Some n -> resolvable env n.
Proof.
  fix REC 1. intros x env n H. destruct x as [c|name attrs kids|s|s]; try (injection H as <-; constructor).
  rewrite resolve_head in H. destruct (resolve env (XElem name attrs [])) as [h|] eqn:EH; [|discriminate].
  cbn [resolve] in EH. destruct (nodupb (map fst attrs)) eqn:ND; [|discriminate]. cbn [negb] in EH.
  destruct (forallb decl_allowed attrs) eqn:AL; [|discriminate]. cbn [negb] in EH.
  destruct (qname name) as [[p l]|] eqn:EQ; [|discriminate]. destruct (elem_ns (extend (decls attrs) env) p) as [ns|] eqn:EN; [|discriminate].
  destruct (map_opt (resolve_attr (extend (decls attrs) env)) attrs) as [aa|] eqn:EA; [|discriminate].
  destruct (nodupb (map a_key (concat aa))) eqn:NK; [|discriminate]. cbn [negb map_opt] in EH. injection EH as <-.
  destruct (map_opt (resolve (extend (decls attrs) env)) kids) as [ks|] eqn:EK; [|discriminate]. injection H as <-.
  destruct (attrs_raw _ _ _ EA) as (R1 & R2 & bb & R3 & R4). destruct (decls_filter attrs) as [D1 D2].
  constructor.
  - unfold head_resolves, raw_attrs. rewrite decls_raw, R1, (elem_ns_prefix _ _ _ EN), <- (qname_text _ _ _ EQ).
    cbn [resolve]. apply nodupb_spec in ND. pose proof (nodup_parts fst is_decl attrs ND) as ND'. apply nodupb_spec in ND'. rewrite ND'. cbn [negb].
    assert (AL' : forallb decl_allowed (filter is_decl attrs ++ filter (fun x => negb (is_decl x)) attrs) = true).
    { apply forallb_forall. intros y HY. rewrite forallb_forall in AL. apply AL. apply in_app_iff in HY. destruct HY as [HY|HY]; apply filter_In in HY; tauto. }
    rewrite AL'. cbn [negb]. unfold decls. rewrite flat_map_app. fold (decls (filter is_decl attrs)). fold (decls (filter (fun x => negb (is_decl x)) attrs)).
    rewrite D1, D2, app_nil_r. rewrite EQ, EN, map_opt_app, R2, R3.
    assert (C : concat (map (fun _ => []) (filter is_decl attrs) ++ bb) = concat aa).
    { rewrite concat_app, R4. clear. induction (filter is_decl attrs) as [|y r IH]; [reflexivity|exact IH]. }
    rewrite C, NK. reflexivity.
  - clear -REC EK. revert ks EK. induction kids as [|k kids IH]; intros ks EK; [injection EK as <-; constructor|].
    change (map_opt (resolve (extend (decls attrs) env)) (k :: kids)) with
      (match resolve (extend (decls attrs) env) k with Some y => match map_opt (resolve (extend (decls attrs) env)) kids with Some ys => Some (y :: ys) | None => None end | None => None end) in EK.
    destruct (resolve (extend (decls attrs) env) k) as [y|] eqn:E1; [|discriminate].
    destruct (map_opt (resolve (extend (decls attrs) env)) kids) as [ys|] eqn:E2; [|discriminate]. injection EK as <-.
    constructor; [apply (REC k _ _ E1)|apply IH; reflexivity].
Qed.

(** ** What is read can be written *)
Inductive xsound : xnode -> Prop :=
| xsound_chr c : char c -> xsound (XChar c)
| xsound_cmt s : comment s -> ~ In 13%N s -> xsound (XComment s)
| xsound_pin s : instruction s -> ~ In 13%N s -> xsound (XPI s)
| xsound_el n attrs kids :
    name n -> Forall (fun kv => name (fst kv) /\ Forall char (snd kv)) attrs -> Forall xsound kids -> xsound (XElem n attrs kids).
Inductive sound : node -> Prop :=
| sound_chr c : char c -> sound (Chr c)
| sound_cmt s : comment s -> ~ In 13%N s -> sound (Cmt s)
| sound_pin s : instruction s -> ~ In 13%N s -> sound (Pin s)
| sound_el ns l defs inh attrs kids :
    name (qualified (prefix_of ns) l) -> Forall (fun d => name (def_name (fst d)) /\ Forall char (snd d)) defs ->
    Forall (fun x => name (fst (raw_attr x)) /\ Forall char (a_val x)) attrs -> Forall sound kids ->
    sound (El ns l defs inh attrs kids).
Lemma reference_char b c : reference b c -> char c.
Proof. destruct 1; try assumption; apply char_ok; reflexivity. Qed.
Lemma value_denotes q t v : SpecXml.value q t v -> Forall char v.
Proof.
  induction 1 as [|c t v H1 H2 H3 H4 H5 H6 IH|c t v H1 H2 IH|b c t v H1 H2 IH]; constructor; try assumption.
  - apply char_ok. reflexivity.
  - apply (reference_char _ _ H1).
Qed.
Lemma attributes_sound t a : attributes t a -> Forall (fun kv => name (fst kv) /\ Forall char (snd kv)) a.
Proof.
  induction 1 as [|sp k w w' q t v rest l H1 H2 H3 H4 H5 H6 H7 _ IH]; constructor; [|exact IH]. cbn [fst snd]. split; [exact H3|apply (value_denotes _ _ _ H7)].
Qed.
Lemma grammar_sound :
  (forall t x, element t x -> ~ In 13%N t -> xsound x) /\ (forall t k, content t k -> ~ In 13%N t -> Forall xsound k).
Proof.
  apply element_content_ind.
  - intros n att a w H1 H2 H3 _. constructor; [exact H1|apply (attributes_sound _ _ H2)|constructor].
  - intros n att a w t k w' H1 H2 H3 H4 IH H5 N. constructor; [exact H1|apply (attributes_sound _ _ H2)|]. apply IH. intros HI. apply N.
    rewrite !in_app_iff. tauto.
  - constructor.
  - intros c t k H1 H2 H3 _ _ IH N. constructor; [constructor; exact H1|]. apply IH. intros HI. apply N. right. exact HI.
  - intros b c t k H1 _ IH N. constructor; [constructor; apply (reference_char _ _ H1)|]. apply IH. intros HI. apply N. rewrite !in_app_iff. tauto.
  - intros e x t k _ IH1 _ IH2 N. constructor; [apply IH1|apply IH2]; intros HI; apply N; rewrite in_app_iff; tauto.
  - intros s t k H1 _ IH N. constructor; [constructor; [exact H1|]|apply IH]; intros HI; apply N; rewrite !in_app_iff; tauto.
  - intros s t k [H1 _] _ IH N. apply Forall_app. split; [|apply IH; intros HI; apply N; rewrite !in_app_iff; tauto].
    apply Forall_forall. intros x HX. apply in_map_iff in HX. destruct HX as (c & <- & HC). constructor. rewrite Forall_forall in H1. apply H1, HC.
  - intros s t k H1 _ IH N. constructor; [constructor; [exact H1|]|apply IH]; intros HI; apply N; rewrite !in_app_iff; tauto.
Qed.
Lemma resolve_sound : forall x env n, xsound x -> resolve env x = Some n -> sound n.
Proof.
  fix REC 1. intros x env n HS H. destruct x as [c|nm attrs kids|s|s]; try (injection H as <-; inversion HS; subst; constructor; assumption).
  inversion HS as [| | |? ? ? HN HA HK]; subst. clear HS.
  cbn [resolve] in H. destruct (nodupb (map fst attrs)) eqn:ND; [|discriminate]. cbn [negb] in H.
  destruct (forallb decl_allowed attrs) eqn:AL; [|discriminate]. cbn [negb] in H.
  destruct (qname nm) as [[p l]|] eqn:EQ; [|discriminate]. destruct (elem_ns (extend (decls attrs) env) p) as [ns|] eqn:EN; [|discriminate].
  destruct (map_opt (resolve_attr (extend (decls attrs) env)) attrs) as [aa|] eqn:EA; [|discriminate].
  destruct (nodupb (map a_key (concat aa))) eqn:NK; [|discriminate]. cbn [negb] in H.
  destruct (map_opt (resolve (extend (decls attrs) env)) kids) as [ks|] eqn:EK; [|discriminate]. injection H as <-.
  destruct (attrs_raw _ _ _ EA) as (R1 & _). rewrite Forall_forall in HA.
  constructor.
  - rewrite (elem_ns_prefix _ _ _ EN), <- (qname_text _ _ _ EQ). exact HN.
  - apply Forall_forall. intros d HD. assert (G : In (raw_def d) (filter is_decl attrs)) by (rewrite <- decls_raw; apply in_map, HD).
    apply filter_In in G. apply (HA _ (proj1 G)).
  - apply Forall_forall. intros x HX. assert (G : In (raw_attr x) (filter (fun y => negb (is_decl y)) attrs)) by (rewrite <- R1; apply in_map, HX).
    apply filter_In in G. apply (HA _ (proj1 G)).
  - clear -REC EK HK. revert ks EK. induction kids as [|k kids IH]; intros ks EK; [injection EK as <-; constructor|].
    change (map_opt (resolve (extend (decls attrs) env)) (k :: kids)) with
      (match resolve (extend (decls attrs) env) k with Some y => match map_opt (resolve (extend (decls attrs) env)) kids with Some ys => Some (y :: ys) | None => None end | None => None end) in EK.
    destruct (resolve (extend (decls attrs) env) k) as [y|] eqn:E1; [|discriminate].
    destruct (map_opt (resolve (extend (decls attrs) env)) kids) as [ys|] eqn:E2; [|discriminate]. injection EK as <-.
    inversion HK as [|? ? HK1 HK2]; subst. constructor; [apply (REC k _ _ HK1 E1)|apply IH; [exact HK2|reflexivity]].
Qed.

(** ** Around the root element *)
Lemma mixed_run t l : mixed t l -> forall b d, run1 (Conf b [] d (MText 0)) t = Conf b [] (rev l ++ d) (MText 0).
Proof.
  induction 1 as [|c t l HW _ IH|s t l [HC HA] _ IH|s t l HI _ IH|e n a k t l HE _ IH]; intros b d.
  - reflexivity.
  - rewrite run1_cons. assert (X : step1 (Conf b [] d (MText 0)) c = Conf b [] (XChar c :: d) (MText 0)).
    { destruct HW as [<-|[<-|[<-|[<-|[]]]]]; reflexivity. }
    rewrite X, IH. cbn [rev]. rewrite <- app_assoc. reflexivity.
  - replace ("<!--" ++ s ++ "-->" ++ t) with ("<!--" ++ (s ++ "-->") ++ t) by (rewrite <- !app_assoc; reflexivity).
    rewrite run1_app. change (run1 (Conf b [] d (MText 0)) "<!--") with (Conf b [] d (MCom [] 0)).
    rewrite run1_app, (proj1 (run1_comment s HC [] b [] d)), IH by exact HA. cbn [rev app]. rewrite <- app_assoc. reflexivity.
  - replace ("<?" ++ s ++ "?>" ++ t) with (("<?" ++ s ++ "?>") ++ t) by (rewrite <- !app_assoc; reflexivity).
    rewrite run1_app, run1_pi, IH by exact HI. cbn [rev]. rewrite <- app_assoc. reflexivity.
  - rewrite run1_app, (proj1 grammar_run _ _ HE), IH. cbn [rev]. rewrite <- app_assoc. reflexivity.
Qed.
Lemma mixed_sound t l : mixed t l -> ~ In 13%N t -> Forall xsound l.
Proof.
  induction 1 as [|c t l HW _ IH|s t l HC _ IH|s t l HI _ IH|e n a k t l HE _ IH]; intros N; constructor;
    try (apply IH; intros HI'; apply N; try (right; exact HI'); rewrite ?in_app_iff; tauto).
  - constructor. apply white_char, HW.
  - constructor; [exact HC|]. intros HI'. apply N. rewrite !in_app_iff. tauto.
  - constructor; [exact HI|]. intros HI'. apply N. rewrite !in_app_iff. tauto.
  - apply (proj1 grammar_sound e _ HE). intros HI'. apply N. rewrite !in_app_iff. tauto.
Qed.
(** comments and processing instructions *)
Definition aside (n : node) : Prop := sound n /\ match n with Cmt _ | Pin _ => True | _ => False end.
Lemma run_forget s : forget (run init (skip_bom s)) = forget (run1 init (universal_newlines (skip_bom s))).
Proof.
  rewrite (run_un (length (skip_bom s)) _ init init); auto; [|discriminate]. rewrite run_run1; [reflexivity| |reflexivity].
  apply (un_no_cr (length (skip_bom s))). lia.
Qed.
Lemma outer_sound l : (forall s, In (XPI s) l -> str_eqb (pi_target s) "xml" = true \/ xsound (XPI s)) -> (forall s, In (XComment s) l -> xsound (XComment s)) ->
  Forall aside (outer l).
Proof.
  intros H1 H2. unfold outer. induction l as [|x l IH]; [constructor|]. cbn [flat_map]. apply Forall_app.
  split; [|apply IH; intros s HS; [apply H1|apply H2]; right; exact HS]. destruct x as [c|n a k|s|s]; try constructor.
  - split; [|exact I]. pose proof (H2 s (or_introl eq_refl)) as H. inversion H; subst. constructor; assumption.
  - constructor.
  - destruct (str_eqb (pi_target s) "xml") eqn:E; constructor; [|constructor]. split; [|exact I].
    destruct (H1 s (or_introl eq_refl)) as [H|H]; [congruence|]. inversion H; subst. constructor; assumption.
Qed.
Lemma in_take {A} (f : A -> bool) l x : In x (take_while f l) -> In x l.
Proof. rewrite (take_drop f l) at 2. rewrite in_app_iff. auto. Qed.
Lemma in_drop {A} (f : A -> bool) l x : In x (drop_while f l) -> In x l.
Proof. rewrite (take_drop f l) at 2. rewrite in_app_iff. auto. Qed.
Lemma surroundings_sound s d : read_text s = Some d -> Forall aside (fst (surroundings s)) /\ Forall aside (snd (surroundings s)).
Proof.
  intros H. unfold read_text in H. pose proof (run_forget s) as F. unfold surroundings.
  assert (NC : ~ In 13%N (universal_newlines (skip_bom s))) by (apply (un_no_cr (length (skip_bom s))); lia).
  set (u := universal_newlines (skip_bom s)) in *. clearbody u. destruct (run init (skip_bom s)) as [b k dn m].
  destruct (run1 init u) as [b' k' dn' m'] eqn:E. unfold forget in F. cbn [stk done_ md] in F. injection F as <- <- <-.
  unfold finish in H. cbn [md stk done_] in *. destruct m; try discriminate H. destruct k; [|discriminate H]. clear H.
  apply read_toplevel in E. destruct E as (p & t1 & l0 & l1 & -> & -> & HM & HP).
  assert (S1 : Forall xsound l1) by (apply (mixed_sound _ _ HM); intros HI; apply NC; rewrite in_app_iff; tauto).
  rewrite Forall_forall in S1.
  assert (A1 : forall s, In (XPI s) (l0 ++ l1) -> str_eqb (pi_target s) "xml" = true \/ xsound (XPI s)).
  { intros x HX. apply in_app_iff in HX. destruct HX as [HX|HX]; [|right; apply S1, HX]. left.
    destruct HP as [[_ ->]|(y & _ & -> & _ & _ & ET)]; [contradiction HX|]. destruct HX as [HX|[]]. injection HX as ->. rewrite ET. reflexivity. }
  assert (A2 : forall s, In (XComment s) (l0 ++ l1) -> xsound (XComment s)).
  { intros x HX. apply in_app_iff in HX. destruct HX as [HX|HX]; [|apply S1, HX].
    destruct HP as [[_ ->]|(y & _ & -> & _)]; [contradiction HX|]. destruct HX as [HX|[]]. discriminate HX. }
  assert (T : forall (x : xnode) l, In x (tl l) -> In x l) by (intros x [|y l] HX; [exact HX|right; exact HX]).
  cbn [fst snd]. split; apply outer_sound; intros x HX.
  - apply A1, (in_take _ _ _ HX).
  - apply A2, (in_take _ _ _ HX).
  - apply A1, (in_drop (fun x => negb (is_element x))), T, HX.
  - apply A2, (in_drop (fun x => negb (is_element x))), T, HX.
Qed.
Lemma etree_parse_text s d : etree_parse s = Some d -> read_text (document_text s) = Some d.
Proof.
  unfold etree_parse, document_text. destruct (read_text s) as [d'|] eqn:E; [|discriminate].
  destruct (decl_encoding (d_decl d')) as [e|]; [|intros H; rewrite E; exact H].
  destruct (str_eqb_spec (upper e) "UTF-8") as [->|_].
  { change (str_eqb "UTF-8" "ISO-8859-1") with false. cbv iota. intros H. rewrite E. exact H. }
  destruct (str_eqb (upper e) "US-ASCII" || str_eqb (upper e) "ASCII") eqn:EA.
  - destruct (str_eqb_spec (upper e) "ISO-8859-1") as [EI|_]; [rewrite EI in EA; discriminate EA|].
    destruct (forallb _ s); [|discriminate]. intros H. rewrite E. exact H.
  - destruct (str_eqb (upper e) "ISO-8859-1"); [|discriminate]. destruct (utf8_encode s) as [b|]; [|discriminate]. auto.
Qed.
Lemma read_root_sound s d : read_text s = Some d -> xsound (d_root d).
Proof.
  destruct d as [dc r]. intros H. apply read_text_grammar in H. destruct H as (t & t' & _ & _ & N & (p & m & e & m' & -> & _ & HE & _)).
  apply (proj1 grammar_sound e _ HE). intros HI. apply N. rewrite !in_app_iff. tauto.
Qed.
Lemma parsed_sound s decl root : lxml_parse s = Some (decl, root) ->
  sound root /\ resolvable [] root
  /\ Forall aside (fst (surroundings (document_text s))) /\ Forall aside (snd (surroundings (document_text s))).
Proof.
  unfold lxml_parse. destruct (etree_parse s) as [d|] eqn:E; [|discriminate]. destruct (resolve [] (d_root d)) as [r|] eqn:ER; [|discriminate].
  intros H. injection H as <- <-. pose proof (etree_parse_text _ _ E) as ET.
  split; [apply (resolve_sound _ _ _ (read_root_sound _ _ ET) ER)|]. split; [apply (resolve_resolvable _ _ _ ER)|].
  apply (surroundings_sound _ _ ET).
Qed.

(** ** No carriage returns in the output *)
Definition no_cr (s : str) : Prop := ~ In 13%N s.
Lemma no_cr_app s t : no_cr s -> no_cr t -> no_cr (s ++ t).
Proof. unfold no_cr. rewrite in_app_iff. tauto. Qed.
Lemma no_cr_lit s : existsb (N.eqb 13) s = false -> no_cr s.
Proof. apply not_in_existsb. Qed.
Lemma no_cr_flat {A} (f : A -> str) l : Forall (fun x => no_cr (f x)) l -> no_cr (flat_map f l).
Proof. intros H HI. apply in_flat_map in HI. destruct HI as (x & HX & HI). rewrite Forall_forall in H. apply (H x HX HI). Qed.
Lemma no_cr_charset b s : no_cr s -> no_cr (in_charset b s).
Proof.
  destruct b; [|auto]. intros H. cbn [in_charset]. apply no_cr_flat. apply Forall_forall. intros c HC. unfold ascii_char.
  destruct (N.ltb c 128).
  - intros [->|[]]. apply H, HC.
  - intros HI. apply reference_text in HI. cbn [In] in HI. intuition discriminate.
Qed.
Lemma no_cr_name n : name n -> no_cr n.
Proof.
  intros H HI. apply name_no_white in H. rewrite Forall_forall in H. apply H in HI. discriminate HI.
Qed.
Lemma no_cr_put_char c : no_cr (put_char c).
Proof.
  unfold put_char. repeat match goal with |- context [N.eqb ?a ?b] => destruct (N.eqb_spec a b); [apply no_cr_lit; reflexivity|] end.
  intros [->|[]]. congruence.
Qed.
Lemma no_cr_value_char hex c : no_cr (put_value_char hex c).
Proof.
  unfold put_value_char. repeat match goal with |- context [N.eqb ?a ?b] => destruct (N.eqb_spec a b); [apply no_cr_lit; reflexivity|] end.
  destruct (hex && N.leb 128 c).
  - repeat apply no_cr_app; try (apply no_cr_lit; reflexivity). intros HI. destruct (number_digit _ _ _ _ _ (hex_of_N_number c) HI) as (d & HD).
    unfold hexadecimal in HD. lia.
  - intros [->|[]]. congruence.
Qed.
Lemma no_cr_uri u : plain_uri u -> no_cr u.
Proof. intros H HI. unfold plain_uri in H. rewrite Forall_forall in H. apply H in HI. destruct HI as [_ HI]. apply HI. cbn [In]. tauto. Qed.
Lemma no_cr_quoted u : no_cr u -> no_cr (put_quoted u).
Proof.
  intros H. unfold put_quoted. destruct (existsb (N.eqb 34) u); [destruct (existsb (N.eqb 39) u)|]; repeat apply no_cr_app; try exact H; try (apply no_cr_lit; reflexivity).
  unfold replace_char. apply no_cr_flat. apply Forall_forall. intros c HC. destruct (N.eqb c 34); [apply no_cr_lit; reflexivity|].
  intros [->|[]]. apply H, HC.
Qed.
Lemma no_cr_white s : Forall white s -> no_cr s -> no_cr s. Proof. auto. Qed.
Lemma no_cr_indentation n : no_cr (indentation n).
Proof. unfold indentation. intros H. apply repeat_spec in H. discriminate H. Qed.
Lemma no_cr_pad (f : bool) s : no_cr s -> no_cr (if f then s else []).
Proof. destruct f; [auto|intros _ []]. Qed.
Lemma no_cr_pi s : no_cr s -> no_cr (pi_normal s).
Proof.
  intros H. unfold pi_normal. destruct (existsb is_ws s); [|exact H]. destruct (pi_parts s) as (sp & E & _). rewrite E in H.
  unfold no_cr in *. rewrite !in_app_iff in *. intros [HI|[[HI|[]]|HI]]; [tauto|discriminate HI|tauto].
Qed.
Lemma no_cr_put b hex n : writable b n -> forall f lvl, no_cr (put hex f lvl n).
Proof.
  induction n as [c|s|s|ns l defs inh attrs kids IH] using node_ind'; intros H f lvl; inversion H; subst; cbn [put].
  - apply no_cr_put_char.
  - repeat apply no_cr_app; try (apply no_cr_lit; reflexivity). assumption.
  - repeat apply no_cr_app; try (apply no_cr_lit; reflexivity). apply no_cr_pi. assumption.
  - match goal with H1 : fit b _, H2 : Forall (fit_def b) _, H3 : Forall (fit_attr b) _, H4 : Forall (writable b) _ |- _ =>
      rename H1 into HN; rename H2 into HD; rename H3 into HA; rename H4 into HK end.
    apply no_cr_app; [apply no_cr_lit; reflexivity|]. apply no_cr_app; [apply no_cr_name, HN|].
    apply no_cr_app.
    { apply no_cr_flat. eapply Forall_impl; [|exact HD]. intros d [[H1 _] H2]. unfold put_def. repeat apply no_cr_app; try (apply no_cr_lit; reflexivity);
        [apply no_cr_name, H1|apply no_cr_quoted, no_cr_uri, H2]. }
    apply no_cr_app.
    { apply no_cr_flat. eapply Forall_impl; [|exact HA]. intros x [[H1 _] H2]. unfold put_attr. repeat apply no_cr_app; try (apply no_cr_lit; reflexivity);
        [apply no_cr_name, H1|]. apply no_cr_flat. apply Forall_forall. intros c _. apply no_cr_value_char. }
    destruct kids as [|k0 kids]; [apply no_cr_lit; reflexivity|]. set (ks := k0 :: kids) in *. clearbody ks.
    repeat apply no_cr_app; try (apply no_cr_lit; reflexivity); try (apply no_cr_pad; first [apply no_cr_indentation|apply no_cr_lit; reflexivity]); [|apply no_cr_name, HN].
    apply no_cr_flat. rewrite Forall_forall in IH, HK |- *. intros k HI.
    repeat apply no_cr_app; try (apply no_cr_pad; first [apply no_cr_indentation|apply no_cr_lit; reflexivity]). apply IH; auto.
Qed.

(** ** Changes to a tree that leave it well-formed *)
Lemma resolvable_refined b n : forall env, resolvable env n -> resolvable env (refined b n).
Proof.
  induction n as [c|s|s|ns l defs inh attrs kids IH] using node_ind'; intros env H; inversion H; subst; cbn [refined]; constructor; [assumption|].
  rewrite Forall_forall in *. intros k HK. apply in_map_iff in HK. destruct HK as (k' & <- & HK). auto.
Qed.
Lemma resolvable_padding env f s : Forall (resolvable env) (padding f s).
Proof. unfold padding. destruct f; [|constructor]. apply Forall_forall. intros x HX. apply in_map_iff in HX. destruct HX as (c & <- & _). constructor. Qed.
Lemma resolvable_pretty n : forall env f lvl, resolvable env n -> resolvable env (pretty f lvl n).
Proof.
  induction n as [c|s|s|ns l defs inh attrs kids IH] using node_ind'; intros env f lvl H; inversion H; subst; cbn [pretty]; constructor; [assumption|].
  destruct kids as [|k0 kids]; [constructor|]. set (ks := k0 :: kids) in *. clearbody ks. set (f' := f && negb (existsb is_chr ks)). clearbody f'.
  apply Forall_app. split; [apply resolvable_padding|]. apply Forall_app. split; [|apply resolvable_padding].
  apply Forall_flat_map. apply Forall_forall. intros k HK. rewrite Forall_forall in IH. match goal with HR : Forall (resolvable _) ks |- _ => rewrite Forall_forall in HR end.
  apply Forall_app. split; [apply resolvable_padding|]. apply Forall_app. split; [|apply resolvable_padding]. constructor; [|constructor]. auto.
Qed.
Lemma in_drop_blank l : forall run x, In x (drop_blank_runs run l) -> In x l \/ exists c, x = Chr c /\ In c run.
Proof.
  induction l as [|n l IH]; intros run x H; cbn [drop_blank_runs] in H.
  - destruct (forallb blank_char run); [contradiction|]. apply in_map_iff in H. destruct H as (c & <- & H). right. exists c. split; [reflexivity|apply in_rev, H].
  - assert (K : forall m, In m ((if forallb blank_char run then [] else map Chr (rev run)) ++ n :: drop_blank_runs [] l) -> In m (n :: l) \/ exists c, m = Chr c /\ In c run).
    { intros m HM. apply in_app_iff in HM. destruct HM as [HM|[<-|HM]]; [|left; left; reflexivity|].
      - destruct (forallb blank_char run); [contradiction|]. apply in_map_iff in HM. destruct HM as (c & <- & HM). right. exists c. split; [reflexivity|apply in_rev, HM].
      - destruct (IH [] m HM) as [HI|(c & _ & [])]. left. right. exact HI. }
    destruct n as [c|ns ln defs inh attrs kids|s|s]; try (apply K, H).
    destruct (IH (c :: run) x H) as [HI|(d & -> & [<-|HD])]; [left; right; exact HI|left; left; reflexivity|right; exists d; auto].
Qed.
Lemma in_unblank_kids x l : In x (unblank_kids l) -> In x l.
Proof.
  unfold unblank_kids. destruct (forallb is_chr l); [auto|]. destruct (forallb blank_char (lead l)); [|auto]. intros H.
  apply in_drop_blank in H. destruct H as [H|(c & _ & [])]. exact H.
Qed.
Lemma unblank_all (P : node -> Prop) p kids : Forall P (map (unblank p) kids) -> Forall P (if p then map (unblank p) kids else unblank_kids (map (unblank p) kids)).
Proof. intros H. destruct p; [exact H|]. rewrite Forall_forall in *. intros x HX. apply H, in_unblank_kids, HX. Qed.
Lemma resolvable_unblank n : forall env p, resolvable env n -> resolvable env (unblank p n).
Proof.
  induction n as [c|s|s|ns l defs inh attrs kids IH] using node_ind'; intros env p H; inversion H; subst; cbn [unblank]; constructor; [assumption|].
  apply unblank_all. rewrite Forall_forall in *. intros k HK. apply in_map_iff in HK. destruct HK as (k' & <- & HK). auto.
Qed.
Lemma writable_unblank b n : forall p, writable b n -> writable b (unblank p n).
Proof.
  induction n as [c|s|s|ns l defs inh attrs kids IH] using node_ind'; intros p H; inversion H; subst; cbn [unblank]; constructor; try assumption.
  apply unblank_all. rewrite Forall_forall in *. intros k HK. apply in_map_iff in HK. destruct HK as (k' & <- & HK). auto.
Qed.

(** ** Documents *)
Definition written_declaration : str := "xml version=""1.0"" encoding=""UTF-8""".
Lemma written_declares : declaration written_declaration [("version", "1.0"); ("encoding", "UTF-8")].
Proof.
  split; [apply absent_amp; reflexivity|].
  assert (A : forall a b, "xml version=""1.0"" encoding=""UTF-8""" = a ++ "?>" ++ b -> False).
  { intros a b E. assert (HI : In 63%N (a ++ "?>" ++ b)) by (apply in_or_app; right; left; reflexivity). rewrite <- E in HI.
    revert HI. apply not_in_existsb. reflexivity. }
  split; [exact A|]. clear A. split.
  { exists "1.0", [("encoding", "UTF-8")], []. split; [reflexivity|]. split; [apply version_ok_iff; reflexivity|].
    split; [right; exists "UTF-8"; split; [reflexivity|apply encoding_ok_iff; reflexivity]|left; reflexivity]. }
  exists (" version=""1.0"" encoding=""UTF-8"""), []. split; [reflexivity|]. split; [|constructor].
  assert (V : forall v, forallb (fun c => is_xml_char c && negb (is_ws c) && negb (N.eqb c 34) && negb (N.eqb c 60) && negb (N.eqb c 38)) v = true -> SpecXml.value 34 v v).
  { induction v as [|c v IH]; intros H; [constructor|]. cbn [forallb] in H. rewrite !andb_true_iff, !negb_true_iff in H.
    destruct H as [[[[[H1 H2] H3] H4] H5] H6]. apply value_char; [apply char_ok, H1| |apply N.eqb_neq, H3|apply N.eqb_neq, H4|apply N.eqb_neq, H5|apply IH, H6].
    intros HW. apply white_ok in HW. congruence. }
  apply (attributes_cons " " "version" [] [] 34 "1.0" "1.0" " encoding=""UTF-8""" [("encoding", "UTF-8")]);
    [repeat constructor|discriminate|apply name_ok; reflexivity|constructor|constructor|left; reflexivity|apply V; reflexivity|].
  apply (attributes_cons " " "encoding" [] [] 34 "UTF-8" "UTF-8" [] []);
    [repeat constructor|discriminate|apply name_ok; reflexivity|constructor|constructor|left; reflexivity|apply V; reflexivity|constructor].
Qed.
Lemma doctype_text : doctype = "<?" ++ written_declaration ++ "?>".
Proof. reflexivity. Qed.
