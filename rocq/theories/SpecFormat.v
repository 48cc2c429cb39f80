(** SpecFormat.v -- documents that differ only in the white space between their
    elements *)
From Verif Require Import Base Xml Lxml SpecXml.

Definition ascii (s : str) : Prop := Forall (fun c => c < 0x80)%N s.
(** blanks, tabs and line ends *)
Definition blank (s : str) : Prop := Forall (fun c => In c [0x20; 0x9; 0xA]%N) s.

(** ** The content of an element: text, and child elements, comments and
    processing instructions, each followed by a text *)
Fixpoint pieces (kids : list node) : str * list (node * str) :=
  match kids with
  | [] => ([], [])
  | Chr c :: kids' => let (t, l) := pieces kids' in (c :: t, l)
  | n :: kids' => let (t, l) := pieces kids' in ([], (n, t) :: l)
  end.
(** White space next to markup may be replaced by other white space, or left
    out; text that holds anything else may not. *)
Definition same_text (t t' : str) : Prop := t = t' \/ blank t /\ blank t'.

(** [encoded a s s']: [s'] is [s], written in ASCII if [a]: other characters as
    decimal references *)
Inductive encoded (a : bool) : str -> str -> Prop :=
| encoded_nil : encoded a [] []
| encoded_char c s s' : (a = true -> c < 0x80)%N -> encoded a s s' -> encoded a (c :: s) (c :: s')
| encoded_reference c d s s' :
    a = true -> (0x80 <= c)%N -> number 10 decimal d c -> encoded a s s' -> encoded a (c :: s) ("&#" ++ d ++ ";" ++ s').
(** the white space between the target of a processing instruction and the rest
    of it does not matter *)
Definition same_instruction (a : bool) (s s' : str) : Prop :=
  exists t w w' r, Forall white w /\ Forall white w' /\ (w = [] <-> w' = [])
    /\ s = t ++ w ++ r /\ encoded a (t ++ w' ++ r) s'.

(** [respaced a n n']: [n] and [n'] differ only in white space next to markup,
    and not in elements without markup in them: names, namespaces, attributes,
    their values and order, the order of the content and all other text are the
    same.  In comments and processing instructions characters are replaced by
    references if [a]. *)
Inductive respaced (a : bool) : node -> node -> Prop :=
| respaced_comment s s' : encoded a s s' -> respaced a (Cmt s) (Cmt s')
| respaced_instruction s s' : same_instruction a s s' -> respaced a (Pin s) (Pin s')
| respaced_text ns l defs inh attrs kids :
    Forall (fun k => exists c, k = Chr c) kids -> respaced a (El ns l defs inh attrs kids) (El ns l defs inh attrs kids)
| respaced_element ns l defs inh attrs kids kids' t t' m m' :
    m <> [] -> pieces kids = (t, m) -> pieces kids' = (t', m') -> same_text t t' ->
    Forall2 (fun x y => respaced a (fst x) (fst y) /\ same_text (snd x) (snd y)) m m' ->
    respaced a (El ns l defs inh attrs kids) (El ns l defs inh attrs kids').

(** ** Documents that can be written in a character set *)
Definition ns_ascii (ns : option nsref) : Prop := match ns with Some (Some p, _) => ascii p | _ => True end.
(** a namespace name without tabs, line ends, "&" and "<" *)
Definition plain_name (u : str) : Prop := Forall (fun c => ~ In c [0x9; 0xA; 0xD; 0x26; 0x3C]%N) u.
(** [portable a n]: in [n], namespace names are plain and, if [a], the names of
    elements, attributes and processing instructions and the namespace prefixes
    are in ASCII *)
Inductive portable (a : bool) : node -> Prop :=
| portable_chr c : portable a (Chr c)
| portable_cmt s : portable a (Cmt s)
| portable_pin t w s :
    (a = true -> ascii t) -> Forall (fun c => ~ white c) t -> (w = [] -> s = []) -> Forall white w -> portable a (Pin (t ++ w ++ s))
| portable_el ns l defs inh attrs kids :
    (a = true -> ns_ascii ns /\ ascii l) ->
    Forall (fun d => (a = true -> match fst d with Some p => ascii p | None => True end) /\ plain_name (snd d)) defs ->
    (a = true -> Forall (fun x => ns_ascii (a_ns x) /\ ascii (a_local x)) attrs) ->
    Forall (portable a) kids ->
    portable a (El ns l defs inh attrs kids).

(** ** Indented documents *)
Definition newline : node := Chr 0xA%N.
Definition blanks (n : nat) : list node := repeat (Chr 0x20%N) n.
(** two blanks for each level, at most 60 *)
Definition indent (level : nat) : list node := blanks (2 * Nat.min level 30).
Definition is_text (k : node) : Prop := exists c, k = Chr c.
(** [laid_out level n]: an element that holds text has been left alone;
    otherwise each child is on a line of its own, one level deeper *)
Inductive laid_out : nat -> node -> Prop :=
| laid_comment level s : laid_out level (Cmt s)
| laid_instruction level s : laid_out level (Pin s)
| laid_text level ns l defs inh attrs kids : Forall is_text kids -> laid_out level (El ns l defs inh attrs kids)
| laid_mixed level ns l defs inh attrs kids c :
    In (Chr c) kids -> ~ In c [0x20; 0x9; 0xA]%N -> laid_out level (El ns l defs inh attrs kids)
| laid_block level ns l defs inh attrs kids :
    kids <> [] -> Forall (laid_out (S level)) kids ->
    laid_out level (El ns l defs inh attrs
      (newline :: flat_map (fun k => indent (S level) ++ [k; newline]) kids ++ indent level)).
(** no attribute xml:space, which would keep white space as it is *)
Inductive unspaced : node -> Prop :=
| unspaced_chr c : unspaced (Chr c)
| unspaced_cmt s : unspaced (Cmt s)
| unspaced_pin s : unspaced (Pin s)
| unspaced_el ns l defs inh attrs kids :
    Forall (fun x => forall p, a_ns x = Some p -> ~ (fst p = Some ("xml" : str) /\ a_local x = "space")) attrs ->
    Forall unspaced kids -> unspaced (El ns l defs inh attrs kids).
