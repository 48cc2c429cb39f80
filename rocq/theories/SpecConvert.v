(** SpecConvert.v -- HTML and XHTML content: what is kept when one is made from the
    other *)
From Verif Require Import Base Xml Lxml SpecXhtml SpecIndent.

(** The nodes of a forest that has no namespace, and of one in the namespace [q] *)
Fixpoint tree (q : option nsref) (m : nsmap) (x : xh) : node :=
  match x with
  | XT c => Chr c
  | XE n attrs kids => El q n [] m (map (fun kv => Attr None (fst kv) (snd kv)) attrs) (map (tree q m) kids)
  end.

(** [told f g]: [g] is [f] without the text before its first element if that text
    is only white space *)
Definition told (f g : list xh) : Prop :=
  exists w r, f = map XT w ++ r /\ (forall c r', r <> XT c :: r')
    /\ (Forall python_blank w /\ g = r \/ ~ Forall python_blank w /\ g = f).

(** What an XML reader sees of an element without prefix *)
Fixpoint unprefixed (x : xh) : xnode :=
  match x with
  | XT c => XChar c
  | XE n attrs kids => XElem n attrs (map unprefixed kids)
  end.

(** [spread x y]: [y] is [x] except that in elements which hold nothing but
    elements, blanks and line ends may have been put around these *)
Definition padding (s : str) : Prop := Forall (fun c => In c [0x20; 0xA]%N) s.
Inductive spread : xh -> xh -> Prop :=
| spread_same x : spread x x
| spread_lines n attrs kids lines last :
    Forall (fun k => is_text k = false) kids ->
    Forall2 (fun k line => padding (fst line) /\ spread k (snd line)) kids lines ->
    padding last ->
    spread (XE n attrs kids)
           (XE n attrs (flat_map (fun line => map XT (fst line) ++ [snd line]) lines ++ map XT last)).
