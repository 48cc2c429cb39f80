(** SpecAnonymize.v -- what anonymisation should do, element by element *)
From Verif Require Import Base Xml Utf8 Lxml Py LxmlStr.

(** The node reached from [n] by the child positions [p], with its parent.
    Children are elements, comments and processing instructions, not text. *)
Fixpoint at_path (parent : option node) (n : node) (p : list nat) : option (option node * node) :=
  match p with
  | [] => Some (parent, n)
  | k :: p' => match nth_error (children n) k with
               | Some c => at_path (Some n) c p'
               | None => None
               end
  end.
Definition node_at_path (root : node) (p : list nat) : option node := option_map snd (at_path None root p).

(** what belongs to the node itself: everything except the content of its child
    elements, which is blanked *)
Definition blank (n : node) : node := match n with El _ _ _ _ _ _ => El None [] [] [] [] [] | _ => n end.
Definition own (n : node) : node :=
  match n with El ns l d i a ks => El ns l d i a (map blank ks) | _ => n end.

(** an element called [t] in the namespace [uri] *)
Definition named (uri t : str) (n : node) : Prop :=
  exists p d i a ks, n = El (Some (p, uri)) t d i a ks.
Definition parent_named (uri t : str) (o : option node) : Prop :=
  exists m, o = Some m /\ named uri t m.

(** The five kinds of targets, for the node at a path *)
Inductive target := THeaderText | TLongName | TString | TXhtml.
Definition is_target (uri : str) (k : target) (pn : option node * node) : Prop :=
  match k with
  | THeaderText => parent_named uri "REQ-IF-HEADER" (fst pn)
                   /\ (named uri "COMMENT" (snd pn) \/ named uri "TITLE" (snd pn))
  | TLongName => named uri "SPECIFICATION" (snd pn)
  | TString => named uri "ATTRIBUTE-VALUE-STRING" (snd pn)
  | TXhtml => parent_named uri "ATTRIBUTE-VALUE-XHTML" (fst pn) /\ named uri "THE-VALUE" (snd pn)
  end.
(** no proper prefix of the path leads to an XHTML value *)
Definition outside_xhtml (uri : str) (root : node) (p : list nat) : Prop :=
  forall q r pn, p = q ++ r -> r <> [] -> at_path None root q = Some pn -> ~ is_target uri TXhtml pn.

(** the replacement text *)
Definition digest (sha : bytes -> N) (s t : str) : Prop :=
  exists b, utf8_encode s = Some b
    /\ t = "...Anonymized-" ++ str_of_N (sha b mod 10000000000)%N ++ "...".

(** no element of the namespace [uri] in the tree [n] *)
Inductive foreign (uri : str) : node -> Prop :=
| foreign_chr c : foreign uri (Chr c)
| foreign_cmt s : foreign uri (Cmt s)
| foreign_pin s : foreign uri (Pin s)
| foreign_el ns l d i a ks :
    (forall p, ns <> Some (p, uri)) -> (forall k, In k ks -> foreign uri k) -> foreign uri (El ns l d i a ks).

(** same element name and namespace declarations *)
Definition same_element (n n' : node) : Prop :=
  match n, n' with
  | El ns l d i _ _, El ns' l' d' i' _ _ => ns = ns' /\ l = l' /\ d = d' /\ i = i'
  | _, _ => n = n'
  end.
Definition attrs_of (n : node) : list attr := match n with El _ _ _ _ a _ => a | _ => [] end.
(** the same attributes, in the same order, except for the value of [k] *)
Definition same_attrs_but (k : str) (n n' : node) : Prop :=
  Forall2 (fun a a' => a_ns a = a_ns a' /\ a_local a = a_local a' /\ (a_key a <> k -> a_val a = a_val a'))
          (attrs_of n) (attrs_of n').
(** the same text and the same arrangement of children *)
Definition same_content (n n' : node) : Prop := kids_of (own n) = kids_of (own n').
