(** SpecShown.v -- the tree in which the parser looks for the elements of ReqIF:
    the document with namespaces taken off *)
From Verif Require Import Base Xml Lxml SpecNamespaces.

(** the namespace of XHTML, or one whose name contains the name of that *)
Definition markup (ns : option (option str * str)) : Prop :=
  exists p a b, ns = Some (p, a ++ "http://www.w3.org/1999/xhtml" ++ b).
Definition declares (n : node) (p : option str) : Prop :=
  match n with El _ _ d _ _ _ => exists u, In (p, u) d | _ => False end.

(** [needs n p]: once namespaces are taken off, the declaration of [p] is still
    needed at [n]: for the name of an XHTML element or of an attribute, there or
    below, unless the prefix is declared again in between. *)
Inductive needs : node -> option str -> Prop :=
| needs_name p u l d i a k : markup (Some (p, u)) -> needs (El (Some (p, u)) l d i a k) p
| needs_attribute x p u ns l d i a k : In x a -> a_ns x = Some (p, u) -> needs (El ns l d i a k) p
| needs_below c p ns l d i a k : In c k -> needs c p -> ~ declares c p -> needs (El ns l d i a k) p.
(** the declarations of [n] that are needed, in their order *)
Inductive needed (n : node) : list (option str * str) -> list (option str * str) -> Prop :=
| needed_nil : needed n [] []
| needed_kept p u d d' : needs n p -> needed n d d' -> needed n ((p, u) :: d) ((p, u) :: d')
| needed_dropped p u d d' : ~ needs n p -> needed n d d' -> needed n ((p, u) :: d) d'.

(** [shown scope n n']: where the declarations [scope] are left, [n] is looked
    at as [n'].  Elements in the namespace of XHTML stay there and all others are
    in no namespace.  Declarations that are not needed are gone.  Attributes, text
    and comments are the same.  Nothing is said of processing instructions: a
    document with one of them is not looked at. *)
Inductive shown : list (option str * str) -> node -> node -> Prop :=
| shown_character scope c : shown scope (Chr c) (Chr c)
| shown_comment scope s : shown scope (Cmt s) (Cmt s)
| shown_element scope ns ns' l d d' rest i a k k' :
    (markup ns -> ns' = ns) -> (~ markup ns -> ns' = None) ->
    needed (El ns l d i a k) d d' -> not_declared_again d' scope rest ->
    Forall2 (shown (d' ++ rest)) k k' ->
    shown scope (El ns l d i a k) (El ns' l d' scope a k').
(** Namespaces are taken off documents whose root declares a default one. *)
Definition shown_document (root r : node) : Prop :=
  (declares root None /\ shown [] root r) \/ (~ declares root None /\ r = root).

(** ** What is seen of an element *)
(** its name: the local part, after the name of the namespace in braces if there is
    one *)
Definition seen_name (ns : option (option str * str)) (l : str) : str :=
  match ns with None => l | Some (_, u) => "{" ++ u ++ "}" ++ l end.
Definition is_named (t : str) (n : node) : Prop :=
  exists ns l d i a k, n = El ns l d i a k /\ seen_name ns l = t.
Definition content_of (n : node) (k : list node) : Prop := exists ns l d i a, n = El ns l d i a k.
Definition attributes_of (n : node) (a : list attr) : Prop := exists ns l d i k, n = El ns l d i a k.
Definition character (n : node) : Prop := exists c, n = Chr c.
(** the content without the characters *)
Inductive without_text : list node -> list node -> Prop :=
| without_nil : without_text [] []
| without_character c k k' : without_text k k' -> without_text (Chr c :: k) k'
| without_other n k k' : ~ character n -> without_text k k' -> without_text (n :: k) (n :: k').
(** the characters the content begins with *)
Definition begins_with (k : list node) (s : str) : Prop :=
  exists rest, k = map Chr s ++ rest /\ forall c rest', rest <> Chr c :: rest'.
(** [c] is the first one in the content that is called [t] *)
Definition first_named (t : str) (k : list node) (c : node) : Prop :=
  exists before after, k = before ++ c :: after /\ is_named t c /\ Forall (fun x => ~ is_named t x) before.
