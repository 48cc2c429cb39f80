(** SpecWalk.v -- what "walking a hierarchy that changes meanwhile" means,
    independently of the generators. *)
From Verif Require Import Base.

(** [kids t n]: the children of node [n] at the moment of call [t].  The two
    relations describe a depth-first walk that reads the children of a node only
    when the caller asks for the node after it.

    [visits t l out]: starting with call [t], the nodes [l] and all below them are
    handed out completely, in the order [out], one per call. *)
Inductive visits (kids : nat -> nat -> list nat) : nat -> list nat -> list nat -> Prop :=
| visits_nil t : visits kids t [] []
| visits_cons t n l below later :
    visits kids (S t) (kids (S t) n) below ->
    visits kids (S t + length below) l later ->
    visits kids t (n :: l) (n :: below ++ later).

(** [begins t l out]: [out] are the first nodes of such a walk, which may go on
    for ever. *)
Inductive begins (kids : nat -> nat -> list nat) : nat -> list nat -> list nat -> Prop :=
| begins_none t l : begins kids t l []
| begins_below t n l below :
    begins kids (S t) (kids (S t) n) below ->
    begins kids t (n :: l) (n :: below)
| begins_later t n l below later :
    visits kids (S t) (kids (S t) n) below ->
    begins kids (S t + length below) l later ->
    begins kids t (n :: l) (n :: below ++ later).

(** The pre-order of a graph that does not change. *)
Inductive preorder (kids : nat -> list nat) : list nat -> list nat -> Prop :=
| preorder_nil : preorder kids [] []
| preorder_cons n l below later :
    preorder kids (kids n) below -> preorder kids l later ->
    preorder kids (n :: l) (n :: below ++ later).

(** ** The objects a caller sees *)
From Verif Require Import Py Models BundleModel Walk.

(** node.children, an absent list counting as empty *)
Definition children_in (s : heap) (n : nat) : list nat :=
  match nth_error s n with
  | Some o => match o_children o with Some l => l | None => [] end
  | None => []
  end.
(** Every child is an object of the heap. *)
Definition sound_heap (s : heap) : Prop := forall n c, In c (children_in s n) -> c < length s.
(** What a program can do to the objects: anything, but children are objects and
    objects stay. *)
Definition history (W : nat -> world) : Prop :=
  forall t, sound_heap (w_heap (W t)) /\ length (w_heap (W t)) <= length (w_heap (W (S t))).
(** specification.children at the first call *)
Definition starts_with (W : nat -> world) (roots : list nat) : Prop :=
  w_top (W 0) = Some roots /\ forall c, In c roots -> c < length (w_heap (W 0)).
(** the children of [n] at call [t] *)
Definition kids_at (W : nat -> world) (t n : nat) : list nat := children_in (w_heap (W t)) n.

(** What the calls of next() gave, up to [k] calls: all gave a node, or the walk
    ended before and every later call said StopIteration. *)
Definition gave (nodes : list nat) : list outcome := map (fun n => Ok (Some n)) nodes.
Definition ended_after (nodes : list nat) (k : nat) : list outcome :=
  gave nodes ++ repeat (Ok None) (k - length nodes).

(** The object at address [n] of the heap is the root of the tree [h]: same level,
    and children (or none) that are the roots of the subtrees. *)
Inductive stands_for (s : heap) : nat -> hier -> Prop :=
| stands_leaf n level h :
    nth_error s n = Some (HObj level None) -> level = h_level h -> h_children h = None ->
    stands_for s n h
| stands_node n level h l hs :
    nth_error s n = Some (HObj level (Some l)) -> level = h_level h -> h_children h = Some hs ->
    Forall2 (stands_for s) l hs ->
    stands_for s n h.

(** ** Programs *)
(** the node whose children an edit may change *)
Definition touches (e : edit) (n : nat) : Prop := exists c, e = Adopt n c.
(** Children are at a greater level than their parent. *)
Definition descending (s : heap) : Prop :=
  forall n o c k, nth_error s n = Some o -> In c (children_in s n) -> nth_error s c = Some k ->
    o_level o < o_level k.
