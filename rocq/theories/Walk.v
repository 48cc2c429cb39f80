(** Walk.v -- the generators of reqif_bundle.py:55-76 and
    specification_iterator.py:9-20 on objects that the caller may change between
    two calls of next().

    BundleModel.v models the same generators over a hierarchy that stays as it is
    ([resume], [gen_next], [consume]).  Here hierarchy objects are known by their
    address in a heap and every call of next() sees the heap of that moment. *)
From Verif Require Import Base Py Models BundleModel.

(** What one call of next() can see: whether the assertions of
    reqif_bundle.py:58-61 hold (the bundle has a list of specifications and the
    specification is in it), specification.children, and the hierarchy objects. *)
Record world := World { w_listed : bool; w_top : option (list nat); w_heap : heap }.

(** A generator object: not started, waiting at the yield (with the node it
    yielded and the deque), or finished.  A generator that raised is finished. *)
Inductive walker := Fresh | Waiting (current : nat) (task_list : list nat) | Finished.

(** What a call of next() gives: [Ok (Some n)] is the yielded node, [Ok None] is
    StopIteration, [Raise] is an exception from the body. *)
Definition outcome := result (option nat).

(** the loop up to the next yield: if not task_list: break;
    current = task_list.popleft(); yield current, reqif_bundle.py:68-73 *)
Definition advance (task_list : list nat) : walker * outcome :=
  match task_list with
  | [] => (Finished, Ok None)
  | n :: l => (Waiting n l, Ok (Some n))
  end.

(** after the yield, reqif_bundle.py:75-76: the children are those of this
    moment.  Something that is not a hierarchy object has no attribute children. *)
Definition continue_after (w : world) (current : nat) (task_list : list nat) : walker * outcome :=
  match nth_error (w_heap w) current with
  | None => (Finished, Raise EAttributeError)
  | Some o => match o_children o with
              | None => advance task_list
              | Some l => advance (l ++ task_list)
              end
  end.

(** next() on iterate_specification_hierarchy(specification), reqif_bundle.py:55-76:
    the assertions and the copy of specification.children are made by the first
    call of next(), not when the generator is made. *)
Definition walk_next (w : world) (g : walker) : walker * outcome :=
  match g with
  | Fresh => if w_listed w
             then match w_top w with
                  | None => (Finished, Ok None)
                  | Some l => advance l
                  end
             else (Finished, Raise EAssertionError)
  | Waiting n l => continue_after w n l
  | Finished => (Finished, Ok None)
  end.

(** next() on SpecificationIterator.iterate_specification(specification),
    specification_iterator.py:9-20: no assertions, and deque(None) raises TypeError. *)
Definition iterator_next (w : world) (g : walker) : walker * outcome :=
  match g with
  | Fresh => match w_top w with
             | None => (Finished, Raise ETypeError)
             | Some l => advance l
             end
  | Waiting n l => continue_after w n l
  | Finished => (Finished, Ok None)
  end.

(** [k] calls of next(), the [t]-th call seeing the world [W t]: whatever the
    caller did to the objects before that call has been done. *)
Fixpoint calls (next : world -> walker -> walker * outcome) (W : nat -> world) (t k : nat) (g : walker)
  : list outcome :=
  match k with
  | O => []
  | S k' => let (g', o) := next (W t) g in o :: calls next W (S t) k' g'
  end.

(** What a caller may do between the calls of next(): make a hierarchy object
    (reqif_spec_hierarchy.py:8-42; children is None by default, and the new object
    gets the next address), or call parent.add_child(child)
    (reqif_spec_hierarchy.py:44-51, [add_child] in BundleModel.v) and go on even if
    that raised. *)
Inductive edit := Create (level : nat) | Adopt (parent child : nat).
Definition edit_one (s : heap) (e : edit) : heap :=
  match e with
  | Create level => s ++ [HObj level None]
  | Adopt p c => fst (add_child s p c)
  end.
(** [prog t] is what the caller does after call [t]. *)
Fixpoint heap_at (s : heap) (prog : nat -> list edit) (t : nat) : heap :=
  match t with
  | O => s
  | S t' => fold_left edit_one (prog t') (heap_at s prog t')
  end.
Definition editing (top : option (list nat)) (s : heap) (prog : nat -> list edit) (t : nat) : world :=
  World true top (heap_at s prog t).
