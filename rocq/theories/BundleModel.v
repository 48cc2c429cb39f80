(** BundleModel.v -- reqif/reqif_bundle.py, reqif/specification_iterator.py,
    reqif/object_lookup.py, and ReqIFSpecHierarchy.add_child *)
From Verif Require Import Base Xml Lxml Py Models.

(** ** iterate_specification_hierarchy, reqif_bundle.py:55-76 (and
    SpecificationIterator.iterate_specification, specification_iterator.py:9-20)

    The generator between two [next] calls: the node it yielded last, whose
    children are pushed when it is resumed, and the deque. *)
Record gen := Gen { g_yielded : option hier; g_deque : list hier }.

(** resuming: task_list.extendleft(reversed(current.children)) *)
Definition resume (g : gen) : list hier :=
  match g_yielded g with
  | None => g_deque g
  | Some h => match h_children h with
              | Some l => l ++ g_deque g
              | None => g_deque g
              end
  end.
(** next(generator): [None] is StopIteration *)
Definition gen_next (g : gen) : option (hier * gen) :=
  match resume g with
  | [] => None
  | h :: q => Some (h, Gen (Some h) q)
  end.
(** The values obtained by at most [k] calls of next() *)
Fixpoint consume (k : nat) (g : gen) : list hier :=
  match k with
  | O => []
  | S k' => match gen_next g with
            | None => []
            | Some (h, g') => h :: consume k' g'
            end
  end.

(** core_content.req_if_content.specifications, reqif_bundle.py:58-61 *)
Definition bundle_specifications (b : bundle) : option (list specification) :=
  match b_core_content b with
  | Some (Some c) => rc_specifications c
  | _ => None
  end.

(** The generator created by iterate_specification_hierarchy, at its first
    next(): the assertions of reqif_bundle.py:58-61.  [specification in list]
    is object identity, so the specification is given by its index. *)
Definition iterate_specification_hierarchy (b : bundle) (i : nat) : result gen :=
  match bundle_specifications b with
  | None => Raise EAssertionError
  | Some l =>
      match nth_error l i with
      | None => Raise EAssertionError
      | Some s => Ok (Gen None (match sp_children s with Some c => c | None => [] end))
      end
  end.

(** SpecificationIterator.iterate_specification: deque(None) raises TypeError *)
Definition iterate_specification (s : specification) : result gen :=
  match sp_children s with
  | None => Raise ETypeError
  | Some c => Ok (Gen None c)
  end.

(** ** iterate_specification_hierarchy_for_conversion, reqif_bundle.py:78-104

    [Sec] is the type of sections, [get_level] the get_level_lambda, and
    [node_lambda] an arbitrary function with its own state that may raise. *)
Section Conversion.
Context {Sec St : Type}.
Variable get_level : Sec -> Z.
Variable node_lambda : St -> hier -> Sec -> St * result (Sec * bool).

(** for _ in range(0, n): assert len(section_stack) > 0; section_stack.pop()
    The head of the list is the top of the stack. *)
Fixpoint pops (n : nat) (stack : list Sec) : result (list Sec) :=
  match n with
  | O => Ok stack
  | S n' => match stack with
            | [] => Raise EAssertionError
            | _ :: stack' => pops n' stack'
            end
  end.

(** reqif_bundle.py:88-97 *)
Definition unwind (h : hier) (stack : list Sec) : result (list Sec) :=
  match stack with
  | [] => Raise EIndexError
  | top :: _ =>
      let l := Z.of_nat (h_level h) in
      if (l <=? get_level top)%Z
      then pops (Z.to_nat (get_level top - l + 1)) stack
      else Ok stack
  end.

(** One iteration of the loop, reqif_bundle.py:87-104 *)
Definition conv_step (h : hier) (stack : list Sec) (st : St)
  : (St * list (hier * Sec)) * result (list Sec) :=
  match unwind h stack with
  | Raise e => ((st, []), Raise e)
  | Ok [] => ((st, []), Raise EIndexError)
  | Ok (top :: stack') =>
      match node_lambda st h top with
      | (st', Raise e) => ((st', [(h, top)]), Raise e)
      | (st', Ok (s, is_section)) =>
          ((st', [(h, top)]),
           Ok (if is_section then s :: top :: stack' else top :: stack'))
      end
  end.

(** The loop over [k] items of the generator.  Result: final state of the
    lambda, the calls made to it (node and section passed), and either the
    section stack or the exception. *)
Fixpoint conv_loop (k : nat) (g : gen) (stack : list Sec) (st : St)
  : (St * list (hier * Sec)) * result (list Sec) :=
  match k with
  | O => ((st, []), Ok stack)
  | S k' =>
      match gen_next g with
      | None => ((st, []), Ok stack)
      | Some (h, g') =>
          match conv_step h stack st with
          | ((st1, calls), Raise e) => ((st1, calls), Raise e)
          | ((st1, calls), Ok stack') =>
              let '((st2, calls2), r) := conv_loop k' g' stack' st1 in
              ((st2, calls ++ calls2), r)
          end
      end
  end.
End Conversion.

(** ** Lookups, object_lookup.py:30-43, reqif_bundle.py:106-128 *)
Definition spec_object_exists (l : lookup) (r : option str) : bool :=
  dict_mem (lk_spec_objects l) r.
(** [d[k]] *)
Definition dict_index {V} (d : dict V) (r : option str) : result V :=
  match dict_get d r with Some v => Ok v | None => Raise EKeyError end.
(** object_lookup.py:33-34 *)
Definition get_data_type_by_ref (l : lookup) (r : option str) : result data_type :=
  dict_index (lk_data_types l) r.
(** object_lookup.py:36-37 *)
Definition get_spec_type_by_ref (l : lookup) (r : option str) : result spec_type :=
  dict_index (lk_spec_types l) r.
(** object_lookup.py:39-40 *)
Definition get_spec_object_by_ref (l : lookup) (r : option str) : result spec_object :=
  dict_index (lk_spec_objects l) r.
(** Indexing a defaultdict(list) inserts an empty list for a missing key: the
    lookup itself changes. *)
Definition get_spec_object_parents (l : lookup) (r : option str)
  : lookup * result (list (option str)) :=
  match dict_get (lk_parents l) r with
  | Some v => (l, Ok v)
  | None =>
      if lk_parents_default l
      then (Lookup (lk_data_types l) (lk_spec_types l) (lk_spec_objects l)
                   (dict_set (lk_parents l) r []) true, Ok [])
      else (l, Raise EKeyError)
  end.

(** get_spec_object_type_by_ref, reqif_bundle.py:109-125 *)
Definition get_spec_object_type_by_ref (b : bundle) (r : str) : option spec_object_type :=
  match b_core_content b with
  | Some (Some c) =>
      match rc_spec_types c with
      | None => None
      | Some l =>
          (fix go (l : list spec_type) : option spec_object_type :=
             match l with
             | [] => None
             | STObject t :: l' => if str_eqb (sot_identifier t) r then Some t else go l'
             | _ :: l' => go l'
             end) l
      end
  | _ => None
  end.

(** ** add_child on a heap of hierarchy objects, reqif_spec_hierarchy.py:44-51.
    Objects are known by an address; only level and children matter here. *)
Record hobj := HObj { o_level : nat; o_children : option (list nat) }.
(** the objects by address *)
Definition heap := list hobj.
(** assignment to an attribute of an object *)
Fixpoint heap_set (s : heap) (i : nat) (o : hobj) : heap :=
  match s, i with
  | [], _ => []
  | _ :: s', O => o :: s'
  | x :: s', S i' => x :: heap_set s' i' o
  end.
(** add_child, reqif_spec_hierarchy.py:44-51 *)
Definition add_child (s : heap) (self child : nat) : heap * result unit :=
  match nth_error s self, nth_error s child with
  | Some p, Some c =>
      let kids := match o_children p with Some l => l | None => [] end in
      (* self.children = [] happens before the assertion *)
      let s1 := heap_set s self (HObj (o_level p) (Some kids)) in
      (* the child may be the node itself: its level is unchanged by s1 *)
      if Nat.eqb (o_level p + 1) (o_level c)
      then (heap_set s1 self (HObj (o_level p) (Some (kids ++ [child]))), Ok tt)
      else (s1, Raise EAssertionError)
  | _, _ => (s, Raise EAttributeError)   (* not an object of the heap *)
  end.
(** A program that calls add_child and goes on after failures *)
Fixpoint add_children (s : heap) (ops : list (nat * nat)) : heap * list (result unit) :=
  match ops with
  | [] => (s, [])
  | (p, c) :: ops' =>
      let (s1, r) := add_child s p c in
      let (s2, rs) := add_children s1 ops' in
      (s2, r :: rs)
  end.
