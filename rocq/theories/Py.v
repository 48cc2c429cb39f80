(** Py.v -- Python exceptions as values. *)
From Verif Require Import Base Xml Lxml.

(** Exceptions raised by reqif or by the Python/lxml operations it performs.
    [EMissingTag] is ReqIFMissingTagException (error_handling.py:36-47), which
    carries the affected XML node and the missing tag.  [EUser] is whatever a
    user supplied callback raises. *)
Inductive exn : Type :=
| EReqIFXMLParsingError
| EReqIFZParsingError
| ENotImplementedError
| EAssertionError
| EKeyError
| EAttributeError
| ETypeError
| EIndexError
| EValueError
| EUnicodeError
| EOSError
| EXMLSyntaxError
| EMissingTag (xml_node : node) (tag : str)
| EUser (n : N).

(** What a Python expression does: return or raise. *)
Inductive result (A : Type) : Type :=
| Ok (a : A)
| Raise (e : exn).
Arguments Ok {A}. Arguments Raise {A}.

(** sequencing: an exception ends the computation *)
Definition bind {A B} (r : result A) (f : A -> result B) : result B :=
  match r with Ok a => f a | Raise e => Raise e end.
Notation "'let!' x := e 'in' k" := (bind e (fun x => k))
  (at level 200, x pattern, e at level 100, k at level 200).

(** [assert b] *)
Definition py_assert (b : bool) : result unit :=
  if b then Ok tt else Raise EAssertionError.

(** Run [f] over a list, stopping at the first exception. *)
Definition mapM {A B} (f : A -> result B) : list A -> result (list B) :=
  fix go (l : list A) : result (list B) :=
    match l with
    | [] => Ok []
    | x :: l' => let! y := f x in let! ys := go l' in Ok (y :: ys)
    end.

(** The same over the children of an element: text is skipped. *)
Definition mapM_children {B} (f : node -> result B) : list node -> result (list B) :=
  fix go (l : list node) : result (list B) :=
    match l with
    | [] => Ok []
    | k :: l' =>
        match k with
        | Chr _ => go l'
        | _ => let! y := f k in let! ys := go l' in Ok (y :: ys)
        end
    end.

(** [node.attrib[k]] *)
Definition attr_req (k : str) (n : node) : result str :=
  match attr_opt k n with Some v => Ok v | None => Raise EKeyError end.
(** [node.find(t)] used as an object: [None.find] / [None.text] raise
    AttributeError. *)
Definition find_req (t : str) (n : node) : result node :=
  match find_child t n with Some x => Ok x | None => Raise EAttributeError end.
(** [sub in node.tag]: TypeError when the tag is not a string. *)
Definition tag_contains (sub : str) (n : node) : result bool :=
  match tag n with Some t => Ok (contains sub t) | None => Raise ETypeError end.
(** [node[i]] *)
Definition child_at (i : nat) (n : node) : result node :=
  match nth_error (children n) i with Some x => Ok x | None => Raise EIndexError end.
(** try: ... except Exception: raise NotImplementedError *)
Definition or_not_impl {A} (r : result A) : result A :=
  match r with Ok a => Ok a | Raise _ => Raise ENotImplementedError end.
