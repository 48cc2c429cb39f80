(** Progress.v -- reqif/progress.py and the effect of user callbacks. *)
From Verif Require Import Base Xml Lxml Py.

(** One call [progress(section, items_done, items_total)]. *)
Record event := Event { ev_section : str; ev_done : nat; ev_total : nat }.

(** A progress callback: an arbitrary function of all the calls made so far
    (so it may be stateful) that returns or raises.  It gets no access to the
    objects being parsed, as in the Python API (progress.py:23). *)
Definition callback := option (list event -> event -> option exn).

(** Computations that may call the callback: the state is the list of calls
    made so far. *)
Definition M (A : Type) := list event -> list event * result A.
(** no call, a value *)
Definition ret {A} (a : A) : M A := fun h => (h, Ok a).
(** no call, a value or an exception *)
Definition lift {A} (r : result A) : M A := fun h => (h, r).
(** sequencing *)
Definition mbind {A B} (m : M A) (f : A -> M B) : M B :=
  fun h => match m h with
           | (h', Ok a) => f a h'
           | (h', Raise e) => (h', Raise e)
           end.
Notation "'do!' x := e 'in' k" := (mbind e (fun x => k))
  (at level 200, x pattern, e at level 100, k at level 200).

(** progress(section, done, total) when a callback was given *)
Definition deliver (cb : callback) (e : event) : M unit :=
  fun h => match cb with
           | None => (h, Ok tt)
           | Some c => (h ++ [e], match c h e with Some x => Raise x | None => Ok tt end)
           end.

(** for item in track_progress(items, section, progress): body
    (progress.py:37-53): after the body of each item has finished normally
    (or by [continue]) the generator resumes and calls the callback. *)
Fixpoint track_loop {A S} (cb : callback) (section : str) (total : nat)
         (body : A -> S -> result S) (idx : nat) (items : list A) (s : S) : M S :=
  match items with
  | [] => ret s
  | x :: items' =>
      do! s' := lift (body x s) in
      do! _ := deliver cb (Event section (idx + 1) total) in
      track_loop cb section total body (idx + 1) items' s'
  end.
(** track_progress over all items, progress.py:37-53 *)
Definition track {A S} (cb : callback) (section : str) (items : list A)
           (body : A -> S -> result S) (s : S) : M S :=
  track_loop cb section (length items) body 0 items s.
