(** SpecPaths.v -- which file a path names: "" and "." components say nothing, ".."
    takes back the component before it *)
From Verif Require Import Base Validate.

Definition no_slash (c : str) : Prop := ~ In 47%N c.
(** the absolute path with these components *)
Fixpoint slashed (l : list str) : str :=
  match l with [] => [] | c :: l' => "/" ++ c ++ slashed l' end.
Definition absolute (l : list str) : str := match l with [] => "/" | _ => slashed l end.
Definition ordinary (c : str) : Prop := ~ In c [[]; "."; ".."].
Inductive shorter : list str -> list str -> Prop :=
| drop_empty x y : shorter (x ++ [] :: y) (x ++ y)
| drop_dot x y : shorter (x ++ "." :: y) (x ++ y)
| go_up x c y : ordinary c -> shorter (x ++ c :: ".." :: y) (x ++ y)
| up_from_root y : shorter (".." :: y) y.
Inductive shortened : list str -> list str -> Prop :=
| done l : shortened l l
| more l l' l'' : shorter l l' -> shortened l' l'' -> shortened l l''.
(** [cwd] is an absolute path *)
Definition working_directory (cwd : str) : Prop :=
  starts_with "/" cwd = true /\ (starts_with "//" cwd = true -> starts_with "///" cwd = true).
(** what the operating system is asked for *)
Definition asked_for (cwd input : str) : str :=
  if starts_with "/" input then input else cwd ++ "/" ++ input.
(** [canonical cwd input path]: [path] is the shortest form of [input] in [cwd] *)
Definition canonical (cwd input path : str) : Prop :=
  exists l l', Forall no_slash l /\ asked_for cwd input = slashed l
    /\ shortened l l' /\ Forall ordinary l' /\ path = absolute l'.
(** The path that validate reads: the given one if it is absolute, else its shortest
    form, if the working directory can be asked for. *)
Definition read_from (e : env) (cwd input path : str) : Prop :=
  (starts_with "/" input = true /\ path = input)
  \/ (starts_with "/" input = false /\ getcwd_fails e = None /\ canonical cwd input path).
