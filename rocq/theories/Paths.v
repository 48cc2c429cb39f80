(** Paths.v -- os.path.abspath (posixpath.py of Python 3.11), used by
    validate.py:89-90 *)
From Verif Require Import Base.

(** path.split("/") *)
Fixpoint split_slash (s : str) : list str :=
  match s with
  | [] => [[]]
  | x :: s' =>
      if N.eqb x 47 then [] :: split_slash s'
      else match split_slash s' with a :: l => (x :: a) :: l | [] => [[x]] end
  end.
(** ["/".join(l)] *)
Fixpoint join_slash (l : list str) : str :=
  match l with
  | [] => []
  | a :: l' => match l' with [] => a | _ => a ++ "/" ++ join_slash l' end
  end.
(** posixpath.join(a, b) *)
Definition path_join (a b : str) : str :=
  if starts_with "/" b then b
  else if str_eqb a [] || ends_with "/" a then a ++ b
  else a ++ "/" ++ b.
(** The loop of posixpath.normpath; [acc]: new_comps, the last one first *)
Fixpoint norm_loop (absolute : bool) (acc : list str) (comps : list str) : list str :=
  match comps with
  | [] => rev acc
  | c :: l =>
      if str_eqb c [] || str_eqb c "." then norm_loop absolute acc l
      else if negb (str_eqb c "..")
              || (negb absolute && match acc with [] => true | _ => false end)
              || match acc with a :: _ => str_eqb a ".." | [] => false end
      then norm_loop absolute (c :: acc) l
      else norm_loop absolute (tl acc) l
  end.
(** initial_slashes *)
Definition slashes (path : str) : str :=
  if starts_with "/" path
  then if starts_with "//" path && negb (starts_with "///" path) then "//" else "/"
  else [].
(** posixpath.normpath *)
Definition normpath (path : str) : str :=
  match path with
  | [] => "."
  | _ =>
      let i := slashes path in
      match i ++ join_slash (norm_loop (negb (str_eqb i [])) [] (split_slash path)) with
      | [] => "."
      | p => p
      end
  end.
(** posixpath.abspath; [cwd] is os.getcwd() *)
Definition abspath (cwd path : str) : str :=
  normpath (if starts_with "/" path then path else path_join cwd path).
