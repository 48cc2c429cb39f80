(** SpecChain.v -- commands that each read the file the one before has written *)
From Verif Require Import Base Utf8 Py Models Progress Parser Unparser Validate Zip Commands SpecCommands.

Inductive job := Formatting | Passing.
Definition request_of (j : job) (i o : str) : request :=
  match j with Formatting => RFormat i o | Passing => RPassthrough i o end.

(** [went t s cwd i out l]: the jobs of the list, each with the path of its output,
    run one after the other in the file system [s]; the first one reads [i].  Each
    of them succeeds.  Right after it, the output file of passthrough holds [out], and that
    of format holds bytes from which passthrough would make [out]. *)
Fixpoint went (t : tools) (s : fs) (cwd i : str) (out : bytes) (l : list (job * str)) : Prop :=
  match l with
  | [] => True
  | (j, o) :: l' =>
      let r := perform t s cwd (request_of j i o) in
      ended r = Exit 0
      /\ (exists f, fs_file (final s r) o = Some f
            /\ match j with Passing => f = out | Formatting => passthrough_reqif f = Ok out end)
      /\ went t (final s r) cwd o out l'
  end.
(** the requests, and the path of the last output *)
Fixpoint requests (i : str) (l : list (job * str)) : list request :=
  match l with
  | [] => []
  | (j, o) :: l' => request_of j i o :: requests o l'
  end.
Fixpoint last_path (i : str) (l : list (job * str)) : str :=
  match l with [] => i | (_, o) :: l' => last_path o l' end.
(** a path for a single file, in a directory that is there, where the user may write *)
Definition path_fine (s : fs) (o : str) : Prop :=
  output_dir_missing s o = false /\ fs_can_write s o = true /\ ends_with ".reqifz" o = false.
(** Each request of the list succeeds when they run one after the other. *)
Fixpoint all_succeed (t : tools) (s : fs) (cwd : str) (l : list request) : Prop :=
  match l with
  | [] => True
  | r :: l' => ended (perform t s cwd r) = Exit 0 /\ all_succeed t (final s (perform t s cwd r)) cwd l'
  end.
