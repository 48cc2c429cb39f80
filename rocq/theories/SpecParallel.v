(** SpecParallel.v -- several runs of the program at the same time, some of which
    die and are started again *)
From Verif Require Import Base Py Validate Commands SpecCommands.

(** The file system, and for every job that runs the changes it has yet to make
    (none: it is done). *)
Record world := World { w_fs : fs; w_jobs : nat -> option (list change) }.
Definition put_job (f : nat -> option (list change)) (j : nat) (x : option (list change)) : nat -> option (list change) :=
  fun k => if Nat.eqb k j then x else f k.

(** One event.  A job starts: it reads its input, which decides what it will do
    (perform).  It makes its next change.  It dies, or leaves after it is done; then
    it may be started again.
    A change is one byte (Commands.v), so runs interleave byte by byte.
    Simplified: the input is read at one moment (the commands read the whole file
    before they write: reqif/parser.py:73-79, 395-416); a written byte is put at the
    end of the file, which is where it belongs as long as no other running job has the
    same output. *)
Inductive event (t : tools) (cwd : str) (jobs : list request) (w : world) : world -> Prop :=
| starts j r : nth_error jobs j = Some r -> w_jobs w j = None ->
    event t cwd jobs w (World (w_fs w) (put_job (w_jobs w) j (Some (changes (perform t (w_fs w) cwd r)))))
| goes_on j c l : w_jobs w j = Some (c :: l) ->
    event t cwd jobs w (World (apply (w_fs w) c) (put_job (w_jobs w) j (Some l)))
| stops j l : w_jobs w j = Some l ->
    event t cwd jobs w (World (w_fs w) (put_job (w_jobs w) j None)).
(** Any history that begins with the file system [s] and no job *)
Inductive history (t : tools) (cwd : str) (jobs : list request) (s : fs) : world -> Prop :=
| begins : history t cwd jobs s (World s (fun _ => None))
| continues w w' : history t cwd jobs s w -> event t cwd jobs w w' -> history t cwd jobs s w'.

(** the input file of a request that writes a file *)
Definition reads (r : request) (p : str) : Prop :=
  match r with
  | RPassthrough i _ | RAnonymize i _ | RDump i _ | RFormat i _ => p = i
  | RValidate _ _ | RVersion => False
  end.
(** No file is written by two of the jobs, or written by one and read by one (itself
    included). *)
Definition independent (jobs : list request) : Prop :=
  (forall j k r r' p, nth_error jobs j = Some r -> nth_error jobs k = Some r' -> writes r p -> writes r' p -> j = k)
  /\ (forall r r' p, In r jobs -> In r' jobs -> writes r p -> ~ reads r' p).

(** One after the other *)
Fixpoint in_turn (t : tools) (cwd : str) (s : fs) (l : list request) : fs :=
  match l with
  | [] => s
  | r :: l' => in_turn t cwd (final s (perform t s cwd r)) l'
  end.
