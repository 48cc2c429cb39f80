(** SpecCommands.v -- what the command line asks for, and what a crash may leave
    behind. *)
From Verif Require Import Base Py Validate Commands SpecInteger.

Inductive request :=
| RPassthrough (i o : str) | RAnonymize (i o : str) | RDump (i o : str) | RFormat (i o : str)
| RValidate (i : str) (use_schema : bool) | RVersion.

(** ** Arguments
    An argument that does not start with "-" is a word, and so is "-" itself.  Long
    options may be abbreviated and carry "=value". *)
Definition flag : str := "--use-reqif-schema".
Definition help : str := "--help".
(** the long options of a command, or of the program ([None]) *)
Definition long_options (c : option str) : list str :=
  match c with
  | Some c => if str_eqb c "validate" then [help; flag] else [help]
  | None => [help]
  end.
Definition calls (opts : list str) (x : str) : Prop :=
  exists p v q, starts_with "--" x = true /\ ~ In 61%N p /\ In (p ++ q) opts
    /\ x = p ++ match v with Some v => "=" ++ v | None => [] end.
Definition short_help (x : str) : Prop := exists r, x = "-h" ++ r.
(** -1, -1.5, -.5, in the digits of any script, possibly with a line feed at the end *)
Definition all_digits (s : str) : Prop := Forall (fun c => exists d, digit_of c d) s.
Definition negative (x : str) : Prop :=
  exists d1 d2 z, (z = [] \/ z = nl) /\ all_digits d1 /\ all_digits d2 /\ d2 <> []
    /\ (x = "-" ++ d2 ++ z \/ x = "-" ++ d1 ++ "." ++ d2 ++ z).
(** Anything else with a dash is a word if it is a negative number or contains a
    space; otherwise it is taken for an option that does not exist. *)
Definition word (opts : list str) (x : str) : Prop :=
  (forall r, x <> 45%N :: r) \/ x = "-"
  \/ (~ calls opts x /\ ~ short_help x /\ (negative x \/ In 32%N x)).
Definition unknown (opts : list str) (x : str) : Prop :=
  (exists c r, x = 45%N :: c :: r) /\ ~ calls opts x /\ ~ short_help x /\ ~ negative x /\ ~ In 32%N x.
(** --help, --hel, ... and -h, -hh, ...; after the last h anything but "=" and "-" may
    follow *)
Definition wants_help (x : str) : Prop :=
  (exists q, help = x ++ q /\ 2 < length x)
  \/ exists k r, x = "-h" ++ repeat 104%N k ++ r
       /\ match r with c :: _ => ~ In c [104; 61; 45]%N | [] => True end.
Definition wants_flag (opts : list str) (x : str) : Prop :=
  exists q, In flag opts /\ flag = x ++ q /\ 2 < length x.
(** "--=..." could be any long option *)
Definition unclear (opts : list str) (x : str) : Prop := In flag opts /\ exists v, x = "--=" ++ v.

(** [takes opts b args ws f]: the arguments of a command are the words [ws] and, if
    [f], the flag.  After "--" all are words; it must stand next to a word ([b]: there
    is one directly before [args]). *)
Inductive takes (opts : list str) : bool -> list str -> list str -> bool -> Prop :=
| takes_nothing b : takes opts b [] [] false
| takes_word b x r ws f : word opts x -> takes opts true r ws f -> takes opts b (x :: r) (x :: ws) f
| takes_flag b x r ws f : wants_flag opts x -> takes opts false r ws f -> takes opts b (x :: r) ws true
| takes_rest b ws : ws <> [] \/ b = true -> takes opts b ("--" :: ws) ws false.
(** [asks argv r]: the arguments [argv] are a correct use of the program and ask
    for [r]. *)
Inductive asks : list str -> request -> Prop :=
| asks_passthrough args i o f : takes (long_options (Some "passthrough")) false args [i; o] f -> asks ("passthrough" :: args) (RPassthrough i o)
| asks_anonymize args i o f : takes (long_options (Some "anonymize")) false args [i; o] f -> asks ("anonymize" :: args) (RAnonymize i o)
| asks_dump args i o f : takes (long_options (Some "dump")) false args [i; o] f -> asks ("dump" :: args) (RDump i o)
| asks_format args i o f : takes (long_options (Some "format")) false args [i; o] f -> asks ("format" :: args) (RFormat i o)
| asks_validate args i f : takes (long_options (Some "validate")) false args [i] f -> asks ("validate" :: args) (RValidate i f)
| asks_version args f : takes (long_options (Some "version")) false args [] f -> asks ("version" :: args) RVersion.
(** [asks_help argv c]: they ask for the help text of the program ([None]) or of a
    command.  Options that do not exist do not matter then; an unclear one before
    "--" does. *)
Definition passed_over (opts : list str) (x : str) : Prop :=
  word opts x \/ unknown opts x \/ wants_flag opts x.
Fixpoint before_dashes (args : list str) : list str :=
  match args with [] => [] | x :: r => if str_eqb x "--" then [] else x :: before_dashes r end.
Inductive asks_help : list str -> option str -> Prop :=
| help_program us h rest :
    Forall (unknown (long_options None)) us -> wants_help h -> asks_help (us ++ h :: rest) None
| help_command us c before h after :
    Forall (unknown (long_options None)) us -> In c ["passthrough"; "anonymize"; "dump"; "format"; "validate"; "version"] ->
    Forall (passed_over (long_options (Some c))) before -> wants_help h ->
    Forall (fun x => ~ unclear (long_options (Some c)) x) (before_dashes (before ++ h :: after)) ->
    asks_help (us ++ c :: before ++ h :: after) (Some c).

Definition perform (t : tools) (s : fs) (cwd : str) (r : request) : run :=
  match r with
  | RPassthrough i o => passthrough t s i o
  | RAnonymize i o => anonymize t s i o
  | RDump i o => dump t s i o
  | RFormat i o => format t s i o
  | RValidate i x => validate_run t s cwd i x
  | RVersion => version t
  end.
(** the file a request may write *)
Definition writes (r : request) (p : str) : Prop :=
  match r with
  | RPassthrough _ o | RAnonymize _ o | RDump _ o | RFormat _ o => p = o
  | RValidate _ _ | RVersion => False
  end.

(** The file system if the process dies after [k] of its changes (or never, if it
    makes at most [k]). *)
Definition crashed (s : fs) (r : run) (k : nat) : fs := apply_all s (firstn k (changes r)).
Definition final (s : fs) (r : run) : fs := apply_all s (changes r).
