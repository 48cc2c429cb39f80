(** Argparse.v -- the command line: cli_args_parser, cli_arg_parser.py:4-91, and the
    part of Python's argparse that it uses (argparse.py of Python 3.11;
    ArgumentParser.parse_args).

    Simplified: what is printed (usage, help and error
    texts) is left out; a second "--" among the words after "--" is a word (argparse
    stores an empty list for it unless it directly follows the first). *)
From Verif Require Import Base.

(** The argparse namespace: only the attributes of the chosen sub-command exist. *)
Record arguments := Arguments {
  a_command : str;
  a_input : option str;
  a_output : option str;
  a_schema : option bool }.
(** What parse_args does: return a namespace, print the help of the program or of a
    command (exit status 0), or print a usage message (exit status 2). *)
Inductive parsed_args := PArgs (a : arguments) | PHelp (command : option str) | PUsage.

(** ** The parsers, cli_arg_parser.py:10-91 *)
Definition schema_flag : str := "--use-reqif-schema".
(** added by argparse to every parser *)
Definition help_options : list str := ["-h"; "--help"].
(** cli_arg_parser.py:18, :32, :45, :59, :72, :87 *)
Definition commands : list str := ["passthrough"; "anonymize"; "dump"; "format"; "validate"; "version"].
(** cli_arg_parser.py:80-84 *)
Definition options_of (cmd : str) : list str :=
  if str_eqb cmd "validate" then help_options ++ [schema_flag] else help_options.
(** cli_arg_parser.py:23-30, :37-43, :50-57, :64-70, :77-79 *)
Definition positionals_of (cmd : str) : nat :=
  if str_mem cmd ["passthrough"; "anonymize"; "dump"; "format"] then 2
  else if str_eqb cmd "validate" then 1
  else 0.

(** ** One argument *)
(** s.partition(c): the part before the first [c] and, if there is one, the rest *)
Fixpoint partition (c : N) (s : str) : str * option str :=
  match s with
  | [] => ([], None)
  | x :: s' => if N.eqb x c then ([], Some s') else let (a, b) := partition c s' in (x :: a, b)
  end.
(** is there one? *)
Definition given {A} (o : option A) : bool := match o with Some _ => true | None => false end.
(** _negative_number_matcher: "^-\d+$|^-\d*\.\d+$"; "$" also matches before a final
    line feed *)
Definition chop (s : str) : str :=
  match rev s with c :: r => if N.eqb c 10 then rev r else s | [] => s end.
(** "\d*" *)
Definition digits (s : str) : bool := forallb is_decimal s.
(** _negative_number_matcher.match(x) *)
Definition negative_number (x : str) : bool :=
  match x with
  | c :: d =>
      N.eqb c 45
      && let (a, b) := partition 46 (chop d) in
         digits a && match b with
                     | None => negb (str_eqb a [])
                     | Some b => negb (str_eqb b []) && digits b
                     end
  | [] => false
  end.

(** The result of _parse_optional: a word (None); an error; an option that the parser
    does not know; an option with the separator "=" and an explicit argument. *)
Inductive optional := OWord | OAmbiguous | OUnknown | OOption (o : str) (sep : bool) (e : option str).
(** _get_option_tuples *)
Definition option_tuples (opts : list str) (x : str) : list (str * bool * option str) :=
  if starts_with "--" x
  then let (p, e) := partition 61 x in map (fun o => (o, given e, e)) (filter (starts_with p) opts)
  else flat_map (fun o => if str_eqb o (firstn 2 x) then [(o, false, Some (skipn 2 x))]
                          else if starts_with x o then [(o, false, None)] else []) opts.
(** _parse_optional *)
Definition parse_optional (opts : list str) (x : str) : optional :=
  match x with
  | [] => OWord
  | c :: r =>
      if negb (N.eqb c 45) then OWord
      else if str_mem x opts then OOption x false None
      else match r with
           | [] => OWord
           | _ :: _ =>
               let (p, e) := partition 61 x in
               if given e && str_mem p opts then OOption p true e
               else match option_tuples opts x with
                    | [(o, sep, e)] => OOption o sep e
                    | _ :: _ :: _ => OAmbiguous
                    | [] => if negative_number x then OWord
                            else if existsb (N.eqb 32) x then OWord
                            else OUnknown
                    end
           end
  end.

(** consume_optional: what is done with an option.  No option takes an argument, and
    the only one with a single dash is -h; options may follow it in the same
    argument. *)
Inductive action := AHelp | AFlag.
(** the action of an option: help or store_true *)
Definition action_of (o : str) : action := if str_mem o help_options then AHelp else AFlag.
(** the rest of an argument with a single dash, consume_optional *)
Fixpoint chain (opts : list str) (sep : bool) (e : str) : bool :=
  match e with
  | [] => false
  | c :: e' =>
      if sep || N.eqb c 45 then false
      else if str_mem [45%N; c] opts
           then match e' with
                | [] => true
                | d :: e2 => if N.eqb d 61 then chain opts true e2 else chain opts false e'
                end
           else true
  end.
(** consume_optional, one argument *)
Definition consume (opts : list str) (o : str) (sep : bool) (e : option str) : option action :=
  match e with
  | None => Some (action_of o)
  | Some e => if starts_with "--" o then None
              else if chain opts sep e then Some (action_of o) else None
  end.

(** ** The arguments of a command: _parse_known_args *)
(** Before anything is done every argument is classified; "--" ends the options. *)
Fixpoint ambiguous (opts : list str) (args : list str) : bool :=
  match args with
  | [] => false
  | x :: r =>
      if str_eqb x "--" then false
      else match parse_optional opts x with OAmbiguous => true | _ => ambiguous opts r end
  end.
(** [SubDone words flag extras]: are there arguments nobody asked for? *)
Inductive sub_parsed := SubHelp | SubError | SubDone (words : list str) (flag extras : bool).
(** a positional argument is stored *)
Definition add_word (x : str) (s : sub_parsed) : sub_parsed :=
  match s with SubDone ws f ex => SubDone (x :: ws) f ex | _ => s end.
(** use_reqif_schema is stored *)
Definition set_flag (s : sub_parsed) : sub_parsed :=
  match s with SubDone ws _ ex => SubDone ws true ex | _ => s end.
(** an argument is left over *)
Definition extra (s : sub_parsed) : sub_parsed :=
  match s with SubDone ws f _ => SubDone ws f true | _ => s end.
(** The alternation of consume_positionals and consume_optional; [n] words are still
    expected, [prev]: the argument before this one was taken as such a word.  Their
    pattern allows for dashes on both sides of the word, so that "--" is dropped next
    to a word and superfluous elsewhere. *)
Fixpoint sub_loop (opts : list str) (n : nat) (prev : bool) (args : list str) : sub_parsed :=
  match args with
  | [] => SubDone [] false false
  | x :: r =>
      if str_eqb x "--"
      then SubDone (firstn n r) false
             (negb (prev || ((0 <? n) && (0 <? length r))) || (n <? length r))
      else match parse_optional opts x with
           | OWord => match n with
                      | S n' => add_word x (sub_loop opts n' true r)
                      | O => extra (sub_loop opts 0 false r)
                      end
           | OUnknown => extra (sub_loop opts n false r)
           | OAmbiguous => SubError
           | OOption o sep e =>
               match consume opts o sep e with
               | None => SubError
               | Some AHelp => SubHelp
               | Some AFlag => set_flag (sub_loop opts n false r)
               end
           end
  end.
(** the parser of a command, with its error messages as [PUsage] *)
Definition parse_sub (cmd : str) (args : list str) : parsed_args :=
  let opts := options_of cmd in
  let n := positionals_of cmd in
  if ambiguous opts args then PUsage
  else match sub_loop opts n false args with
       | SubHelp => PHelp (Some cmd)
       | SubError => PUsage
       | SubDone ws f ex =>
           if ex || (length ws <? n) then PUsage
           else PArgs (Arguments cmd (nth_error ws 0) (nth_error ws 1)
                         (if str_eqb cmd "validate" then Some f else None))
       end.

(** ** The program
    The sub-command takes all arguments from the first word on (nargs=PARSER);
    after "--" it would be called "--". *)
Fixpoint main_loop (extras : bool) (argv : list str) : parsed_args :=
  match argv with
  | [] => PUsage                                            (* required = True *)
  | x :: r =>
      if str_eqb x "--" then PUsage
      else match parse_optional help_options x with
           | OWord =>
               if str_mem x commands
               then match parse_sub x r with
                    | PArgs a => if extras then PUsage else PArgs a
                    | p => p
                    end
               else PUsage
           | OUnknown => main_loop true r
           | OAmbiguous => PUsage
           | OOption o sep e =>
               match consume help_options o sep e with None => PUsage | Some _ => PHelp None end
           end
  end.
(** parser.parse_args(), cli_arg_parser.py:186 *)
Definition parse_args (argv : list str) : parsed_args :=
  if ambiguous help_options argv then PUsage else main_loop false argv.
