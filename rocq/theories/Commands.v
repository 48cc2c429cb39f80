(** Commands.v -- cli/main.py, cli/cli_arg_parser.py (from the parsed arguments
    on) and the commands' effects on the file system: passthrough.py,
    anonymize.py, dump.py, format.py, version_command.py *)
From Verif Require Import Base Xml Utf8 Lxml Py Models Progress Parser Serialise Unparser Log Validate Zip Anonymize Dump Argparse.

(** ** The file system

    Files by path.  Simplified: two different paths name two different files (no
    links, no "./x"), and directories and permissions do not change during the
    run. *)
Record fs := FS {
  fs_file : str -> option bytes;        (* regular files *)
  fs_isdir : str -> bool;               (* os.path.isdir *)
  fs_can_write : str -> bool }.         (* open(path, "w") succeeds *)

(** One change of a file.  Opening for writing truncates; written bytes reach the
    disk one after the other.  A crash (or a failing write) leaves the changes made
    so far: some prefix of a command's changes. *)
Inductive change := Truncate (p : str) | Append (p : str) (b : N).
(** a file gets new content, or disappears *)
Definition set_file (s : fs) (p : str) (o : option bytes) : fs :=
  FS (fun q => if str_eqb q p then o else fs_file s q) (fs_isdir s) (fs_can_write s).
(** one change *)
Definition apply (s : fs) (c : change) : fs :=
  match c with
  | Truncate p => set_file s p (Some [])
  | Append p b => set_file s p (Some (match fs_file s p with Some x => x | None => [] end ++ [b]))
  end.
(** all changes, in order *)
Definition apply_all (s : fs) (l : list change) : fs := fold_left apply l s.

(** What a command does: what it prints on standard output, log messages included
    (main.py:43-53), the changes, and how the process ends. *)
Inductive say :=
| SNoInput (path : str)          (* error: ... input file does not exist: path *)
| SNoOutputDir (path : str)      (* error: output directory does not exist: path *)
| SReport (l : list line)        (* validate *)
| SVersion (v : str)
| SHelp (command : option str)   (* the help text of the program or of a command *)
| SUnknownChild (tag : option str).   (* warning: Unknown child tag: tag. *)
Record run := Run { said : list say; changes : list change; ended : ending }.

(** with open(path, "wb") as file: file.write(data) *)
Definition write_bytes (s : fs) (p : str) (data : bytes) : run :=
  if fs_can_write s p then Run [] (Truncate p :: map (Append p) data) (Exit 0)
  else Run [] [] (Uncaught EOSError).
(** with open(path, "w", encoding="UTF-8") as file: file.write(text).  The text is
    encoded by write, after the file was truncated. *)
Definition write_text (s : fs) (p : str) (text : str) : run :=
  if fs_can_write s p
  then match utf8_encode text with
       | Some data => Run [] (Truncate p :: map (Append p) data) (Exit 0)
       | None => Run [] [Truncate p] (Uncaught EUnicodeError)
       end
  else Run [] [] (Uncaught EOSError).

(** ** os.path.dirname (posixpath) *)
Fixpoint upto_last_slash (s : str) : str :=
  match s with
  | [] => []
  | c :: s' => if existsb (N.eqb 47) s' then c :: upto_last_slash s'
               else if N.eqb c 47 then [c] else []
  end.
Fixpoint drop_slashes (s : str) : str :=      (* on the reversed string *)
  match s with
  | c :: s' => if N.eqb c 47 then drop_slashes s' else s
  | [] => []
  end.
(** [os.path.dirname(p)] (posixpath.py) *)
Definition dirname (p : str) : str :=
  let head := upto_last_slash p in
  if forallb (N.eqb 47) head then head else rev (drop_slashes (rev head)).
(** passthrough.py:21-22, anonymize.py:38-39 *)
Definition output_dir_missing (s : fs) (output_file : str) : bool :=
  let d := dirname output_file in
  match d with [] => false | _ => negb (fs_isdir s d) end.

(** ** The libraries the commands use *)
Record tools := Tools {
  t_sha : bytes -> N;                            (* hashlib.sha256 *)
  t_unzip : bytes -> option archive;             (* zipfile reading *)
  t_zip : archive -> bytes;                      (* zipfile writing *)
  t_repr_list : list (option str) -> str;        (* Python repr of a list *)
  t_environment : fs -> str -> env;              (* for validate *)
  t_version : str }.                             (* reqif.__version__ *)

(** _passthrough, passthrough.py:36-42 *)
Definition passthrough_reqif (raw : bytes) : result bytes :=
  match utf8_decode raw with
  | None => Raise EUnicodeError
  | Some s =>
      let! b := parse_string (universal_newlines s) in
      let! out := unparse_string b in
      match utf8_encode out with Some x => Ok x | None => Raise EUnicodeError end
  end.
(** _passthrough_reqifz, passthrough.py:44-50 *)
Definition passthrough_reqifz (t : tools) (raw : bytes) : result bytes :=
  let! z := snd (zip_parse None (t_unzip t raw) []) in
  let! a := snd (zip_unparse None z []) in
  Ok (t_zip t a).
(** the warnings logged meanwhile *)
Definition passthrough_log (t : tools) (input : str) (raw : bytes) : list (option str) :=
  if ends_with ".reqifz" input
  then match snd (zip_parse None (t_unzip t raw) []) with Ok z => zip_log (z_bundles z) | Raise _ => [] end
  else match utf8_decode raw with
       | Some s => match parse_string (universal_newlines s) with Ok b => unparse_log b | Raise _ => [] end
       | None => []
       end.
(** what was printed before *)
Definition say_first (l : list say) (r : run) : run := Run (l ++ said r) (changes r) (ended r).
(** PassthroughCommand.execute, passthrough.py:11-34 *)
Definition passthrough (t : tools) (s : fs) (input output : str) : run :=
  match fs_file s input with
  | None => Run [SNoInput input] [] (Exit 1)
  | Some raw =>
      if output_dir_missing s output then Run [SNoOutputDir output] [] (Exit 1)
      else say_first (map SUnknownChild (passthrough_log t input raw))
             (match (if ends_with ".reqifz" input then passthrough_reqifz t raw else passthrough_reqif raw) with
              | Raise e => Run [] [] (Uncaught e)
              | Ok data => write_bytes s output data
              end)
  end.
(** _anonymize, anonymize.py:47-120, to the string it returns *)
Definition anonymize_output (t : tools) (raw : bytes) : result str :=
  match utf8_decode raw with
  | None => Raise EUnicodeError
  | Some s =>
      let content := universal_newlines s in
      let! root := anonymize_text (t_sha t) content in
      let decl := match lxml_parse content with Some (d, _) => d | None => None end in
      match utf8_encode (tostring content decl root) with
      | None => Raise EUnicodeError
      | Some data => match utf8_decode data with
                     | Some out => Ok out
                     | None => Raise EUnicodeError
                     end
      end
  end.
(** AnonymizeCommand.execute, anonymize.py:27-45 *)
Definition anonymize (t : tools) (s : fs) (input output : str) : run :=
  match fs_file s input with
  | None => Run [SNoInput input] [] (Exit 1)
  | Some raw =>
      match anonymize_output t raw with
      | Raise e => Run [] [] (Uncaught e)
      | Ok out =>
          if output_dir_missing s output then Run [SNoOutputDir output] [] (Exit 1) else write_text s output out
      end
  end.
(** DumpCommand.execute, dump.py:14-24 *)
Definition dump (t : tools) (s : fs) (input output : str) : run :=
  match (let! b := snd (parse_file None (fs_file s input) []) in dump_html (t_repr_list t) b) with
  | Raise e => Run [] [] (Uncaught e)
  | Ok out => write_text s output out
  end.
(** FormatCommand.execute, format.py:7-15: etree.parse of the path, tree.write
    (Serialise.v).  Simplified: lxml's own opening and writing of the file. *)
Definition format (t : tools) (s : fs) (input output : str) : run :=
  match fs_file s input with
  | None => Run [] [] (Uncaught EOSError)
  | Some raw =>
      match format_bytes raw with
      | Raise e => Run [] [] (Uncaught e)
      | Ok data => write_bytes s output data
      end
  end.

(** ValidateCommand.execute as a process (Validate.v); it changes no file *)
Definition validate_run (t : tools) (s : fs) (cwd input : str) (use_schema : bool) : run :=
  let '(_, (ls, e)) := validate (t_environment t s cwd) (Config input use_schema) cwd in
  Run [SReport ls] [] e.
(** VersionCommand.execute, version_command.py:5-7 *)
Definition version (t : tools) : run := Run [SVersion (t_version t)] [] (Exit 0).

(** ** The command line *)
Definition attribute {A} (o : option A) (k : A -> run) : run :=
  match o with Some x => k x | None => Run [] [] (Uncaught EAttributeError) end.

(** is_..._command and get_..._config, cli_arg_parser.py:135-179; the dispatch of
    main, main.py:55-70 *)
Definition main (t : tools) (s : fs) (cwd : str) (a : arguments) : run :=
  if str_eqb (a_command a) "passthrough"
  then attribute (a_input a) (fun i => attribute (a_output a) (fun o => passthrough t s i o))
  else if str_eqb (a_command a) "anonymize"
  then attribute (a_input a) (fun i => attribute (a_output a) (fun o => anonymize t s i o))
  else if str_eqb (a_command a) "dump"
  then attribute (a_input a) (fun i => attribute (a_output a) (fun o => dump t s i o))
  else if str_eqb (a_command a) "format"
  then attribute (a_input a) (fun i => attribute (a_output a) (fun o => format t s i o))
  else if str_eqb (a_command a) "validate"
  then attribute (a_input a) (fun i => attribute (a_schema a) (fun x => validate_run t s cwd i x))
  else if str_eqb (a_command a) "version"
  then version t
  else Run [] [] (Uncaught ENotImplementedError).

(** The program, main.py:35-74 *)
Definition cli (t : tools) (s : fs) (cwd : str) (argv : list str) : run :=
  match parse_args argv with
  | PUsage => Run [] [] (Exit 2)
  | PHelp c => Run [SHelp c] [] (Exit 0)
  | PArgs a => main t s cwd a
  end.
