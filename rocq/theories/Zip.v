(** Zip.v -- ReqIFZParser (parser.py:393-423) and ReqIFZUnparser (unparser.py:177-212) *)
From Verif Require Import Base Xml Utf8 Lxml Py Models Progress Parser Unparser.

(** A zip archive as the zipfile module shows it: members in the order of the
    central directory, a name possibly more than once; [None] for a member whose
    bytes cannot be read back (bad checksum, encryption, ...). *)
Definition archive := list (str * option bytes).

(** zip_file.open(name).read(): NameToInfo keeps the last member of a name. *)
Fixpoint find_member (a : archive) (name : str) : option (option bytes) :=
  match a with
  | [] => None
  | (n, m) :: a' =>
      match find_member a' name with
      | Some x => Some x
      | None => if str_eqb n name then Some m else None
      end
  end.
(** [zip_file.open(name)] and [read()] *)
Definition read_member (a : archive) (name : str) : result bytes :=
  match find_member a name with
  | None => Raise EKeyError
  | Some None => Raise EOSError
  | Some (Some b) => Ok b
  end.

(** os.path.splitext(p)[1] (posixpath / genericpath._splitext) *)
Fixpoint after_last (c : N) (s : str) : str :=
  match s with
  | [] => []
  | x :: s' => if existsb (N.eqb c) s' then after_last c s' else if N.eqb x c then s' else x :: s'
  end.
(** the part after the last "/" *)
Definition basename (p : str) : str := if existsb (N.eqb 47) p then after_last 47 p else p.
(** [f]: the part after the last "/".  The extension starts at the last dot,
    provided that some character before it is not a dot. *)
Fixpoint ext_of (seen_nondot : bool) (f : str) : str :=
  match f with
  | [] => []
  | c :: f' =>
      if N.eqb c 46 then
        if existsb (N.eqb 46) f' then ext_of seen_nondot f'
        else if seen_nondot then c :: f' else []
      else ext_of true f'
  end.
(** [os.path.splitext(p)[1]] (parser.py:408) *)
Definition splitext_ext (p : str) : str := ext_of false (basename p).

(** parser.py:408-418, one member *)
Definition zip_member (a : archive) (name : str) (z : zbundle) : result zbundle :=
  let! b := read_member a name in
  if str_mem (splitext_ext name) [".reqif"; ".xml"]
  then match utf8_decode b with
       | None => Raise EUnicodeError
       | Some s => let! bd := parse_string s in
                   Ok (ZBundle (dict_set (z_bundles z) (Some name) bd) (z_attachments z))
       end
  else Ok (ZBundle (z_bundles z) (dict_set (z_attachments z) (Some name) b)).
(** the loop over the members, parser.py:407-418 *)
Fixpoint zip_loop (cb : callback) (a : archive) (idx total : nat) (names : list str) (z : zbundle)
  : M zbundle :=
  match names with
  | [] => ret z
  | n :: names' =>
      do! z' := lift (zip_member a n z) in
      do! _ := deliver cb (Event n (idx + 1) total) in
      zip_loop cb a (idx + 1) total names' z'
  end.
(** except Exception: raise ReqIFZParsingError.  Simplified: whatever a callback
    raises is an Exception (not KeyboardInterrupt etc.). *)
Definition wrap_exn {A} (m : M A) : M A :=
  fun h => match m h with
           | (h', Ok a) => (h', Ok a)
           | (h', Raise _) => (h', Raise EReqIFZParsingError)
           end.
(** ReqIFZParser.parse, parser.py:394-423; [None]: the file is missing or not a
    zip archive *)
Definition zip_parse (cb : callback) (file : option archive) : M zbundle :=
  wrap_exn (match file with
            | None => lift (Raise EOSError)
            | Some a => let names := map fst a in
                        zip_loop cb a 0 (length names) names (ZBundle [] [])
            end).

(** ** ReqIFZUnparser.unparse, unparser.py:178-212 *)
Definition key_name (k : option str) : str := fmt k.
(** unparser.py:197-203 *)
Fixpoint write_bundles (cb : callback) (done_ total : nat) (l : dict bundle) (a : archive)
  : M (nat * archive) :=
  match l with
  | [] => ret (done_, a)
  | (k, b) :: l' =>
      do! s := lift (unparse_string b) in
      (* writestr: str is encoded as UTF-8 *)
      do! raw := lift (match utf8_encode s with Some x => Ok x | None => Raise EUnicodeError end) in
      do! _ := deliver cb (Event (key_name k) (done_ + 1) total) in
      write_bundles cb (done_ + 1) total l' (a ++ [(key_name k, Some raw)])
  end.
(** unparser.py:205-210 *)
Fixpoint write_attachments (cb : callback) (done_ total : nat) (l : dict bytes) (a : archive)
  : M (nat * archive) :=
  match l with
  | [] => ret (done_, a)
  | (k, raw) :: l' =>
      do! _ := deliver cb (Event (key_name k) (done_ + 1) total) in
      write_attachments cb (done_ + 1) total l' (a ++ [(key_name k, Some raw)])
  end.
(** Assumption on zipfile: writestr appends a member that reads back with the
    same name and bytes (names contain no NUL character). *)
Definition zip_unparse (cb : callback) (z : zbundle) : M archive :=
  let total := length (z_bundles z) + length (z_attachments z) in
  do! (n, a) := write_bundles cb 0 total (z_bundles z) [] in
  do! (_, a2) := write_attachments cb n total (z_attachments z) a in
  ret a2.
