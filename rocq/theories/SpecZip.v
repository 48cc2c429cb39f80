(** SpecZip.v -- which members of an archive are ReqIF documents, and what
    reading an archive should give *)
From Verif Require Import Base Xml Utf8 Lxml Py Models Progress Parser Unparser Zip.

(** [name] ends with the extension [e]: a directory part (empty or ending with a
    slash), a stem without slash that is not made of dots only, and [e]. *)
Definition has_extension (e name : str) : Prop :=
  exists dir stem, name = dir ++ stem ++ e
    /\ (dir = [] \/ exists d, dir = d ++ "/")
    /\ ~ In 47%N stem /\ exists c, In c stem /\ c <> 46%N.
Definition reqif_name (name : str) : Prop := has_extension ".reqif" name \/ has_extension ".xml" name.

(** [m] is what the archive holds under [name]: the last member of that name. *)
Definition holds (a : archive) (name : str) (m : option bytes) : Prop :=
  exists a1 a2, a = a1 ++ (name, m) :: a2 /\ ~ In name (map fst a2).
(** the member is readable and, if it is a document, well-formed ReqIF *)
Definition sound (a : archive) (name : str) : Prop :=
  exists raw, holds a name (Some raw)
    /\ (reqif_name name -> exists s b, utf8_decode raw = Some s /\ parse_string s = Ok b).
(** one call per member *)
Fixpoint member_events (k total : nat) (names : list str) : list event :=
  match names with
  | [] => []
  | n :: names' => Event n k total :: member_events (S k) total names'
  end.
(** the names in order of their first appearance *)
Fixpoint firsts (seen names : list str) : list str :=
  match names with
  | [] => []
  | n :: names' => if str_mem n seen then firsts seen names' else n :: firsts (n :: seen) names'
  end.
