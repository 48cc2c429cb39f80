(** SpecUri.v -- URI references, after appendix A of RFC 3986.  Three remarks: an
    address in brackets may be any text without a closing bracket, a port has at
    least one digit, and a fragment may hold brackets; so does libxml2. *)
From Verif Require Import Base.
Definition one_of (l : str) (c : N) : Prop := In c l.

Definition alpha (c : N) : Prop := (0x41 <= c <= 0x5A \/ 0x61 <= c <= 0x7A)%N.
Definition digit (c : N) : Prop := (0x30 <= c <= 0x39)%N.
Definition hexdig (c : N) : Prop := digit c \/ (0x41 <= c <= 0x46 \/ 0x61 <= c <= 0x66)%N.
Definition unreserved (c : N) : Prop := alpha c \/ digit c \/ one_of "-._~" c.
Definition sub_delim (c : N) : Prop := one_of "!$&'()*+,;=" c.
Definition host_char (c : N) : Prop := unreserved c \/ sub_delim c.
Definition pchar (c : N) : Prop := host_char c \/ one_of ":@" c.

(** characters of a kind and percent-encoded bytes *)
Inductive encoded (ok : N -> Prop) : str -> Prop :=
| encoded_nil : encoded ok []
| encoded_char c s : ok c -> encoded ok s -> encoded ok (c :: s)
| encoded_percent a b s : hexdig a -> hexdig b -> encoded ok s -> encoded ok ("%" ++ a :: b :: s).

Definition scheme (s : str) : Prop :=
  exists c r, s = c :: r /\ alpha c /\ Forall (fun x => alpha x \/ digit x \/ one_of "+-." x) r.

Definition segment : str -> Prop := encoded pchar.
Definition segment_nz (s : str) : Prop := segment s /\ s <> [].
Definition segment_nz_nc (s : str) : Prop := encoded (fun c => host_char c \/ one_of "@" c) s /\ s <> [].
Inductive path_abempty : str -> Prop :=
| path_abempty_nil : path_abempty []
| path_abempty_segment s r : segment s -> path_abempty r -> path_abempty ("/" ++ s ++ r).
Definition path_absolute (p : str) : Prop := p = "/" \/ exists s r, p = "/" ++ s ++ r /\ segment_nz s /\ path_abempty r.
Definition path_noscheme (p : str) : Prop := exists s r, p = s ++ r /\ segment_nz_nc s /\ path_abempty r.
Definition path_rootless (p : str) : Prop := exists s r, p = s ++ r /\ segment_nz s /\ path_abempty r.

Definition userinfo (u : str) : Prop := u = [] \/ exists i, u = i ++ "@" /\ encoded (fun c => host_char c \/ one_of ":" c) i.
Definition host (h : str) : Prop := encoded host_char h \/ exists a, h = "[" ++ a ++ "]" /\ ~ In 0x5D%N a.
Definition port (p : str) : Prop := p = [] \/ exists d, p = ":" ++ d /\ d <> [] /\ Forall digit d.
Definition authority (s : str) : Prop := exists u h p, s = u ++ h ++ p /\ userinfo u /\ host h /\ port p.

Definition query (q : str) : Prop := q = [] \/ exists s, q = "?" ++ s /\ encoded (fun c => pchar c \/ one_of "/?" c) s.
Definition fragment (f : str) : Prop := f = [] \/ exists s, f = "#" ++ s /\ encoded (fun c => pchar c \/ one_of "/?[]" c) s.

(** the part in the middle, where [first] tells which paths may stand alone *)
Definition hier_part (first : str -> Prop) (s : str) : Prop :=
  (exists a p, s = "//" ++ a ++ p /\ authority a /\ path_abempty p) \/ path_absolute s \/ first s \/ s = [].
Definition uri (s : str) : Prop :=
  exists c h q f, s = c ++ ":" ++ h ++ q ++ f /\ scheme c /\ hier_part path_rootless h /\ query q /\ fragment f.
Definition relative_ref (s : str) : Prop :=
  exists h q f, s = h ++ q ++ f /\ hier_part path_noscheme h /\ query q /\ fragment f.
Definition uri_ref (s : str) : Prop := uri s \/ relative_ref s.
