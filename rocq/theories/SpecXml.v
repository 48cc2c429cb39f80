(** SpecXml.v -- the grammar of XML documents, after the recommendation "XML 1.0
    (fifth edition)"; numbers in brackets are those of its productions.  Left
    out: document type declarations, and with them entities other than the
    predefined ones. *)
From Verif Require Import Base Xml.

(** ** Characters *)
Definition in_ranges (l : list (N * N)) (c : N) : Prop := exists a b, In (a, b) l /\ (a <= c <= b)%N.
(** [2] *)
Definition char : N -> Prop :=
  in_ranges [(0x9, 0x9); (0xA, 0xA); (0xD, 0xD); (0x20, 0xD7FF); (0xE000, 0xFFFD); (0x10000, 0x10FFFF)]%N.
(** [3] *)
Definition white (c : N) : Prop := In c [0x20; 0x9; 0xD; 0xA]%N.
(** [4], [4a] *)
Definition name_start_ranges : list (N * N) :=
  [(0x3A, 0x3A); (0x41, 0x5A); (0x5F, 0x5F); (0x61, 0x7A); (0xC0, 0xD6); (0xD8, 0xF6); (0xF8, 0x2FF); (0x370, 0x37D);
   (0x37F, 0x1FFF); (0x200C, 0x200D); (0x2070, 0x218F); (0x2C00, 0x2FEF); (0x3001, 0xD7FF); (0xF900, 0xFDCF);
   (0xFDF0, 0xFFFD); (0x10000, 0xEFFFF)]%N.
Definition name_start : N -> Prop := in_ranges name_start_ranges.
Definition name_char : N -> Prop :=
  in_ranges (name_start_ranges ++ [(0x2D, 0x2D); (0x2E, 0x2E); (0x30, 0x39); (0xB7, 0xB7); (0x300, 0x36F); (0x203F, 0x2040)]%N).
(** [5] *)
Definition name (s : str) : Prop := exists c s', s = c :: s' /\ name_start c /\ Forall name_char s'.
(** the text [p] does not occur in [s] *)
Definition absent (p s : str) : Prop := forall a b, s <> a ++ p ++ b.

(** ** References: "&" [body] ";" stands for a character *)
Inductive number (base : N) (digit : N -> N -> Prop) : str -> N -> Prop :=
| number_one c d : digit c d -> number base digit [c] d
| number_more s n c d : number base digit s n -> digit c d -> number base digit (s ++ [c]) (base * n + d)%N.
Definition decimal (c d : N) : Prop := (c = 0x30 + d /\ d < 10)%N.
Definition hexadecimal (c d : N) : Prop :=
  (c = 0x30 + d /\ d < 10 \/ c = 0x41 + (d - 10) /\ 10 <= d < 16 \/ c = 0x61 + (d - 10) /\ 10 <= d < 16)%N.
Inductive reference : str -> N -> Prop :=
| reference_lt : reference "lt" 0x3C
| reference_gt : reference "gt" 0x3E
| reference_amp : reference "amp" 0x26
| reference_quot : reference "quot" 0x22
| reference_apos : reference "apos" 0x27
| reference_decimal s n : number 10 decimal s n -> char n -> reference ("#" ++ s) n
| reference_hexadecimal s n : number 16 hexadecimal s n -> char n -> reference ("#x" ++ s) n.

(** ** Attributes: the text of a value between quotes [q], and the value it
    denotes *)
Inductive value (q : N) : str -> str -> Prop :=
| value_nil : value q [] []
| value_char c t v : char c -> ~ white c -> c <> q -> c <> 0x3C%N -> c <> 0x26%N -> value q t v -> value q (c :: t) (c :: v)
| value_white c t v : white c -> value q t v -> value q (c :: t) (0x20%N :: v)
| value_reference b c t v : reference b c -> value q t v -> value q ("&" ++ b ++ ";" ++ t) (c :: v).
Definition quote (q : N) : Prop := q = 0x22%N \/ q = 0x27%N.
Inductive attributes : str -> list (str * str) -> Prop :=
| attributes_nil : attributes [] []
| attributes_cons space k w w' q t v rest l :
    Forall white space -> space <> [] -> name k -> Forall white w -> Forall white w' -> quote q -> value q t v ->
    attributes rest l ->
    attributes (space ++ k ++ w ++ "=" ++ w' ++ [q] ++ t ++ [q] ++ rest) ((k, v) :: l).

(** ** Comments [15], processing instructions [16], CDATA sections [18] *)
Definition comment (s : str) : Prop := Forall char s /\ absent "--" (s ++ "-").
(** [17]: a name other than "xml" *)
Definition target (s : str) : Prop :=
  name s /\ ~ (exists x m l, s = [x; m; l] /\ In x "xX" /\ In m "mM" /\ In l "lL").
Definition instruction (s : str) : Prop :=
  Forall char s /\ absent "?>" s
  /\ exists n rest, s = n ++ rest /\ target n /\ (rest = [] \/ exists c rest', rest = c :: rest' /\ white c).
Definition cdata (s : str) : Prop := Forall char s /\ absent "]]>" s.

(** ** Elements [39] and their content [43]; in character data [14] there is no
    "]]>" *)
Inductive element : str -> xnode -> Prop :=
| element_empty n att a w :
    name n -> attributes att a -> Forall white w -> element ("<" ++ n ++ att ++ w ++ "/>") (XElem n a [])
| element_full n att a w t k w' :
    name n -> attributes att a -> Forall white w -> content t k -> Forall white w' ->
    element ("<" ++ n ++ att ++ w ++ ">" ++ t ++ "</" ++ n ++ w' ++ ">") (XElem n a k)
with content : str -> list xnode -> Prop :=
| content_nil : content [] []
| content_char c t k :
    char c -> c <> 0x3C%N -> c <> 0x26%N -> (forall t', c :: t <> "]]>" ++ t') -> content t k -> content (c :: t) (XChar c :: k)
| content_reference b c t k : reference b c -> content t k -> content ("&" ++ b ++ ";" ++ t) (XChar c :: k)
| content_element e x t k : element e x -> content t k -> content (e ++ t) (x :: k)
| content_comment s t k : comment s -> content t k -> content ("<!--" ++ s ++ "-->" ++ t) (XComment s :: k)
| content_cdata s t k : cdata s -> content t k -> content ("<![CDATA[" ++ s ++ "]]>" ++ t) (map XChar s ++ k)
| content_instruction s t k : instruction s -> content t k -> content ("<?" ++ s ++ "?>" ++ t) (XPI s :: k).

(** ** Documents [1], [22], [27] *)
Inductive misc : str -> Prop :=
| misc_nil : misc []
| misc_white c t : white c -> misc t -> misc (c :: t)
| misc_comment s t : comment s -> misc t -> misc ("<!--" ++ s ++ "-->" ++ t)
| misc_instruction s t : instruction s -> misc t -> misc ("<?" ++ s ++ "?>" ++ t).
(** the attributes of the XML declaration [23] *)
Definition version_number (v : str) : Prop := exists d, v = "1." ++ d /\ Forall (fun c => 0x30 <= c <= 0x39)%N d.
Definition letter (c : N) : Prop := (0x41 <= c <= 0x5A \/ 0x61 <= c <= 0x7A)%N.
Definition encoding_name (v : str) : Prop :=
  exists c v', v = c :: v' /\ letter c /\ Forall (fun c => letter c \/ 0x30 <= c <= 0x39 \/ In c "._-")%N v'.
Definition declares (a : list (str * str)) : Prop :=
  exists v e s, a = ("version", v) :: e ++ s /\ version_number v
    /\ (e = [] \/ exists n, e = [("encoding", n)] /\ encoding_name n)
    /\ (s = [] \/ s = [("standalone", "yes")] \/ s = [("standalone", "no")]).
Definition declaration (s : str) (a : list (str * str)) : Prop :=
  absent "&" s /\ absent "?>" s /\ declares a
  /\ exists att w, s = "xml" ++ att ++ w /\ attributes att a /\ Forall white w.
(** [document t d root]: the text [t], whose lines end with LF, is a document
    with the XML declaration [d], if any, and the root element [root] *)
Definition document (t : str) (d : option str) (root : xnode) : Prop :=
  exists p m e m', t = p ++ m ++ e ++ m' /\ misc m /\ element e root /\ misc m'
    /\ match d with
       | None => p = []
       | Some s => p = "<?" ++ s ++ "?>" /\ exists a, declaration s a
       end.
(** a byte order mark at the beginning of a text is not part of it *)
Definition without_mark (s t : str) : Prop :=
  s = 0xFEFF%N :: t \/ hd_error s <> Some 0xFEFF%N /\ t = s.
(** the encoding a declaration names *)
Definition declared_encoding (d : option str) (e : str) : Prop :=
  exists s a, d = Some s /\ declaration s a /\ In (("encoding" : str), e) a.
