(** Xml.v -- a character level XML reader.

    It stands in for [etree.parse] of lxml/libxml2 (parser.py:96,
    anonymize.py:54), which is not part of reqif: the reader is written from the
    XML 1.0 recommendation and covers elements, attributes, character data,
    character references, the five predefined entities, comments, CDATA
    sections, processing instructions, the XML declaration, line-end and
    attribute-value normalisation.  Simplifications: a document type
    declaration (hence custom entities) is rejected.

    The reader is a state machine folded over the text; no fuel is involved.
    Character data is kept as one node per character ([XChar]), so that reading
    is a homomorphism from concatenation of texts to concatenation of nodes. *)
From Verif Require Import Base.

(** What is read, before namespaces: a character, an element, a comment, a processing instruction. *)
Inductive xnode : Type :=
| XChar (c : N)
| XElem (name : str) (attrs : list (str * str)) (kids : list xnode)
| XComment (s : str)
| XPI (s : str).

(** ** Character classes *)
Definition is_ws (c : N) : bool :=
  N.eqb c 32 || N.eqb c 10 || N.eqb c 9 || N.eqb c 13.

(** XML 1.0 [Char]. *)
Definition is_xml_char (c : N) : bool :=
  N.eqb c 9 || N.eqb c 10 || N.eqb c 13
  || (N.leb 32 c && N.leb c 55295)
  || (N.leb 57344 c && N.leb c 65533)
  || (N.leb 65536 c && N.leb c 1114111).

(** NameStartChar and NameChar (XML 1.0, fifth edition, [4] and [4a]). *)
Definition between (a b c : N) : bool := N.leb a c && N.leb c b.
(** NameStartChar *)
Definition is_name_start (c : N) : bool :=
  between 65 90 c || between 97 122 c || N.eqb c 95 || N.eqb c 58
  || between 192 214 c || between 216 246 c || between 248 767 c
  || between 880 893 c || between 895 8191 c || between 8204 8205 c
  || between 8304 8591 c || between 11264 12271 c || between 12289 55295 c
  || between 63744 64975 c || between 65008 65533 c || between 65536 983039 c.
(** NameChar *)
Definition is_name_char (c : N) : bool :=
  is_name_start c || is_digit c || N.eqb c 45 || N.eqb c 46
  || N.eqb c 183 || between 768 879 c || between 8255 8256 c.

(** Name, production [5] *)
Definition is_name (s : str) : bool :=
  match s with [] => false | c :: s' => is_name_start c && forallb is_name_char s' end.

(** ** References *)
Definition dec_val (s : str) : option N :=
  match s with
  | [] => None
  | _ => fold_left (fun acc c => match acc with
                                 | Some n => if is_digit c then Some (n * 10 + (c - 48))%N else None
                                 | None => None end) s (Some 0%N)
  end.
(** a hexadecimal digit of a character reference *)
Definition hex_digit (c : N) : option N :=
  if is_digit c then Some (c - 48)%N
  else if N.leb 65 c && N.leb c 70 then Some (c - 55)%N
  else if N.leb 97 c && N.leb c 102 then Some (c - 87)%N
  else None.
(** the number of "&#x...;" *)
Definition hex_val (s : str) : option N :=
  match s with
  | [] => None
  | _ => fold_left (fun acc c => match acc, hex_digit c with
                                 | Some n, Some d => Some (n * 16 + d)%N
                                 | _, _ => None end) s (Some 0%N)
  end.
(** The character denoted by the reference "&body;". *)
Definition decode_ref (body : str) : option N :=
  if str_eqb body "lt" then Some 60%N
  else if str_eqb body "gt" then Some 62%N
  else if str_eqb body "amp" then Some 38%N
  else if str_eqb body "quot" then Some 34%N
  else if str_eqb body "apos" then Some 39%N
  else
    match body with
    | 35%N :: 120%N :: h =>
        match hex_val h with
        | Some n => if is_xml_char n then Some n else None
        | None => None end
    | 35%N :: d =>
        match dec_val d with
        | Some n => if is_xml_char n then Some n else None
        | None => None end
    | _ => None
    end.

(** ** The machine.  Accumulators are reversed. *)
Inductive mode : Type :=
| MText (brackets : nat)  (* so many "]" have just been read, up to two *)
| MTextRef (buf : str)
| MLt
| MName (n : str)
| MTag (n : str) (a : list (str * str))
| MTagSp (n : str) (a : list (str * str))
| MAttr (n : str) (a : list (str * str)) (k : str)
| MAttrSp (n : str) (a : list (str * str)) (k : str)
| MEq (n : str) (a : list (str * str)) (k : str)
| MVal (n : str) (a : list (str * str)) (k : str) (q : N) (v : str)
| MValRef (n : str) (a : list (str * str)) (k : str) (q : N) (v : str) (buf : str)
| MSlash (n : str) (a : list (str * str))
| MClose (n : str)
| MCloseSp (n : str)
| MBang (buf : str)
| MCom (acc : str) (dashes : nat)
| MCdata (brackets : nat)
| MPI (acc : str) (quest : bool)
| MErr.

(** Open elements: name, attributes (in order), reversed left siblings. *)
Definition frame := (str * list (str * str) * list xnode)%type.

(** The machine: was the last character a carriage return; open elements; reversed nodes of the innermost one; mode. *)
Record conf := Conf { cr : bool; stk : list frame; done_ : list xnode; md : mode }.

(** the text is not well-formed *)
Definition err (c : conf) : conf := Conf (cr c) (stk c) (done_ c) MErr.
(** before the first character *)
Definition init : conf := Conf false [] [] (MText 0).

(** go on in another mode *)
Definition set_md (st : conf) (m : mode) : conf := Conf (cr st) (stk st) (done_ st) m.
(** a finished node *)
Definition push (st : conf) (x : xnode) : conf := Conf (cr st) (stk st) (x :: done_ st) (MText 0).

(** after a start tag *)
Definition open_elem (st : conf) (n : str) (a : list (str * str)) : conf :=
  Conf (cr st) ((n, rev a, done_ st) :: stk st) [] (MText 0).
(** after an end tag: the names have to agree *)
Definition close_elem (st : conf) (n : str) : conf :=
  match stk st with
  | (n', a, sib) :: stk' =>
      if str_eqb n n'
      then Conf (cr st) stk' (XElem n' a (rev (done_ st)) :: sib) (MText 0)
      else err st
  | [] => err st
  end.

(** Target of a processing instruction: the leading non-blank characters. *)
Definition pi_target (s : str) : str := take_while (fun c => negb (is_ws c)) s.
(** It is a name, and not "xml" in any spelling but for the declaration. *)
Definition reserved (s : str) : bool :=
  match s with
  | [x; m; l] => (N.eqb x 120 || N.eqb x 88) && (N.eqb m 109 || N.eqb m 77) && (N.eqb l 108 || N.eqb l 76)
  | _ => false
  end.

(** One character, after line-end normalisation. *)
Definition step1 (st : conf) (c : N) : conf :=
  match md st with
  | MText j =>
      if N.eqb c 60 then set_md st MLt
      else if N.eqb c 38 then
             match stk st with [] => err st | _ => set_md st (MTextRef []) end
      else if is_xml_char c then
             match stk st with
             | [] => if is_ws c then push st (XChar c) else err st
             | _ => if N.eqb c 62 && Nat.eqb j 2 then err st
                    else Conf (cr st) (stk st) (XChar c :: done_ st)
                              (MText (if N.eqb c 93 then match j with 0 => 1 | _ => 2 end else 0))
             end
      else err st
  | MTextRef buf =>
      if N.eqb c 59 then
        match decode_ref (rev buf) with
        | Some x => push st (XChar x)
        | None => err st
        end
      else if is_name_char c || N.eqb c 35 then set_md st (MTextRef (c :: buf))
      else err st
  | MLt =>
      if N.eqb c 47 then set_md st (MClose [])
      else if N.eqb c 33 then set_md st (MBang [])
      else if N.eqb c 63 then set_md st (MPI [] false)
      else if is_name_start c then set_md st (MName [c])
      else err st
  | MName n =>
      if is_name_char c then set_md st (MName (c :: n))
      else if is_ws c then set_md st (MTagSp (rev n) [])
      else if N.eqb c 62 then open_elem st (rev n) []
      else if N.eqb c 47 then set_md st (MSlash (rev n) [])
      else err st
  | MTag n a =>
      if is_ws c then set_md st (MTagSp n a)
      else if N.eqb c 62 then open_elem st n a
      else if N.eqb c 47 then set_md st (MSlash n a)
      else err st
  | MTagSp n a =>
      if is_ws c then st
      else if N.eqb c 62 then open_elem st n a
      else if N.eqb c 47 then set_md st (MSlash n a)
      else if is_name_start c then set_md st (MAttr n a [c])
      else err st
  | MAttr n a k =>
      if is_name_char c then set_md st (MAttr n a (c :: k))
      else if N.eqb c 61 then set_md st (MEq n a (rev k))
      else if is_ws c then set_md st (MAttrSp n a (rev k))
      else err st
  | MAttrSp n a k =>
      if is_ws c then st
      else if N.eqb c 61 then set_md st (MEq n a k)
      else err st
  | MEq n a k =>
      if is_ws c then st
      else if N.eqb c 34 || N.eqb c 39 then set_md st (MVal n a k c [])
      else err st
  | MVal n a k q v =>
      if N.eqb c q then set_md st (MTag n ((k, rev v) :: a))
      else if N.eqb c 60 then err st
      else if N.eqb c 38 then set_md st (MValRef n a k q v [])
      else if is_ws c then set_md st (MVal n a k q (32%N :: v))
      else if is_xml_char c then set_md st (MVal n a k q (c :: v))
      else err st
  | MValRef n a k q v buf =>
      if N.eqb c 59 then
        match decode_ref (rev buf) with
        | Some x => set_md st (MVal n a k q (x :: v))
        | None => err st
        end
      else if is_name_char c || N.eqb c 35 then set_md st (MValRef n a k q v (c :: buf))
      else err st
  | MSlash n a =>
      if N.eqb c 62 then push st (XElem n (rev a) [])
      else err st
  | MClose n =>
      match n with
      | [] => if is_name_start c then set_md st (MClose [c]) else err st
      | _ =>
          if is_name_char c then set_md st (MClose (c :: n))
          else if is_ws c then set_md st (MCloseSp (rev n))
          else if N.eqb c 62 then close_elem st (rev n)
          else err st
      end
  | MCloseSp n =>
      if is_ws c then st
      else if N.eqb c 62 then close_elem st n
      else err st
  | MBang buf =>
      let b := rev (c :: buf) in
      if str_eqb b "--" then set_md st (MCom [] 0)
      else if str_eqb b "[CDATA[" then
             match stk st with [] => err st | _ => set_md st (MCdata 0) end
      else if starts_with b "--" || starts_with b "[CDATA[" then set_md st (MBang (c :: buf))
      else err st
  | MCom acc d =>
      if negb (is_xml_char c) then err st
      else match d with
           | 2 => if N.eqb c 62 then push st (XComment (rev acc)) else err st
           | 1 => if N.eqb c 45 then set_md st (MCom acc 2)
                  else set_md st (MCom (c :: 45%N :: acc) 0)
           | _ => if N.eqb c 45 then set_md st (MCom acc 1)
                  else set_md st (MCom (c :: acc) 0)
           end
  | MCdata d =>
      if negb (is_xml_char c) then err st
      else if N.eqb c 93 then
             match d with
             | 0 => set_md st (MCdata 1)
             | 1 => set_md st (MCdata 2)
             | _ => Conf (cr st) (stk st) (XChar 93 :: done_ st) (MCdata 2)
             end
      else if N.eqb c 62 && Nat.eqb d 2 then set_md st (MText 0)
      else Conf (cr st) (stk st)
                (XChar c :: repeat (XChar 93) d ++ done_ st) (MCdata 0)
  | MPI acc qu =>
      if negb (is_xml_char c) then err st
      else if qu && N.eqb c 62 then
             let s := rev (tl acc) in
             if str_eqb (pi_target s) "xml" then
               match stk st, done_ st with
               | [], [] => push st (XPI s)
               | _, _ => err st
               end
             else if is_name (pi_target s) && negb (reserved (pi_target s)) then push st (XPI s)
             else err st
      else set_md st (MPI (c :: acc) (N.eqb c 63))
  | MErr => st
  end.

(** Line ends: "\r\n" and a lone "\r" are read as "\n". *)
Definition step (st : conf) (c : N) : conf :=
  if cr st && N.eqb c 10 then Conf false (stk st) (done_ st) (md st)
  else if N.eqb c 13 then step1 (Conf true (stk st) (done_ st) (md st)) 10
  else step1 (Conf false (stk st) (done_ st) (md st)) c.

(** a whole text *)
Definition run (st : conf) (s : str) : conf := fold_left step s st.

(** ** The XML declaration: version, then maybe encoding, then maybe standalone.
    [s] is the text between "<?" and "?>"; it is written like a tag, without
    references. *)
Definition decl_fields (s : str) : option (list (str * str)) :=
  if existsb (N.eqb 38) s then None
  else match run init ("<" ++ s ++ "/>") with
       | Conf _ [] [XElem _ a []] (MText _) => Some a
       | _ => None
       end.
(** VersionNum, production [26] *)
Definition version_ok (v : str) : bool :=
  match v with 49%N :: 46%N :: d => forallb is_digit d | _ => false end.
(** EncName, production [81] *)
Definition encoding_ok (v : str) : bool :=
  match v with
  | c :: v' => (between 65 90 c || between 97 122 c)
      && forallb (fun c => between 65 90 c || between 97 122 c || is_digit c || N.eqb c 46 || N.eqb c 95 || N.eqb c 45) v'
  | [] => false
  end.
(** SDDecl, production [32] *)
Definition standalone_ok (v : str) : bool := str_eqb v "yes" || str_eqb v "no".
(** XMLDecl, production [23] *)
Definition decl_ok (s : str) : bool :=
  match decl_fields s with
  | Some [(k, v)] => str_eqb k "version" && version_ok v
  | Some [(k, v); (k1, v1)] =>
      str_eqb k "version" && version_ok v
      && (str_eqb k1 "encoding" && encoding_ok v1 || str_eqb k1 "standalone" && standalone_ok v1)
  | Some [(k, v); (k1, v1); (k2, v2)] =>
      str_eqb k "version" && version_ok v && (str_eqb k1 "encoding" && encoding_ok v1)
      && (str_eqb k2 "standalone" && standalone_ok v2)
  | _ => false
  end.

(** ** Documents *)
Record xdoc := XDoc { d_decl : option str; d_root : xnode }.

(** Misc, production [27], and white space *)
Definition is_misc (x : xnode) : bool :=
  match x with XChar c => is_ws c | XComment _ => true | XPI _ => true | XElem _ _ _ => false end.

(** Prolog, exactly one root element, epilog. *)
Fixpoint find_root (l : list xnode) : option xnode :=
  match l with
  | [] => None
  | XElem n a k :: rest => if forallb is_misc rest then Some (XElem n a k) else None
  | x :: rest => if is_misc x then find_root rest else None
  end.

(** the end of the text: document, production [1] *)
Definition finish (st : conf) : option xdoc :=
  match md st, stk st with
  | MText _, [] =>
      let items := rev (done_ st) in
      let decl := match items with
                  | XPI s :: _ => if str_eqb (pi_target s) "xml" then Some s else None
                  | _ => None end in
      match find_root items with
      | Some r => if match decl with Some s => decl_ok s | None => true end
                  then Some (XDoc decl r) else None
      | None => None
      end
  | _, _ => None
  end.

(** ** The declared encoding *)
Definition decl_encoding (d : option str) : option str :=
  match d with
  | None => None
  | Some s =>
      match decl_fields s with
      | Some a => option_map snd (find (fun kv => str_eqb (fst kv) "encoding") a)
      | None => None
      end
  end.

(** [etree.parse(io.BytesIO(bytes(content, "UTF-8")))]: parser.py:96.
    A leading byte order mark is skipped.  [reinterpret enc s] is the text seen
    by a reader that decodes the UTF-8 bytes of [s] as encoding [enc]; see
    [Utf8.v] for the instance.  *)
Definition skip_bom (s : str) : str :=
  match s with 65279%N :: s' => s' | _ => s end.
(** a text as a document, the declared encoding left aside *)
Definition read_text (s : str) : option xdoc := finish (run init (skip_bom s)).
