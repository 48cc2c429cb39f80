(** Serialise.v -- writing an XML tree as text: lxml's [tostring] and
    [ElementTree.write] with [pretty_print] and [doctype] (anonymize.py:112-120,
    format.py:11-15), and lxml's [remove_blank_text] (format.py:9).

    These are functions of lxml and libxml2, not of reqif; they are written after
    libxml2's xmlsave.c ([xmlNodeDumpOutputInternal]) and parser.c ([areBlanks])
    and lxml's serializer.pxi ([_writeNodeToBuffer]).  Simplifications: white space
    written as a character reference or in a CDATA section is treated like white
    space written literally; the splitting of long texts into pieces by the reader
    is ignored. *)
From Verif Require Import Base Xml Utf8 Lxml Py Parser.

(** what is left after [take_while] *)
Fixpoint drop_while {A} (f : A -> bool) (l : list A) : list A :=
  match l with
  | [] => []
  | x :: l' => if f x then drop_while f l' else l
  end.

(** ** Characters *)
Definition hex_letter (d : N) : N := if N.ltb d 10 then (48 + d)%N else (55 + d)%N.
(** hexadecimal digits, most significant first *)
Fixpoint hex_digits (fuel : nat) (n : N) (acc : str) : str :=
  match fuel with
  | O => acc
  | S f =>
      let q := (n / 16)%N in
      let d := hex_letter (n mod 16)%N in
      if N.eqb q 0 then d :: acc else hex_digits f q (d :: acc)
  end.
(** "%X"; the fuel (binary size + 1) always suffices *)
Definition hex_of_N (n : N) : str := hex_digits (S (N.to_nat (N.size n))) n [].

(** xmlEscapeContent *)
Definition put_char (c : N) : str :=
  if N.eqb c 60 then "&lt;"
  else if N.eqb c 62 then "&gt;"
  else if N.eqb c 38 then "&amp;"
  else if N.eqb c 13 then "&#13;"
  else [c].
(** xmlBufAttrSerializeTxtContent; [hex]: the document has no encoding *)
Definition put_value_char (hex : bool) (c : N) : str :=
  if N.eqb c 34 then "&quot;"
  else if N.eqb c 10 then "&#10;"
  else if N.eqb c 13 then "&#13;"
  else if N.eqb c 9 then "&#9;"
  else if N.eqb c 60 then "&lt;"
  else if N.eqb c 62 then "&gt;"
  else if N.eqb c 38 then "&amp;"
  else if hex && N.leb 128 c then "&#x" ++ hex_of_N c ++ ";"
  else [c].
(** xmlBufWriteQuotedString *)
Definition put_quoted (s : str) : str :=
  if existsb (N.eqb 34) s
  then if existsb (N.eqb 39) s
       then [34%N] ++ replace_char 34 "&quot;" s ++ [34%N]
       else [39%N] ++ s ++ [39%N]
  else [34%N] ++ s ++ [34%N].
(** xmlCharEncOutput to ASCII: other characters become references, wherever they
    are *)
Definition ascii_char (c : N) : str := if N.ltb c 128 then [c] else "&#" ++ str_of_N c ++ ";".
(** the text as it goes into the file *)
Definition in_charset (ascii : bool) (s : str) : str := if ascii then flat_map ascii_char s else s.

(** ** Nodes *)
Definition qualified (p : option str) (l : str) : str := match p with Some x => x ++ ":" ++ l | None => l end.
(** the prefix of a name *)
Definition prefix_of (ns : option nsref) : option str := match ns with Some (p, _) => p | None => None end.
(** xmlNsDumpOutput *)
Definition def_name (p : option str) : str := match p with Some x => "xmlns:" ++ x | None => "xmlns" end.
(** one declaration *)
Definition put_def (d : nsref) : str := " " ++ def_name (fst d) ++ "=" ++ put_quoted (snd d).
(** xmlAttrDumpOutput *)
Definition put_attr (hex : bool) (a : attr) : str :=
  " " ++ qualified (prefix_of (a_ns a)) (a_local a) ++ "=""" ++ flat_map (put_value_char hex) (a_val a) ++ """".
(** A processing instruction is kept by libxml2 as its target and its data,
    without the white space between them. *)
Definition pi_data (s : str) : str := drop_while is_ws (drop_while (fun c => negb (is_ws c)) s).
(** a processing instruction as it is written *)
Definition pi_normal (s : str) : str :=
  if existsb is_ws s then pi_target s ++ " " ++ pi_data s else s.

(** [ctxt->indent]: two blanks for each level, at most 30 levels *)
Definition indentation (level : nat) : str := repeat 32%N (2 * Nat.min level 30).
(** xmlNodeDumpOutputInternal.  [fmt]: line breaks and indentation are added, which
    is switched off inside of an element that has a text node among its children. *)
Fixpoint put (hex fmt : bool) (level : nat) (n : node) : str :=
  match n with
  | Chr c => put_char c
  | Cmt s => "<!--" ++ s ++ "-->"
  | Pin s => "<?" ++ pi_normal s ++ "?>"
  | El ns l defs _ attrs kids =>
      let name := qualified (prefix_of ns) l in
      "<" ++ name ++ flat_map put_def defs ++ flat_map (put_attr hex) attrs
      ++ match kids with
         | [] => "/>"
         | _ =>
             let fmt' := fmt && negb (existsb is_chr kids) in
             ">" ++ (if fmt' then nl else [])
             ++ flat_map (fun k => (if fmt' then indentation (S level) else [])
                                   ++ put hex fmt' (S level) k ++ (if fmt' then nl else [])) kids
             ++ (if fmt' then indentation level else []) ++ "</" ++ name ++ ">"
         end
  end.

(** ** Documents *)
(** The comments and processing instructions before and after the root element *)
Definition outer (l : list xnode) : list node :=
  flat_map (fun x => match x with
                     | XComment s => [Cmt s]
                     | XPI s => if str_eqb (pi_target s) "xml" then [] else [Pin s]
                     | _ => [] end) l.
(** the root element ends the prolog *)
Definition is_element (x : xnode) : bool := match x with XElem _ _ _ => true | _ => false end.
(** the comments and processing instructions before and after the root element *)
Definition surroundings (s : str) : list node * list node :=
  let items := rev (done_ (run init (skip_bom s))) in
  (outer (take_while (fun x => negb (is_element x)) items),
   outer (tl (drop_while (fun x => negb (is_element x)) items))).

(** anonymize.py:117, format.py:13 *)
Definition doctype : str := "<?xml version=""1.0"" encoding=""UTF-8""?>".
(** _writeNodeToBuffer with pretty_print: the text given as doctype, the nodes
    before the root element, the root element, the nodes after it. *)
Definition write_document (ascii hex : bool) (before after : list node) (root : node) : str :=
  in_charset ascii
    (doctype ++ nl ++ flat_map (fun n => put hex true 0 n ++ nl) before
     ++ put hex true 0 root
     ++ flat_map (fun n => nl ++ put hex true 0 n) after ++ nl).

(** ** remove_blank_text: [areBlanks]

    White space between two pieces of markup is dropped, unless the element has
    no other content or its content begins with (kept) text. *)
Definition blank_char (c : N) : bool := N.eqb c 32 || N.eqb c 9 || N.eqb c 10.
(** runs of white space between markup are dropped *)
Fixpoint drop_blank_runs (run : str) (l : list node) : list node :=
  let kept := if forallb blank_char run then [] else map Chr (rev run) in
  match l with
  | [] => kept
  | Chr c :: l' => drop_blank_runs (c :: run) l'
  | n :: l' => kept ++ n :: drop_blank_runs [] l'
  end.
(** the content of one element (xmlSAX2, areBlanks) *)
Definition unblank_kids (kids : list node) : list node :=
  if forallb is_chr kids then kids
  else if forallb blank_char (lead kids) then drop_blank_runs [] kids
  else kids.
(** xml:space *)
Definition preserves (inherited : bool) (attrs : list attr) : bool :=
  match find (fun a => match a_ns a with Some (Some p, _) => str_eqb p "xml" && str_eqb (a_local a) "space" | _ => false end) attrs with
  | Some a => if str_eqb (a_val a) "preserve" then true
              else if str_eqb (a_val a) "default" then false else inherited
  | None => inherited
  end.
(** the whole tree, format.py:9 *)
Fixpoint unblank (preserve : bool) (n : node) : node :=
  match n with
  | El ns l defs inh attrs kids =>
      let p := preserves preserve attrs in
      let ks := map (unblank p) kids in
      El ns l defs inh attrs (if p then ks else unblank_kids ks)
  | _ => n
  end.

(** ** The two uses *)
(** [doc.encoding == NULL] *)
Definition no_encoding (decl : option str) : bool :=
  match decl_encoding decl with Some _ => false | None => true end.
(** The text of the document: bytes read as the declared encoding says; see
    [Utf8.etree_parse] *)
Definition document_text (content : str) : str :=
  match read_text content with
  | Some d =>
      match decl_encoding (d_decl d) with
      | Some e => if str_eqb (upper e) "ISO-8859-1"
                  then match utf8_encode content with Some b => b | None => content end
                  else content
      | None => content
      end
  | None => content
  end.
(** tostring of the tree parsed from [content] whose root has become [root],
    anonymize.py:112-120 *)
Definition tostring (content : str) (decl : option str) (root : node) : str :=
  let (before, after) := surroundings (document_text content) in
  write_document false (no_encoding decl) before after root.
(** A document read by lxml: the text in the encoding it declares *)
Definition read_document (text : str) : option (option str * node) :=
  match read_text text with
  | None => None
  | Some d => match resolve [] (d_root d) with
              | Some r => Some (d_decl d, r)
              | None => None
              end
  end.
(** The text of a file: etree.parse of a path decodes the bytes as the XML
    declaration says.  Simplified: the declaration is looked for in the bytes read
    as UTF-8 if they can be, else as ISO-8859-1; other encodings than in
    [Utf8.etree_parse] are refused. *)
Definition file_text (raw : bytes) : option str :=
  match utf8_decode raw with
  | Some text =>
      match read_text text with
      | None => None
      | Some d =>
          match decl_encoding (d_decl d) with
          | None => Some text
          | Some e =>
              if str_eqb (upper e) "UTF-8" then Some text
              else if str_eqb (upper e) "US-ASCII" || str_eqb (upper e) "ASCII" then
                     if forallb (fun c => N.ltb c 128) raw then Some text else None
              else if str_eqb (upper e) "ISO-8859-1" then Some raw
              else None
          end
      end
  | None =>
      match read_text raw with
      | None => None
      | Some d =>
          match decl_encoding (d_decl d) with
          | Some e => if str_eqb (upper e) "ISO-8859-1" then Some raw else None
          | None => None
          end
      end
  end.
(** etree.parse with remove_blank_text and tree.write, format.py:9-15, from text to
    text.  The encoding of the written file is the default of tree.write, ASCII. *)
Definition format_text (text : str) : result str :=
  match read_document text with
  | None => Raise EXMLSyntaxError
  | Some (decl, root) =>
      let (before, after) := surroundings text in
      Ok (write_document true (no_encoding decl) before after (unblank false root))
  end.
(** the same, from file to file; text in ASCII is the same as its bytes *)
Definition format_bytes (raw : bytes) : result bytes :=
  match file_text raw with
  | None => Raise EXMLSyntaxError
  | Some text => format_text text
  end.
