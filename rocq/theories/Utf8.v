(** Utf8.v -- Python's UTF-8 codec ([bytes(s, "UTF-8")], [s.encode("UTF-8")],
    [b.decode("UTF-8")]: parser.py:96, parser.py:410, passthrough.py:42,
    zipfile.writestr on a str).  Bytes are numbers below 256. *)
From Verif Require Import Base Xml.

(** Python [bytes] *)
Definition bytes := list N.

(** Unicode scalar values: no surrogates *)
Definition is_scalar (c : N) : bool :=
  N.ltb c 55296 || (N.leb 57344 c && N.leb c 1114111).

(** one character in UTF-8, RFC 3629, section 3 *)
Definition enc_char (c : N) : bytes :=
  if N.ltb c 128 then [c]
  else if N.ltb c 2048 then [192 + c / 64; 128 + c mod 64]%N
  else if N.ltb c 65536 then
         [224 + c / 4096; 128 + (c / 64) mod 64; 128 + c mod 64]%N
  else [240 + c / 262144; 128 + (c / 4096) mod 64;
        128 + (c / 64) mod 64; 128 + c mod 64]%N.

(** Encoding; a surrogate or out-of-range code point is an error. *)
Definition utf8_encode (s : str) : option bytes :=
  if forallb is_scalar s then Some (flat_map enc_char s) else None.

(** continuation bytes *)
Definition is_cont (b : N) : bool := N.leb 128 b && N.leb b 191.

(** Strict decoding: overlong forms, surrogates and values above U+10FFFF are
    errors. *)
Fixpoint utf8_decode (b : bytes) : option str :=
  match b with
  | [] => Some []
  | b0 :: r0 =>
      if N.ltb b0 128 then option_map (cons b0) (utf8_decode r0)
      else if N.leb 194 b0 && N.leb b0 223 then
        match r0 with
        | b1 :: r1 =>
            if is_cont b1
            then option_map (cons ((b0 - 192) * 64 + (b1 - 128))%N) (utf8_decode r1)
            else None
        | _ => None
        end
      else if N.leb 224 b0 && N.leb b0 239 then
        match r0 with
        | b1 :: b2 :: r2 =>
            let c := ((b0 - 224) * 4096 + (b1 - 128) * 64 + (b2 - 128))%N in
            if is_cont b1 && is_cont b2 && N.leb 2048 c && is_scalar c
            then option_map (cons c) (utf8_decode r2) else None
        | _ => None
        end
      else if N.leb 240 b0 && N.leb b0 244 then
        match r0 with
        | b1 :: b2 :: b3 :: r3 =>
            let c := ((b0 - 240) * 262144 + (b1 - 128) * 4096
                      + (b2 - 128) * 64 + (b3 - 128))%N in
            if is_cont b1 && is_cont b2 && is_cont b3 && N.leb 65536 c && is_scalar c
            then option_map (cons c) (utf8_decode r3) else None
        | _ => None
        end
      else None
  end.

(** ASCII upper-casing, for encoding names. *)
Definition upper (s : str) : str :=
  map (fun c => if N.leb 97 c && N.leb c 122 then (c - 32)%N else c) s.

(** [etree.parse(io.BytesIO(bytes(content, "UTF-8")))] (parser.py:96,
    anonymize.py:54).  The declared encoding decides how the UTF-8 bytes are
    read: declared UTF-8 (or ASCII, or nothing) reads the text itself; declared
    ISO-8859-1 reads every byte as one character.  Simplified: any other
    declared encoding is treated as unreadable. *)
Definition etree_parse (content : str) : option xdoc :=
  match read_text content with
  | None => None
  | Some d =>
      match decl_encoding (d_decl d) with
      | None => Some d
      | Some e =>
          if str_eqb (upper e) "UTF-8" then Some d
          else if str_eqb (upper e) "US-ASCII" || str_eqb (upper e) "ASCII" then
                 if forallb (fun c => N.ltb c 128) content then Some d else None
          else if str_eqb (upper e) "ISO-8859-1" then
                 match utf8_encode content with
                 | Some b => read_text b
                 | None => None
                 end
          else None
      end
  end.
