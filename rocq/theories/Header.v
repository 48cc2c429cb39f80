(** Header.v -- parsers/header_parser.py *)
From Verif Require Import Base Xml Lxml Py LxmlStr Models AttrDef.

(** xml.find(t), then .text when it is found (header_parser.py:30-59) *)
Definition child_text (t : str) (n : node) : option str :=
  match find_child t n with Some x => text x | None => None end.

(** ReqIFHeaderParser.parse, header_parser.py:8-70 *)
Definition parse_header (n : node) : result header :=
  let! _ := py_assert (tag_is "THE-HEADER" n) in
  match find_child "REQ-IF-HEADER" n with
  | None => Raise ENotImplementedError
  | Some h =>
      let! identifier := or_not_impl (attr_req "IDENTIFIER" h) in
      let repository_id :=
        match find_child "REPOSITORY-ID" h with
        | None => RepoNone
        | Some x => match text x with Some s => RepoStr s | None => RepoEmptyTag end
        end in
      Ok (Header (Some identifier) (child_text "COMMENT" h) (child_text "CREATION-TIME" h)
            repository_id (child_text "REQ-IF-TOOL-ID" h) (child_text "REQ-IF-VERSION" h)
            (child_text "SOURCE-TOOL-ID" h) (child_text "TITLE" h))
  end.

(** [f"      <T>{esc(v)}</T>\n"] when v is truthy (header_parser.py:81-107) *)
Definition text_elem (t : str) (esc : str -> str) (v : option str) : str :=
  match v with
  | Some (c :: s) => "      <" ++ t ++ ">" ++ esc (c :: s) ++ "</" ++ t ++ ">" ++ nl
  | _ => []
  end.

(** ReqIFHeaderParser.unparse, header_parser.py:72-115 *)
Definition unparse_header (h : header) : result str :=
  match hd_identifier h with
  | Some (c :: s) => Ok (
      "  <THE-HEADER>" ++ nl
      ++ "    <REQ-IF-HEADER IDENTIFIER=""" ++ (c :: s) ++ """>" ++ nl
      ++ text_elem "COMMENT" (fun x => x) (hd_comment h)
      ++ text_elem "CREATION-TIME" (fun x => x) (hd_creation_time h)
      ++ (match hd_repository_id h with
          | RepoNone => []
          | RepoStr r => "      <REPOSITORY-ID>" ++ r ++ "</REPOSITORY-ID>" ++ nl
          | RepoEmptyTag => "      <REPOSITORY-ID/>" ++ nl end)
      ++ text_elem "REQ-IF-TOOL-ID" (fun x => x) (hd_req_if_tool_id h)
      ++ text_elem "REQ-IF-VERSION" (fun x => x) (hd_req_if_version h)
      ++ text_elem "SOURCE-TOOL-ID" (fun x => x) (hd_source_tool_id h)
      ++ text_elem "TITLE" lxml_escape_title (hd_title h)
      ++ "    </REQ-IF-HEADER>" ++ nl
      ++ "  </THE-HEADER>" ++ nl)
  | _ => Raise ENotImplementedError
  end.
