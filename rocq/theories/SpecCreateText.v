(** SpecCreateText.v -- the text of a document that a program asks for, line by line *)
From Verif Require Import Base Models SpecEscape SpecXhtml SpecCreate.

Definition line (indent : nat) (s : str) : str := repeat 32%N indent ++ s ++ nl.
Definition maybe_attribute (name : str) (o : option str) : str :=
  match o with Some v => " " ++ name ++ "=""" ++ v ++ """" | None => [] end.
Definition kind_name (k : attr_type) : str :=
  match k with
  | AT_STRING => "STRING" | AT_ENUMERATION => "ENUMERATION" | AT_INTEGER => "INTEGER" | AT_REAL => "REAL"
  | AT_BOOLEAN => "BOOLEAN" | AT_DATE => "DATE" | AT_XHTML => "XHTML"
  end.
(** <t>s</t> *)
Definition around (t s : str) : str := "<" ++ t ++ ">" ++ s ++ "</" ++ t ++ ">".

Definition enum_value_lines (v : str * str) : str :=
  line 12 ("<ENUM-VALUE IDENTIFIER=""" ++ fst v ++ """>")
  ++ line 14 "<PROPERTIES>" ++ line 16 ("<EMBEDDED-VALUE KEY=""" ++ snd v ++ """/>") ++ line 14 "</PROPERTIES>"
  ++ line 12 "</ENUM-VALUE>".
Definition data_type_lines (q : ask_data_type) : str :=
  match q with
  | AskString i => line 8 ("<DATATYPE-DEFINITION-STRING IDENTIFIER=""" ++ i ++ """/>")
  | AskBoolean i => line 8 ("<DATATYPE-DEFINITION-BOOLEAN IDENTIFIER=""" ++ i ++ """/>")
  | AskEnumeration i vs =>
      line 8 ("<DATATYPE-DEFINITION-ENUMERATION IDENTIFIER=""" ++ i ++ """>")
      ++ (match vs with
          | Some l => line 10 "<SPECIFIED-VALUES>" ++ concat (map enum_value_lines l) ++ line 10 "</SPECIFIED-VALUES>"
          | None => []
          end)
      ++ line 8 "</DATATYPE-DEFINITION-ENUMERATION>"
  end.

(** Names and descriptions are escaped, identifiers and dates are not. *)
Definition definition_lines (q : ask_definition) : str :=
  let tag := "ATTRIBUTE-DEFINITION-" ++ kind_name (ask_kind q) in
  line 12 ("<" ++ tag ++ " IDENTIFIER=""" ++ ask_definition_id q ++ """"
           ++ maybe_attribute "LONG-NAME" (option_map (substitute lxml_table) (ask_definition_name q))
           ++ maybe_attribute "MULTI-VALUED" (option_map (fun b : bool => if b then "true" : str else "false" : str) (ask_multi q)) ++ ">")
  ++ line 14 "<TYPE>" ++ line 16 (around ("DATATYPE-DEFINITION-" ++ kind_name (ask_kind q) ++ "-REF") (ask_data_type_ref q)) ++ line 14 "</TYPE>"
  ++ line 12 ("</" ++ tag ++ ">").
Definition type_lines (q : ask_type) : str :=
  line 8 ("<SPEC-OBJECT-TYPE" ++ maybe_attribute "DESC" (option_map (substitute lxml_table) (ask_type_desc q))
          ++ " IDENTIFIER=""" ++ ask_type_id q ++ """" ++ maybe_attribute "LAST-CHANGE" (ask_type_change q)
          ++ maybe_attribute "LONG-NAME" (option_map (substitute lxml_table) (ask_type_name q)) ++ ">")
  ++ (match ask_definitions q with
      | Some l => line 10 "<SPEC-ATTRIBUTES>" ++ concat (map definition_lines l) ++ line 10 "</SPEC-ATTRIBUTES>"
      | None => []
      end)
  ++ line 8 "</SPEC-OBJECT-TYPE>".

Definition referring (k : attr_type) (r : str) : str :=
  line 14 "<DEFINITION>" ++ line 16 (around ("ATTRIBUTE-DEFINITION-" ++ kind_name k ++ "-REF") r) ++ line 14 "</DEFINITION>".
Definition value_lines (q : ask_value) : str :=
  match q with
  | AskText r v =>
      line 12 ("<ATTRIBUTE-VALUE-STRING THE-VALUE=""" ++ substitute markup_table v ++ """>") ++ referring AT_STRING r ++ line 12 "</ATTRIBUTE-VALUE-STRING>"
  | AskPlain k r v =>
      line 12 ("<ATTRIBUTE-VALUE-" ++ kind_name k ++ " THE-VALUE=""" ++ v ++ """>") ++ referring k r ++ line 12 ("</ATTRIBUTE-VALUE-" ++ kind_name k ++ ">")
  | AskXhtml r f =>
      line 12 "<ATTRIBUTE-VALUE-XHTML>" ++ referring AT_XHTML r ++ line 14 (around "THE-VALUE" (show "xhtml" f)) ++ line 12 "</ATTRIBUTE-VALUE-XHTML>"
  | AskChoice r l =>
      line 12 "<ATTRIBUTE-VALUE-ENUMERATION>"
      ++ line 14 "<VALUES>"
      ++ (match l with [] => line 0 [] | _ => concat (map (fun x => line 16 (around "ENUM-VALUE-REF" x)) l) end)
      ++ line 14 "</VALUES>" ++ referring AT_ENUMERATION r ++ line 12 "</ATTRIBUTE-VALUE-ENUMERATION>"
  end.
Definition object_lines (q : ask_object) : str :=
  line 8 ("<SPEC-OBJECT IDENTIFIER=""" ++ ask_object_id q ++ """>")
  ++ (match ask_values q with
      | [] => line 10 "<VALUES/>"
      | l => line 10 "<VALUES>" ++ concat (map value_lines l) ++ line 10 "</VALUES>"
      end)
  ++ line 10 "<TYPE>" ++ line 12 (around "SPEC-OBJECT-TYPE-REF" (ask_object_type q)) ++ line 10 "</TYPE>"
  ++ line 8 "</SPEC-OBJECT>".

Definition document_lines (ds : list ask_data_type) (ts : list ask_type) (os : list ask_object) : str :=
  line 0 "<?xml version=""1.0"" encoding=""UTF-8""?>"
  ++ line 0 "<REQ-IF xmlns=""http://www.omg.org/spec/ReqIF/20110401/reqif.xsd"" xmlns:xhtml=""http://www.w3.org/1999/xhtml"">"
  ++ line 2 "<CORE-CONTENT>" ++ line 4 "<REQ-IF-CONTENT>"
  ++ line 6 "<DATATYPES>" ++ concat (map data_type_lines ds) ++ line 6 "</DATATYPES>"
  ++ line 6 "<SPEC-TYPES>" ++ concat (map type_lines ts) ++ line 6 "</SPEC-TYPES>"
  ++ line 6 "<SPEC-OBJECTS>" ++ concat (map object_lines os) ++ line 6 "</SPEC-OBJECTS>"
  ++ line 4 "</REQ-IF-CONTENT>" ++ line 2 "</CORE-CONTENT>"
  ++ line 0 "</REQ-IF>".
(** values of the kinds that are written as they are *)
Definition plain_kinds (q : ask_object) : Prop :=
  forall k r v, In (AskPlain k r v) (ask_values q) -> In k [AT_INTEGER; AT_REAL; AT_BOOLEAN; AT_DATE].
