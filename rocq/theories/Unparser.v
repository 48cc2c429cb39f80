(** Unparser.v -- reqif/unparser.py, class ReqIFUnparser *)
From Verif Require Import Base Xml Utf8 Lxml Py LxmlStr Models AttrDef DataType Header
  AttrValue SpecObj Hierarchy SpecTypes Progress.

(** [f'NAME="{v}"'] components, unparser.py:145-167 *)
Definition component (name : str) (v : option str) : list str :=
  match v with Some s => [name ++ "=""" ++ s ++ """"] | None => [] end.

(** unparse_namespace_info, unparser.py:136-174 *)
Definition unparse_namespace_info (i : namespace_info) : result str :=
  match ni_dump i with
  | Some d => Ok (d ++ nl)
  | None =>
      let components :=
        component "xmlns" (ni_namespace i)
        ++ component "xmlns:xsi" (ni_schema_namespace i)
        ++ component "xmlns:configuration" (ni_configuration i)
        ++ component "xmlns:id" (ni_namespace_id i)
        ++ component "xmlns:xhtml" (ni_namespace_xhtml i)
        ++ component "xsi:schemaLocation" (ni_schema_location i)
        ++ component "xml:lang" (ni_language i) in
      match components with
      | [] => Raise EAssertionError
      | _ => Ok ("<REQ-IF " ++ join " " components ++ ">" ++ nl)
      end
  end.

(** output += unparse(x) *)
Definition append_body {A} (f : A -> result str) (x : A) (out : str) : result str :=
  let! s := f x in Ok (out ++ s).

(** One container section of unparse, e.g. unparser.py:51-57 *)
Definition unparse_section {A} (cb : callback) (t : str) (f : A -> result str)
           (o : option (list A)) (out : str) : M str :=
  match o with
  | None => ret out
  | Some l =>
      do! out' := track cb t l (append_body f) (out ++ "      <" ++ t ++ ">" ++ nl) in
      ret (out' ++ "      </" ++ t ++ ">" ++ nl)
  end.

(** unparser.py:49-126 *)
Definition unparse_content (cb : callback) (c : content) (out : str) : M str :=
  do! out := ret (out ++ "    <REQ-IF-CONTENT>" ++ nl) in
  do! out := unparse_section cb "DATATYPES" (fun d => Ok (unparse_data_type d))
                             (rc_data_types c) out in
  do! out := unparse_section cb "SPEC-TYPES" unparse_spec_type (rc_spec_types c) out in
  do! out := unparse_section cb "SPEC-OBJECTS" unparse_spec_object (rc_spec_objects c) out in
  do! out := unparse_section cb "SPEC-RELATIONS" unparse_spec_relation (rc_spec_relations c) out in
  do! out := unparse_section cb "SPECIFICATIONS" unparse_specification (rc_specifications c) out in
  do! out := unparse_section cb "SPEC-RELATION-GROUPS" (fun g => Ok (unparse_relation_group g))
                             (rc_spec_relation_groups c) out in
  ret (out ++ "    </REQ-IF-CONTENT>" ++ nl).

(** ReqIFUnparser.unparse, unparser.py:33-134 *)
Definition unparse (cb : callback) (b : bundle) : M str :=
  let out := "<?xml version=""1.0"" encoding=""UTF-8""?>" ++ nl in
  do! ns := lift (unparse_namespace_info (b_namespace_info b)) in
  let out := out ++ ns in
  do! out := match b_header b with
             | None => ret out
             | Some h => do! s := lift (unparse_header h) in ret (out ++ s)
             end in
  do! out := match b_core_content b with
             | None => ret out
             | Some oc =>
                 do! out := ret (out ++ "  <CORE-CONTENT>" ++ nl) in
                 do! out := match oc with
                            | None => ret out
                            | Some c => unparse_content cb c out
                            end in
                 ret (out ++ "  </CORE-CONTENT>" ++ nl)
             end in
  let out := out ++ (if b_tool_extensions b
                     then "  <TOOL-EXTENSIONS>" ++ nl ++ "  </TOOL-EXTENSIONS>" ++ nl
                     else []) in
  ret (out ++ "</REQ-IF>" ++ nl).

(** unparse without a callback, as a plain function. *)
Definition unparse_string (b : bundle) : result str := snd (unparse None b []).
