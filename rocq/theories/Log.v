(** Log.v -- the warnings that are logged while a bundle is written:
    logger.warning("Unknown child tag: %s.", child_tag), spec_object_parser.py:83.
    The parser logs at level DEBUG only (parser.py:345), which the command line
    tool does not show (main.py:53). *)
From Verif Require Import Base Xml Utf8 Lxml Py LxmlStr Models AttrDef AttrValue SpecObj SpecTypes Header Unparser Zip.

(** The tags in the warnings of the loop over children_tags,
    spec_object_parser.py:75-83.  [None]: the tag of a comment or a processing
    instruction, which is a function in lxml.  A failure ends the loop. *)
Fixpoint log_children (o : spec_object) (tags : list (option str)) : list (option str) :=
  match tags with
  | [] => []
  | t :: tags' =>
      if ostr_eqb t (Some "VALUES") || ostr_eqb t (Some "TYPE")
      then match unparse_so_child o t with Ok _ => log_children o tags' | Raise _ => [] end
      else t :: log_children o tags'
  end.
(** SpecObjectParser.unparse, spec_object_parser.py:52-87 *)
Definition log_spec_object (o : spec_object) : list (option str) :=
  let tags := tags_or (so_xml_node o) ["VALUES"; "TYPE"] in
  if ostr_mem (Some "VALUES") tags && ostr_mem (Some "TYPE") tags then log_children o tags else [].
(** unparser.py:80-88 *)
Fixpoint log_spec_objects (l : list spec_object) : list (option str) :=
  match l with
  | [] => []
  | o :: l' => log_spec_object o ++ match unparse_spec_object o with Ok _ => log_spec_objects l' | Raise _ => [] end
  end.
(** does the writer return? *)
Definition goes_well {A} (r : result A) : bool := match r with Ok _ => true | Raise _ => false end.
(** ReqIFUnparser.unparse, unparser.py:33-134, without a progress callback; what is
    written before the SPEC-OBJECTS may fail *)
Definition unparse_log (b : bundle) : list (option str) :=
  match b_core_content b with
  | Some (Some c) =>
      if goes_well (unparse_namespace_info (b_namespace_info b))
         && match b_header b with None => true | Some h => goes_well (unparse_header h) end
         && match rc_spec_types c with None => true | Some l => goes_well (mapM unparse_spec_type l) end
      then match rc_spec_objects c with None => [] | Some l => log_spec_objects l end
      else []
  | _ => []
  end.
(** ReqIFZUnparser.unparse, unparser.py:178-212 *)
Fixpoint zip_log (l : dict bundle) : list (option str) :=
  match l with
  | [] => []
  | (_, b) :: l' =>
      unparse_log b
      ++ match unparse_string b with
         | Ok s => match utf8_encode s with Some _ => zip_log l' | None => [] end
         | Raise _ => []
         end
  end.
