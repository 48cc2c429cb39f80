(** SpecLog.v -- which elements of a document passthrough has to announce *)
From Verif Require Import Base Xml Lxml Py Models SpecTraversal SpecParse SpecLookup SpecProgress.

(** What can be written inside a SPEC-OBJECT *)
Definition written_child (k : node) : bool :=
  match tag k with Some t => str_eqb t "VALUES" || str_eqb t "TYPE" | None => false end.
(** The children that are not written; comments count, their tag is [None]. *)
Definition lost_children (n : node) : list (option str) :=
  map tag (filter (fun k => negb (written_child k)) (children n)).
(** An object made by hand has no element. *)
Definition lost_of_object (o : spec_object) : list (option str) :=
  match so_xml_node o with Some n => lost_children n | None => [] end.
Definition lost_of_bundle (b : bundle) : list (option str) :=
  flat_map lost_of_object (b_list rc_spec_objects b).
(** The SPEC-OBJECT elements of a document *)
Definition document_objects (s : str) : list node :=
  match document_content s with
  | Some rc => match section_items "SPEC-OBJECTS" rc with Some ks => no_comments ks | None => [] end
  | None => []
  end.
(** [l] is an initial part of [l'] *)
Definition starts {A} (l l' : list A) : Prop := exists rest, l' = l ++ rest.

(** A bundle cut off before its SPEC-OBJECTS *)
Definition cut_before_objects (b : bundle) : bundle :=
  Bundle (b_namespace_info b) (b_header b)
    (option_map (option_map (fun c => Content (rc_data_types c) (rc_spec_types c) None None None None)) (b_core_content b))
    (b_tool_extensions b) (b_lookup b) (b_exceptions b).
