(** SpecValidate.v -- which warnings a parsed document deserves *)
From Verif Require Import Base Xml Lxml Py Models SpecTraversal SpecLookup Validate.

(** The document has a SPEC-OBJECT with this identifier. *)
Definition refers (b : bundle) (r : option str) : bool :=
  existsb (fun o => ostr_eqb (Some (so_identifier o)) r) (spec_objects_of b).
(** One warning per end of a relation that refers to no object. *)
Definition relation_warnings (b : bundle) (r : spec_relation) : list semantic_error :=
  (if refers b (sr_source r) then [] else [RelationMissing (sr_xml_node r) "SOURCE" (sr_source r)])
  ++ (if refers b (sr_target r) then [] else [RelationMissing (sr_xml_node r) "TARGET" (sr_target r)]).
(** One warning per hierarchy node that refers to no object. *)
Definition node_warnings (b : bundle) (h : hier) : list semantic_error :=
  if refers b (h_spec_object h) then [] else [HierarchyMissing (h_xml_node h) (h_spec_object h)].
(** [nodes]: all hierarchy nodes of the document, specification by specification,
    each in document order. *)
Definition all_nodes (b : bundle) (nodes : list hier) : Prop :=
  exists per_spec : list (list hier),
    Forall2 (fun sp l => document_order (olist (sp_children sp)) l) (specifications_of b) per_spec
    /\ nodes = concat per_spec.
(** Warnings about the document as such. *)
Definition general_warnings (b : bundle) : list semantic_error :=
  (if ni_doctype_is_present (b_namespace_info b) then [] else [MissingDeclaration])
  ++ (if str_eqb (ni_encoding (b_namespace_info b)) "UTF-8" then [] else [WrongEncoding]).
(** no reference of the document is dangling *)
Definition no_dangling (b : bundle) (nodes : list hier) : Prop :=
  (forall r, In r (relations_of b) -> refers b (sr_source r) = true /\ refers b (sr_target r) = true)
  /\ (forall h, In h nodes -> refers b (h_spec_object h) = true).
