(** SpecLookup.v -- what the lookups of a bundle should answer, in terms of the
    lists an API user can iterate over. *)
From Verif Require Import Base Py Models.

(** The lists of a bundle; absent content or an absent section count as empty. *)
Definition bundle_content (b : bundle) : option content :=
  match b_core_content b with Some (Some c) => Some c | _ => None end.
Definition olist {A} (o : option (list A)) : list A := match o with Some l => l | None => [] end.
Definition b_list {A} (f : content -> option (list A)) (b : bundle) : list A :=
  match bundle_content b with Some c => olist (f c) | None => [] end.
Definition data_types_of : bundle -> list data_type := b_list rc_data_types.
Definition spec_types_of : bundle -> list spec_type := b_list rc_spec_types.
Definition spec_objects_of : bundle -> list spec_object := b_list rc_spec_objects.
Definition relations_of : bundle -> list spec_relation := b_list rc_spec_relations.
Definition specifications_of : bundle -> list specification := b_list rc_specifications.
Definition groups_of : bundle -> list relation_group := b_list rc_spec_relation_groups.

(** The TARGETs of the relations whose SOURCE is [r], in document order. *)
Definition targets_from (r : option str) (l : list spec_relation) : list (option str) :=
  map sr_target (filter (fun x => ostr_eqb (sr_source x) r) l).

(** The SPEC-OBJECT-TYPEs among the spec types. *)
Fixpoint object_types (l : list spec_type) : list spec_object_type :=
  match l with
  | [] => []
  | STObject t :: l' => t :: object_types l'
  | _ :: l' => object_types l'
  end.
