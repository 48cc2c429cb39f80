(** AnonymizeShared.v -- commands/anonymize/anonymize.py:122-143 in the memory of
    Alias.v: the objects are changed in place. *)
From Verif Require Import Base Py Models Alias AnonymizeObjects.

(** [for attribute in spec_object.attributes], anonymize.py:125; [r] refers to the object *)
Definition attribute_refs (p : place spec_attr spec_object) (r : ref) : list ref :=
  match nth_error (p_cells p) r with
  | Some x => match c_items x with Some ras => ras | None => [] end
  | None => []
  end.
(** _anonymize_attribute, anonymize.py:137-143, on the attribute that [ra] refers
    to (every reference refers to something) *)
Definition anonymize_attribute_at (p : place spec_attr spec_object) (ra : ref) : place spec_attr spec_object :=
  match nth_error (p_items p) ra with
  | Some a => edit_item p ra (anonymize_attribute a)
  | None => p
  end.
(** _anonymize_spec_objects, anonymize.py:122-126; [rs] refers to the objects of the argument *)
Definition anonymize_objects_at (p : place spec_attr spec_object) (rs : list ref) : place spec_attr spec_object :=
  fold_left (fun p r => fold_left anonymize_attribute_at (attribute_refs p r) p) rs p.
(** The call [_anonymize_spec_objects(l)], anonymize.py:122-126, by a program that
    holds a parsed document *)
Definition anonymize_in_place (b : shared_bundle) (rs : list ref) : shared_bundle :=
  on_spec_objects b (anonymize_objects_at (hb_spec_objects b) rs).
