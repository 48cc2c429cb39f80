(** SpecSchema.v -- what a ReqIFSchema should find, in terms of the lists of the
    bundle *)
From Verif Require Import Base Py Models SpecLookup SpecTraversal.

(** all attribute definitions of the SPEC-OBJECT-TYPEs, in document order *)
Definition all_attribute_definitions (b : bundle) : list attr_def :=
  flat_map (fun t => olist (sot_attribute_definitions t)) (object_types (spec_types_of b)).
(** the bundle has everything the constructor insists on *)
Definition complete (b : bundle) : Prop :=
  exists c ts ds, b_core_content b = Some (Some c) /\ rc_spec_types c = Some ts /\ rc_data_types c = Some ds
    /\ forall t, In t (object_types ts) -> sot_long_name t <> None /\ sot_attribute_definitions t <> None.
(** [out] lists the distinct elements of [l], ordered by first appearance:
    [l] is grouped as x1 (repeats of x1) x2 (repeats of x1, x2) ... *)
Inductive distinct_in_order {A} : list A -> list A -> Prop :=
| dio_nil : distinct_in_order [] []
| dio_new l out x : distinct_in_order l out -> ~ In x l -> distinct_in_order (l ++ [x]) (out ++ [x])
| dio_old l out x : distinct_in_order l out -> In x l -> distinct_in_order (l ++ [x]) out.
