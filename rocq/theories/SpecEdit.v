(** SpecEdit.v -- editing one section of a bundle *)
From Verif Require Import Base Py Models.

(** the bundle [b] whose content is [c] with one section replaced *)
Definition put_content (b : bundle) (c : content) : bundle :=
  Bundle (b_namespace_info b) (b_header b) (Some (Some c)) (b_tool_extensions b) (b_lookup b) (b_exceptions b).
Definition put_header (b : bundle) (o : option header) : bundle :=
  Bundle (b_namespace_info b) o (b_core_content b) (b_tool_extensions b) (b_lookup b) (b_exceptions b).
Definition put_data_types b c l : bundle :=
  put_content b (Content (Some l) (rc_spec_types c) (rc_spec_objects c) (rc_spec_relations c) (rc_specifications c)
                         (rc_spec_relation_groups c)).
Definition put_spec_types b c l : bundle :=
  put_content b (Content (rc_data_types c) (Some l) (rc_spec_objects c) (rc_spec_relations c) (rc_specifications c)
                         (rc_spec_relation_groups c)).
Definition put_spec_objects b c l : bundle :=
  put_content b (Content (rc_data_types c) (rc_spec_types c) (Some l) (rc_spec_relations c) (rc_specifications c)
                         (rc_spec_relation_groups c)).
Definition put_spec_relations b c l : bundle :=
  put_content b (Content (rc_data_types c) (rc_spec_types c) (rc_spec_objects c) (Some l) (rc_specifications c)
                         (rc_spec_relation_groups c)).
Definition put_specifications b c l : bundle :=
  put_content b (Content (rc_data_types c) (rc_spec_types c) (rc_spec_objects c) (rc_spec_relations c) (Some l)
                         (rc_spec_relation_groups c)).
Definition put_relation_groups b c l : bundle :=
  put_content b (Content (rc_data_types c) (rc_spec_types c) (rc_spec_objects c) (rc_spec_relations c)
                         (rc_specifications c) (Some l)).

(** [xt] are the texts of the items [xs] *)
Definition written {A} (write : A -> result str) : list A -> list str -> Prop :=
  Forall2 (fun x s => write x = Ok s).
(** [put xs] is a bundle with the items [xs] somewhere in it; [text] writes
    bundles, [write] writes items.  If such a bundle can be written, then its
    text has a place for the items: putting other items there changes the text
    in that place and nowhere else, and fails only as the items themselves fail. *)
Definition local {A} (text : bundle -> result str) (write : A -> result str) (put : list A -> bundle) : Prop :=
  forall xs t, text (put xs) = Ok t ->
    exists pre post xt, written write xs xt /\ t = pre ++ concat xt ++ post
      /\ (forall ys yt, written write ys yt -> text (put ys) = Ok (pre ++ concat yt ++ post))
      /\ (forall a at_ y rest e, written write a at_ -> write y = Raise e -> text (put (a ++ y :: rest)) = Raise e).
