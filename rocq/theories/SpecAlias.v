(** SpecAlias.v -- editing the objects of a parsed document in place *)
From Verif Require Import Base Py Models Progress Unparser Alias SpecEdit.

(** The three kinds of objects that contain a list of items: how to read the
    items, the same object with other items, the key of an item in the map of
    the object, whether the object has such a map, and the key of the object in
    the lookup. *)
Definition object_shape : kind spec_attr spec_object :=
  Kind (fun o => Some (so_attributes o))
       (fun o items => match items with
                       | Some l => SpecObject (so_identifier o) l (so_spec_object_type o) (so_description o) (so_last_change o)
                                              (so_long_name o) (so_xml_node o)
                       | None => o
                       end)
       sa_definition_ref (fun _ => true) (fun o => Some (so_identifier o)).
Definition type_shape : kind attr_def spec_type :=
  Kind (fun t => match t with
                 | STObject (SpecObjectType _ _ _ _ l) => l
                 | STRelation (SpecRelationType _ _ _ _ _ l) => l
                 | STSpecification (SpecificationType _ _ _ _ l _ _) => l
                 | STGroup (RelationGroupType _ _ _ _ _ l) => l
                 end)
       (fun t l => match t with
                   | STObject t => STObject (SpecObjectType (sot_identifier t) (sot_description t) (sot_last_change t) (sot_long_name t) l)
                   | STRelation t => STRelation (SpecRelationType (srt_identifier t) (srt_description t) (srt_last_change t)
                                                   (srt_long_name t) (srt_is_self_closed t) l)
                   | STSpecification t => STSpecification (SpecificationType (spt_identifier t) (spt_description t) (spt_last_change t)
                                                   (spt_long_name t) l (spt_spec_attribute_map t) (spt_is_self_closed t))
                   | STGroup t => STGroup (RelationGroupType (rgt_identifier t) (rgt_description t) (rgt_last_change t)
                                                   (rgt_long_name t) (rgt_is_self_closed t) l)
                   end)
       (fun a => Some (ad_identifier a))
       (fun t => match t with STObject _ => true | STRelation _ | STSpecification _ | STGroup _ => false end)
       (fun t => Some match t with
                      | STObject t => sot_identifier t | STRelation t => srt_identifier t
                      | STSpecification t => spt_identifier t | STGroup t => rgt_identifier t end).
Definition data_shape : kind enum_value data_type :=
  Kind (fun d => match d with DTEnumeration _ l => l | _ => None end)
       (fun d l => match d with DTEnumeration c _ => DTEnumeration c l | _ => d end)
       (fun v => Some (ev_identifier v)) (fun _ => true)
       (fun d => Some (dt_identifier
          match d with
          | DTString c _ | DTBoolean c | DTInteger c _ _ | DTReal c _ _ _ | DTEnumeration c _ | DTXhtml c | DTDate c => c
          end)).

(** [f] assigns to own fields of an object: it neither reads nor changes the
    list of items. *)
Definition own_fields {I C} (k : kind I C) (f : C -> C) : Prop :=
  (forall c, k_items k (f c) = k_items k c) /\ (forall c x, f (k_put k c x) = k_put k (f c) x).

(** One thing a user does to the objects of a section: assign to own fields of
    any object, assign to fields of any item, append an item to the list of an
    object, append a new object to the list of the section (if there is one). *)
Inductive step {I C} (k : kind I C) (present : bool) (p : place I C) : place I C -> Prop :=
| step_own r f : own_fields k f -> step k present p (edit_own p r f)
| step_item r v : step k present p (edit_item p r v)
| step_append_item r v p' : append_item p r v = Ok p' -> step k present p p'
| step_append c : present = true -> step k present p (append_object k p c).

(** The bundles a user can have in hands: parsed from a text, then edited any number of times. *)
Inductive handled : shared_bundle -> Prop :=
| handled_parsed cb s h h' b : shared_parse cb s h = (h', Ok b) -> handled b
| handled_data_types b p : handled b -> step data_shape (has_list hc_data_types b) (hb_data_types b) p ->
    handled (on_data_types b p)
| handled_spec_types b p : handled b -> step type_shape (has_list hc_spec_types b) (hb_spec_types b) p ->
    handled (on_spec_types b p)
| handled_spec_objects b p : handled b -> step object_shape (has_list hc_spec_objects b) (hb_spec_objects b) p ->
    handled (on_spec_objects b p).

(** The bundle [b] with the lookup [lk]. *)
Definition put_lookup (b : bundle) (lk : lookup) : bundle :=
  Bundle (b_namespace_info b) (b_header b) (b_core_content b) (b_tool_extensions b) lk (b_exceptions b).
(** The bundle [b], whose content is [c], after one object was changed to [o]:
    the list of its section is now [l]; the lookup finds [o] under the keys in
    [keys], and is otherwise the same. *)
Definition found_under {V} (keys : list (option str)) (o : V) (d : dict V) : dict V :=
  fold_left (fun d key => dict_set d key o) keys d.
Definition data_types_now b c l keys o : bundle :=
  let lk := b_lookup b in
  put_lookup (put_data_types b c l)
    (Lookup (found_under keys o (lk_data_types lk)) (lk_spec_types lk) (lk_spec_objects lk) (lk_parents lk) (lk_parents_default lk)).
Definition spec_types_now b c l keys o : bundle :=
  let lk := b_lookup b in
  put_lookup (put_spec_types b c l)
    (Lookup (lk_data_types lk) (found_under keys o (lk_spec_types lk)) (lk_spec_objects lk) (lk_parents lk) (lk_parents_default lk)).
Definition spec_objects_now b c l keys o : bundle :=
  let lk := b_lookup b in
  put_lookup (put_spec_objects b c l)
    (Lookup (lk_data_types lk) (lk_spec_types lk) (found_under keys o (lk_spec_objects lk)) (lk_parents lk) (lk_parents_default lk)).

(** the keys under which a lookup finds the object [r] *)
Definition keys_of (d : dict ref) (r : ref) : list (option str) :=
  map fst (filter (fun e => Nat.eqb (snd e) r) d).
(** the references in the list of items of the object [r] *)
Definition items_of {I C} (p : place I C) (r : ref) : list ref :=
  match nth_error (p_cells p) r with Some (Cell _ (Some rs) _) => rs | _ => [] end.

(** What the edits of one object do.  [l] and [d] are the list and the lookup
    of a section as they are seen before; [after p'] says what they are after.
    The object is at one place of the list, and
    - assigning to its fields changes it in that place, and in the lookup under
      the keys that lead to it;
    - each of its items has a reference;
    - assigning to the [j]-th item changes the [j]-th item, of this object only;
    - appending an item appends it to this object only. *)
Definition edits {I C} (k : kind I C) (p : place I C) (r : ref)
  (l1 : list C) (o : C) (l2 : list C) (after : place I C -> list C -> C -> Prop) : Prop :=
  (forall f, own_fields k f -> after (edit_own p r f) (l1 ++ f o :: l2) (f o))
  /\ length (items_of p r) = length (match k_items k o with Some l => l | None => [] end)
  /\ (forall j ra, nth_error (items_of p r) j = Some ra ->
        exists a1 a a2, k_items k o = Some (a1 ++ a :: a2) /\ length a1 = j
          /\ forall a', let o' := k_put k o (Some (a1 ++ a' :: a2)) in
                        after (edit_item p ra a') (l1 ++ o' :: l2) o')
  /\ (forall a, match k_items k o with
                | None => append_item p r a = Raise EAttributeError
                | Some l => exists p', append_item p r a = Ok p'
                    /\ let o' := k_put k o (Some (l ++ [a])) in after p' (l1 ++ o' :: l2) o'
                end).

(** [o] is the last of [l1 ++ o :: l2] with the key [key] *)
Definition last_in {A} (key : A -> option str) (x : option str) (o : A) (l2 : list A) : Prop :=
  key o = x /\ forall o', In o' l2 -> key o' <> x.

(** What a lookup finds is an object of the list, and no other key leads to it;
    what an object finds in its own map is one of its items. *)
Definition finds {I C} (k : kind I C) (p : place I C) (get : option str -> result C) (l : list C) : Prop :=
  (forall key r, find_ref p key = Ok r -> keys_of (p_dict p) r = [key]
     /\ exists l1 o l2, l = l1 ++ o :: l2 /\ nth_error (p_list p) (length l1) = Some r /\ get key = Ok o)
  /\ (forall key e, find_ref p key = Raise e -> get key = Raise e)
  /\ (forall r d ra, item_ref p r d = Ok ra -> exists j, nth_error (items_of p r) j = Some ra).

(** Right after parsing, the object found under an identifier is the last one
    with it, and the item found in the map of an object is its last with that key. *)
Definition finds_last {I C} (k : kind I C) (p : place I C) (l : list C) : Prop :=
  (forall key r, find_ref p key = Ok r -> exists l1 o l2, l = l1 ++ o :: l2 /\ nth_error (p_list p) (length l1) = Some r /\ last_in (k_key k) key o l2)
  /\ (forall j r o d ra, nth_error (p_list p) j = Some r -> nth_error l j = Some o -> item_ref p r d = Ok ra ->
        k_mapped k o = true /\ exists a1 a a2, k_items k o = Some (a1 ++ a :: a2) /\ nth_error (items_of p r) (length a1) = Some ra /\ last_in (k_item_key k) d a a2)
  /\ (forall o, In o l -> exists r, find_ref p (k_key k o) = Ok r)
  /\ (forall j r o items a, nth_error (p_list p) j = Some r -> nth_error l j = Some o -> k_mapped k o = true -> k_items k o = Some items -> In a items ->
        exists ra, item_ref p r (k_item_key k a) = Ok ra).

(** [t] is the text of a bundle with the list [l] of a section: what is written
    after an edit of its [j]-th object differs from it in the place of that object
    only, and writing fails only as the object itself fails. *)
Definition saved {I C} (k : kind I C) (p : place I C) (l : list C) (on : place I C -> shared_bundle) (write : C -> result str) (t : str) : Prop :=
  forall j r, nth_error (p_list p) j = Some r ->
    exists l1 o l2 pre x post, l = l1 ++ o :: l2 /\ length l1 = j /\ write o = Ok x /\ t = pre ++ x ++ post
      /\ edits k p r l1 o l2 (fun p' _ o' => unparse_string (view (on p')) = let! x' := write o' in Ok (pre ++ x' ++ post)).
