(** Schema.v -- ReqIFSchema, experimental/reqif_schema.py *)
From Verif Require Import Base Py Models.

(** The attributes of a ReqIFSchema object, reqif_schema.py:56-66.
    [sc_polarion]: detected_schema_type is POLARION (:12-14). *)
Record schema := Schema {
  sc_data_type_definitions : dict data_type;
  sc_spec_object_type_attributes : dict attr_def;
  sc_spec_object_type_names : dict str;
  sc_heading : option spec_object_type;
  sc_chapter : option attr_def;
  sc_polarion : bool }.

(** The locals of __init__ that the loop over the spec types updates (:17-24) *)
Record scan := Scan {
  sn_attributes : dict attr_def;
  sn_names : dict str;
  sn_heading : option spec_object_type;
  sn_chapter : option attr_def;
  sn_polarion : bool }.
(** the inner loop, :45-50 *)
Definition scan_attribute (s : scan) (a : attr_def) : scan :=
  Scan (dict_set (sn_attributes s) (Some (ad_identifier a)) a) (sn_names s) (sn_heading s)
       (if ostr_eqb (ad_long_name a) (Some "ReqIF.ChapterName") then Some a else sn_chapter s)
       (sn_polarion s).
(** the outer loop, :33-50 *)
Definition scan_type (s : scan) (t : spec_object_type) : result scan :=
  match sot_long_name t with
  | None => Raise EAssertionError
  | Some ln =>
      let h := str_eqb ln "Heading" in
      let s1 := Scan (sn_attributes s) (dict_set (sn_names s) (Some (sot_identifier t)) ln)
                     (if h then Some t else sn_heading s) (sn_chapter s)
                     (if h then true else sn_polarion s) in
      match sot_attribute_definitions t with
      | None => Raise EAssertionError
      | Some l => Ok (fold_left scan_attribute l s1)
      end
  end.
(** the outer loop, over all types, :33-50 *)
Fixpoint scan_types (s : scan) (l : list spec_type) : result scan :=
  match l with
  | [] => Ok s
  | STObject t :: l' => let! s' := scan_type s t in scan_types s' l'
  | _ :: l' => scan_types s l'
  end.
(** ReqIFSchema.__init__, :17-66 *)
Definition make_schema (b : bundle) : result schema :=
  match b_core_content b with
  | Some (Some c) =>
      match rc_spec_types c with
      | Some ts =>
          let! s := scan_types (Scan [] [] None None false) ts in
          match rc_data_types c with
          | Some ds =>
              Ok (Schema (fold_left (fun m d => dict_set m (Some (dt_id d)) d) ds [])
                         (sn_attributes s) (sn_names s) (sn_heading s) (sn_chapter s) (sn_polarion s))
          | None => Raise EAssertionError
          end
      | None => Raise EAssertionError
      end
  | _ => Raise EAssertionError
  end.
(** is_spec_object_a_heading, :68-83 *)
Definition is_spec_object_a_heading (s : schema) (o : spec_object) : bool :=
  match sc_heading s with
  | Some t => ostr_eqb (so_spec_object_type o) (Some (sot_identifier t))
  | None =>
      match sc_chapter s with
      | Some a => dict_mem (so_attribute_map o) (Some (ad_identifier a))
      | None => false
      end
  end.
(** iterate_unique_field_names, :85-94 (the values the generator yields) *)
Fixpoint unique_fields (seen : list (option str)) (l : list attr_def) : list (option str * str) :=
  match l with
  | [] => []
  | a :: l' =>
      if ostr_mem (ad_long_name a) seen then unique_fields seen l'
      else (ad_long_name a, at_name (ad_type a)) :: unique_fields (ad_long_name a :: seen) l'
  end.
(** iterate_unique_field_names, :85-94 *)
Definition iterate_unique_field_names (s : schema) : list (option str * str) :=
  unique_fields [] (dict_values (sc_spec_object_type_attributes s)).
