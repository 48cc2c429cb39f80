(** SpecDump.v -- the HTML page the dump command should write: what it shows,
    and where. *)
From Verif Require Import Base Py Models SpecTraversal SpecLookup SpecIdentifiers Dump.

(** What the page shows. *)
Record table := Table { tb_type : str; tb_identifier : str; tb_values : list (str * str) }.
Record page := Page {
  pg_header : option (str * str);              (* title, creation time *)
  pg_content : option (option (list str * list str * list (str * list table)))
    (* data types, spec types, specifications with their tables *) }.

(** How it is laid out; [t0] ... [t34] are the fixed pieces of the template. *)
Definition show_table (t : table) : str :=
  t23 ++ t24 ++ tb_type t ++ t25 ++ tb_identifier t ++ t26
  ++ flat_map (fun r => t27 ++ fst r ++ t28 ++ snd r ++ t29) (tb_values t) ++ t30.
Definition show_specification (s : str * list table) : str :=
  t21 ++ fst s ++ t22 ++ flat_map show_table (snd s) ++ t31.
Definition show_page (p : page) : str :=
  t0
  ++ match pg_header p with Some (a, b) => t1 ++ a ++ t2 ++ b ++ t3 | None => [] end
  ++ t4
  ++ match pg_content p with
     | None => t11 ++ t18
     | Some None => (t5 ++ t10) ++ t11 ++ (t12 ++ t17) ++ t18 ++ (t19 ++ t33)
     | Some (Some (ds, ss, sps)) =>
         (t5 ++ t6 ++ flat_map (fun d => t7 ++ d ++ t8) ds ++ t9 ++ t10)
         ++ t11
         ++ (t12 ++ t13 ++ flat_map (fun d => t14 ++ d ++ t15) ss ++ t16 ++ t17)
         ++ t18
         ++ (t19 ++ t20 ++ flat_map show_specification sps ++ t32 ++ t33)
     end
  ++ t34 ++ nl.

(** Which values a bundle puts on the page.  The SPEC-OBJECT a node refers to is
    the last one of the document with that identifier. *)
Section Shows.
Variable repr_list : list (option str) -> str.
Definition table_of (o : spec_object) : table :=
  Table (fmt (so_spec_object_type o)) (so_identifier o)
        (map (fun a => (fmt (sa_definition_ref a),
                        match sa_value a with VStr s => s | VList l => repr_list l end))
             (so_attributes o)).
Definition target (b : bundle) (h : hier) (o : spec_object) : Prop :=
  is_last_with (fun x => Some (so_identifier x)) (spec_objects_of b) (h_spec_object h) o.
Definition shows_specification (b : bundle) (sp : specification) (s : str * list table) : Prop :=
  exists nodes objects,
    document_order (olist (sp_children sp)) nodes
    /\ Forall2 (target b) nodes objects
    /\ s = (fmt (sp_long_name sp), map table_of objects).
Definition shows (b : bundle) (p : page) : Prop :=
  pg_header p = option_map (fun h => (fmt (hd_title h), fmt (hd_creation_time h))) (b_header b)
  /\ match b_core_content b with
     | None => pg_content p = None
     | Some None => pg_content p = Some None
     | Some (Some c) =>
         exists ds ss sps l,
           rc_data_types c = Some ds /\ rc_spec_types c = Some ss /\ rc_specifications c = Some sps
           /\ Forall2 (shows_specification b) sps l
           /\ pg_content p = Some (Some (map data_type_identifier ds, map spec_type_identifier ss, l))
     end.
End Shows.
