(** SpecCreate.v -- a document as a program asks for it, and whether a bundle
    holds what was asked for *)
From Verif Require Import Base Py Models SpecPrint SpecXhtml.

Inductive ask_data_type :=
| AskString (identifier : str)
| AskBoolean (identifier : str)
| AskEnumeration (identifier : str) (values : option (list (str * str))). (* identifier and key of each value *)
Record ask_definition := AskDefinition {
  ask_kind : attr_type; ask_definition_id : str; ask_data_type_ref : str; ask_definition_name : option str; ask_multi : option bool }.
Record ask_type := AskType {
  ask_type_id : str; ask_type_name : option str; ask_type_desc : option str; ask_type_change : option str;
  ask_definitions : option (list ask_definition) }.
(** The kind of a value, the definition it refers to, and the value *)
Inductive ask_value :=
| AskText (definition_ref text : str)
| AskPlain (kind : attr_type) (definition_ref text : str)
| AskXhtml (definition_ref : str) (markup : list xh)
| AskChoice (definition_ref : str) (chosen : list str).
Record ask_object := AskObject { ask_object_id : str; ask_object_type : str; ask_values : list ask_value }.

(** ** Texts that can be asked for *)
Definition reference (s : str) : Prop := s <> [] /\ text_raw s.
Definition fair_data_type (q : ask_data_type) : Prop :=
  match q with
  | AskString i | AskBoolean i => attr_raw i
  | AskEnumeration i vs => attr_raw i /\ each (fun v => attr_raw (fst v) /\ attr_raw (snd v)) vs
  end.
Definition fair_definition (q : ask_definition) : Prop :=
  attr_raw (ask_definition_id q) /\ reference (ask_data_type_ref q) /\ when attr_escaped (ask_definition_name q)
  /\ (ask_kind q <> AT_ENUMERATION -> ask_multi q = None).
Definition fair_type (q : ask_type) : Prop :=
  attr_raw (ask_type_id q) /\ when attr_escaped (ask_type_name q) /\ when attr_escaped (ask_type_desc q)
  /\ when attr_raw (ask_type_change q) /\ each fair_definition (ask_definitions q).
Definition fair_value (q : ask_value) : Prop :=
  match q with
  | AskText r v => reference r /\ attr_html v
  | AskPlain k r v => reference r /\ attr_raw v /\ In k [AT_INTEGER; AT_REAL; AT_BOOLEAN; AT_DATE]
  | AskXhtml r f => reference r /\ forest_ok f /\ has_markup f = true
  | AskChoice r l => reference r /\ Forall reference l
  end.
Definition fair_object (q : ask_object) : Prop :=
  attr_raw (ask_object_id q) /\ reference (ask_object_type q) /\ Forall fair_value (ask_values q).

(** ** Objects that are as asked for, field by field *)
Definition data_type_as_asked (q : ask_data_type) (d : data_type) : Prop :=
  dt_description (dt_c d) = None /\ dt_last_change (dt_c d) = None /\ dt_long_name (dt_c d) = None
  /\ match q, d with
     | AskString i, DTString c max => dt_identifier c = i /\ max = None
     | AskBoolean i, DTBoolean c => dt_identifier c = i
     | AskEnumeration i vs, DTEnumeration c vs' =>
         dt_identifier c = i
         /\ option_map (map (fun v => (ev_identifier v, ev_key v))) vs' = vs
         /\ each (fun v => ev_description v = None /\ ev_last_change v = None /\ ev_other_content v = None /\ ev_long_name v = None) vs'
     | _, _ => False
     end.
Definition definition_as_asked (q : ask_definition) (a : attr_def) : Prop :=
  ad_type a = ask_kind q /\ ad_identifier a = ask_definition_id q /\ ad_datatype_definition a = Some (ask_data_type_ref q)
  /\ ad_long_name a = ask_definition_name q /\ ad_multi_valued a = ask_multi q
  /\ ad_description a = None /\ ad_last_change a = None /\ ad_editable a = None /\ ad_default_value a = DVNone
  /\ ad_default_value_definition_ref a = None.
Definition both_lists {A B} (R : A -> B -> Prop) (l : option (list A)) (l' : option (list B)) : Prop :=
  match l, l' with Some x, Some y => Forall2 R x y | None, None => True | _, _ => False end.
Definition type_as_asked (q : ask_type) (t : spec_type) : Prop :=
  exists o, t = STObject o
    /\ sot_identifier o = ask_type_id q /\ sot_long_name o = ask_type_name q /\ sot_description o = ask_type_desc q
    /\ sot_last_change o = ask_type_change q
    /\ both_lists definition_as_asked (ask_definitions q) (sot_attribute_definitions o).
Definition value_as_asked (q : ask_value) (a : spec_attr) : Prop :=
  match q with
  | AskText r v => sa_type a = AT_STRING /\ sa_definition_ref a = Some r /\ sa_value a = VStr v
  | AskPlain k r v => sa_type a = k /\ sa_definition_ref a = Some r /\ sa_value a = VStr v
  | AskXhtml r f => sa_type a = AT_XHTML /\ sa_definition_ref a = Some r /\ sa_value a = VStr (show "xhtml" f)
  | AskChoice r l => sa_type a = AT_ENUMERATION /\ sa_definition_ref a = Some r /\ sa_value a = VList (map Some l)
  end.
Definition object_as_asked (q : ask_object) (o : spec_object) : Prop :=
  so_identifier o = ask_object_id q /\ so_spec_object_type o = Some (ask_object_type q)
  /\ so_description o = None /\ so_last_change o = None /\ so_long_name o = None
  /\ Forall2 value_as_asked (ask_values q) (so_attributes o).
