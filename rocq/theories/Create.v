(** Create.v -- the helpers named create in reqif/models: what a program uses to
    build a document *)
From Verif Require Import Base Py Models.

(** ReqIFDataTypeDefinitionString.create, reqif_data_type.py:24-30, with the
    defaults of __init__, :8-22 *)
Definition create_string (identifier : str) : data_type := DTString (DTC identifier None None None true) None.
(** ReqIFDataTypeDefinitionBoolean.create, reqif_data_type.py:49-55, with the
    defaults of __init__, :35-47 *)
Definition create_boolean (identifier : str) : data_type := DTBoolean (DTC identifier None None None true).
(** ReqIFEnumValue.create, reqif_data_type.py:120-125 *)
Definition create_enum_value (identifier key : str) : enum_value := EnumValue identifier key None None None None.
(** ReqIFDataTypeDefinitionEnumeration.create, reqif_data_type.py:150-155; here
    is_self_closed is False by default, :137 *)
Definition create_enumeration (identifier : str) (values : option (list enum_value)) : data_type :=
  DTEnumeration (DTC identifier None None None false) values.
(** SpecAttributeDefinition.create, reqif_spec_object_type.py:44-58 *)
Definition create_definition (t : attr_type) (identifier datatype : str) (long_name : option str) (multi_valued : option bool) : attr_def :=
  AttrDef t identifier (Some datatype) None None None long_name None None DVNone multi_valued.
(** ReqIFSpecObjectType.create, reqif_spec_object_type.py:87-101; the order of its
    arguments differs from that of the constructor *)
Definition create_object_type (identifier : str) (long_name description last_change : option str)
           (definitions : option (list attr_def)) : spec_object_type :=
  SpecObjectType identifier description last_change long_name definitions.
(** SpecObjectAttribute.__init__ with its defaults, reqif_spec_object.py:9-23 *)
Definition create_value (t : attr_type) (definition_ref : str) (v : attr_value) : spec_attr :=
  SpecAttr t (Some definition_ref) v None None.
(** ReqIFSpecObject.create, reqif_spec_object.py:51-61 *)
Definition create_object (identifier object_type : str) (attributes : list spec_attr) : spec_object :=
  SpecObject identifier attributes (Some object_type) None None None None.
