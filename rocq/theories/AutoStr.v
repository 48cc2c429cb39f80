(** AutoStr.v -- helpers/debug.py: the __str__ and __repr__ of the model classes *)
From Verif Require Import Base Py.

(** Python objects live in a heap and refer to each other by address, so that
    object graphs may be cyclic.  [VNum] is an int, float or bool, given by its
    str(); [VOther] any other object (None included). *)
Definition addr := nat.
(** The value of an attribute, by the tests of debug.py:39-60. *)
Inductive value :=
| VList (items : list value)
| VDict (items : list (value * value))
| VSet (class : str) (items : list value)
| VText (s : str)
| VBytes (b : list N)
| VNum (shown : str)
| VOther (a : addr).
(** a class name and [__dict__] *)
Record object := Object { o_class : str; o_fields : list (str * value) }.
(** the objects by address *)
Definition graph := addr -> object.

(** [repr_bytes]: Python's repr of a bytes object *)
Section Auto.
Variable repr_bytes : list N -> str.
(** the quotation mark *)
Definition quote : str := """".
(** debug.py:38-62, one field *)
Definition auto_item (g : graph) (f : str * value) : str :=
  let '(prop, v) := f in
  prop ++ " = " ++
  match v with
  | VList l => if Nat.eqb (length l) 0 then "[]" else "[" ++ str_of_N (N.of_nat (length l)) ++ " elements]"
  | VDict l => if Nat.eqb (length l) 0 then "{}" else "{" ++ str_of_N (N.of_nat (length l)) ++ " elements}"
  | VSet c l => c ++ "(" ++ str_of_N (N.of_nat (length l)) ++ " elements)"
  | VText s => quote ++ s ++ quote
  | VBytes b => repr_bytes b
  | VNum s => s
  | VOther a => o_class (g a) ++ "(...)"
  end.
(** auto_str, debug.py:32-63 *)
Definition auto_str (g : graph) (o : object) : str :=
  o_class o ++ "(" ++ join ", " (map (auto_item g) (o_fields o)) ++ ")".
End Auto.
