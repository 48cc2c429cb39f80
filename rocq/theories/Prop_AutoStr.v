(** Prop_AutoStr.v -- C46: string representations do not look into nested objects *)
From Verif Require Import Base Py AutoStr.

(** What may be seen of a field: for a container its kind and size, for another
    object its class, for text, bytes and numbers the value. *)
Inductive outline :=
| OList (size : nat) | ODict (size : nat) | OSet (class : str) (size : nat)
| OText (s : str) | OBytes (b : list N) | ONum (s : str) | OOther (class : str).
Definition outline_of (g : graph) (v : value) : outline :=
  match v with
  | VList l => OList (length l)
  | VDict l => ODict (length l)
  | VSet c l => OSet c (length l)
  | VText s => OText s
  | VBytes b => OBytes b
  | VNum s => ONum s
  | VOther a => OOther (o_class (g a))
  end.
(** Two objects in two graphs whose fields have the same names and outlines have
    the same string, whatever else the graphs contain -- cycles included. *)
Theorem C46_only_outlines_matter :
  forall repr_bytes g g' o o',
    o_class o = o_class o' ->
    map (fun f => (fst f, outline_of g (snd f))) (o_fields o)
    = map (fun f => (fst f, outline_of g' (snd f))) (o_fields o') ->
    auto_str repr_bytes g o = auto_str repr_bytes g' o'.
Proof.
  intros rb g g' o o' C F. unfold auto_str. rewrite C.
  assert (E : map (auto_item rb g) (o_fields o) = map (auto_item rb g') (o_fields o')).
  { revert F. generalize (o_fields o) (o_fields o'). clear.
    induction l as [|[p v] l IH]; intros [|[p' v'] l'] F; try discriminate; [reflexivity|].
    cbn [map fst snd] in F. injection F as <- Fv F. cbn [map]. rewrite (IH l' F). f_equal.
    unfold auto_item. destruct v, v'; cbn [outline_of] in Fv; try discriminate Fv; injection Fv; intros; subst;
      repeat match goal with H : length _ = length _ |- _ => rewrite H; clear H end; try reflexivity.
    rewrite H. reflexivity. }
  rewrite E. reflexivity.
Qed.
(** In particular the contents of the objects referred to are never looked at:
    changing every object of the graph, except for its class, changes nothing. *)
Theorem C46_nested_objects_do_not_matter :
  forall repr_bytes g g' o,
    (forall a, o_class (g a) = o_class (g' a)) -> auto_str repr_bytes g o = auto_str repr_bytes g' o.
Proof.
  intros rb g g' o H. apply C46_only_outlines_matter; [reflexivity|].
  apply map_ext. intros [p v]. cbn [fst snd]. f_equal. destruct v; cbn; try reflexivity. rewrite H. reflexivity.
Qed.
(** Every field is shown, in order, under its name. *)
Theorem C46_every_field_shown :
  forall repr_bytes g o, exists items,
    auto_str repr_bytes g o = o_class o ++ "(" ++ join ", " items ++ ")"
    /\ Forall2 (fun f item => exists shown, item = fst f ++ " = " ++ shown
         /\ match snd f with
            | VText s => shown = """" ++ s ++ """"
            | VNum s => shown = s
            | VBytes b => shown = repr_bytes b
            | VOther a => shown = o_class (g a) ++ "(...)"
            | VList [] => shown = "[]"
            | VList l => shown = "[" ++ str_of_N (N.of_nat (length l)) ++ " elements]"
            | VDict [] => shown = "{}"
            | VDict l => shown = "{" ++ str_of_N (N.of_nat (length l)) ++ " elements}"
            | VSet c l => shown = c ++ "(" ++ str_of_N (N.of_nat (length l)) ++ " elements)"
            end) (o_fields o) items.
Proof.
  intros rb g o. exists (map (auto_item rb g) (o_fields o)). split; [reflexivity|].
  induction (o_fields o) as [|[p v] l IH]; constructor; [|exact IH].
  cbn [fst snd]. eexists. split; [reflexivity|].
  destruct v as [[|]|[|]| | | | |]; reflexivity.
Qed.
(** Text is not escaped, so different objects can have the same string. *)
Theorem C46_injective_refuted :
  exists g o o', o_fields o <> o_fields o' /\ forall rb, auto_str rb g o = auto_str rb g o'.
Proof.
  exists (fun _ => Object "NoneType" []), (Object "A" [("x", VText "1"", y = ""2")]),
    (Object "A" [("x", VText "1"); ("y", VText "2")]).
  split; [discriminate|]. intros rb. reflexivity.
Qed.
(** A hierarchy node that contains itself (through its list of children) and its
    parent. *)
Definition cyclic : graph :=
  fun a => match a with
           | 0 => Object "ReqIFSpecHierarchy" [("identifier", VText "h"); ("level", VNum "1");
                    ("children", VList [VOther 0; VOther 1]); ("parent", VOther 0); ("long_name", VOther 7)]
           | 1 => Object "ReqIFSpecHierarchy" [("parent", VOther 0)]
           | _ => Object "NoneType" []
           end.
Example C46_example :
  forall rb, auto_str rb cyclic (cyclic 0) =
    "ReqIFSpecHierarchy(identifier = ""h"", level = 1, children = [2 elements], parent = ReqIFSpecHierarchy(...), long_name = NoneType(...))".
Proof. intros rb. vm_compute. reflexivity. Qed.

Print Assumptions C46_only_outlines_matter.
Print Assumptions C46_nested_objects_do_not_matter.
Print Assumptions C46_every_field_shown.
Print Assumptions C46_injective_refuted.
