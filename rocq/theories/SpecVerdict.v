(** SpecVerdict.v -- what validation finds in a document, whatever file it is in *)
From Verif Require Import Base Xml Lxml Py Models SpecTraversal SpecPrint SpecDocument SpecSettle SpecLayout SpecLookup Validate.

(** a warning without the element that it is about *)
Inductive finding :=
| NoDeclaration | OtherEncoding
| NoRelationEnd (side : str) (object : option str)
| NoObject (object : option str).
Definition finding_of (w : semantic_error) : finding :=
  match w with
  | MissingDeclaration => NoDeclaration
  | WrongEncoding => OtherEncoding
  | RelationMissing _ side i => NoRelationEnd side i
  | HierarchyMissing _ i => NoObject i
  end.
Definition about_reference (f : finding) : bool :=
  match f with NoRelationEnd _ _ | NoObject _ => true | _ => false end.
(** the dangling references, in the order in which they are reported *)
Definition dangling (eb : error_bundle) : list finding := filter about_reference (map finding_of (eb_semantic eb)).
Definition same_schema_error (e e' : schema_error) : Prop :=
  match e, e' with FromBundle x, FromBundle y => same_exception x y | _, _ => e = e' end.
(** the same errors and the same dangling references; the second document has a
    proper declaration *)
Definition same_verdict (eb eb' : error_bundle) : Prop :=
  eb_xml eb' = eb_xml eb /\ Forall2 same_schema_error (eb_schema eb) (eb_schema eb')
  /\ map finding_of (eb_semantic eb') = dangling eb.
(** the same dangling references, where an absent one now reads None *)
Definition spelled_finding (f : finding) : finding :=
  match f with
  | NoRelationEnd side i => NoRelationEnd side (spelled i)
  | NoObject i => NoObject (spelled i)
  | _ => f
  end.
Definition rewritten_verdict (eb eb' : error_bundle) : Prop :=
  eb_xml eb' = [] /\ eb_schema eb' = [] /\ map finding_of (eb_semantic eb') = map spelled_finding (dangling eb).
