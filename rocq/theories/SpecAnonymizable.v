(** SpecAnonymizable.v -- which documents can be anonymized *)
From Verif Require Import Base Xml Lxml Py SpecAnonymize.

(** elements and text only, at every depth: no comment, no processing instruction *)
Inductive bare : node -> Prop :=
| bare_chr c : bare (Chr c)
| bare_el ns l d i a ks : Forall bare ks -> bare (El ns l d i a ks).
(** every header title and header comment begins with text *)
Definition header_texts (uri : str) (root : node) : Prop :=
  forall p pn, at_path None root p = Some pn -> is_target uri THeaderText pn -> text (snd pn) <> None.
(** no formatted value contains a comment or a processing instruction *)
Definition bare_values (uri : str) (root : node) : Prop :=
  forall p pn, at_path None root p = Some pn -> is_target uri TXhtml pn -> bare (snd pn).
(** the default namespace of the root element *)
Definition default_namespace (root : node) (o : option str) : Prop := ns_get (node_nsmap root) None = o.
Definition anonymizable (root : node) : Prop :=
  exists uri, default_namespace root (Some uri) /\ header_texts uri root /\ bare_values uri root.
