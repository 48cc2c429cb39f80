(** SpecSamePage.v -- pages that the dump command writes for two files with almost
    the same content *)
From Verif Require Import Base Utf8 Py Models SpecAnonymize SpecLayout SpecHidden SpecLookup Dump SpecDump.

(** The second page is the first one but for the title ([T]), the names of the
    specifications ([N]) and the rows of the tables ([R]).  A row is the definition
    and the value of an attribute. *)
Section Similar.
Variables (T N : str -> str -> Prop) (R : str * str -> str * str -> Prop).
Definition similar_table (t t' : table) : Prop :=
  tb_type t' = tb_type t /\ tb_identifier t' = tb_identifier t /\ Forall2 R (tb_values t) (tb_values t').
Definition similar_page (p p' : page) : Prop :=
  match pg_header p, pg_header p' with
  | Some (title, time), Some (title', time') => T title title' /\ time' = time
  | None, None => True
  | _, _ => False
  end
  /\ match pg_content p, pg_content p' with
     | Some (Some (data_types, types, l)), Some (Some (data_types', types', l')) =>
         data_types' = data_types /\ types' = types
         /\ Forall2 (fun s s' => N (fst s) (fst s') /\ Forall2 similar_table (snd s) (snd s')) l l'
     | Some None, Some None | None, None => True
     | _, _ => False
     end.
End Similar.

Section Rows.
Variables (repr_list : list (option str) -> str) (b : bundle).
(** the row of an attribute *)
Definition value_row (a : spec_attr) : str * str :=
  (fmt (sa_definition_ref a), match sa_value a with VStr s => s | VList l => repr_list l end).
Definition attribute_of (a : spec_attr) : Prop := exists o, In o (spec_objects_of b) /\ In a (so_attributes o).

(** Formatting: XHTML values may differ in white space. *)
Definition formatted_row (r r' : str * str) : Prop :=
  exists a, attribute_of a /\ r = value_row a /\ fst r' = fst r
    /\ match sa_type a with AT_XHTML => squeeze (snd r') = squeeze (snd r) | _ => snd r' = snd r end.

(** Anonymising: the title, the names of specifications and the values of STRING
    and XHTML attributes are replaced by digests. *)
Variable sha : bytes -> N.
Definition hidden_text (o : option str) (s' : str) : Prop :=
  match o with Some s => digest sha s s' | None => s' = "None" end.
Definition hidden_title (s s' : str) : Prop :=
  exists h, b_header b = Some h /\ s = fmt (hd_title h) /\ hidden_text (hd_title h) s'.
Definition hidden_name (s s' : str) : Prop :=
  exists sp, In sp (specifications_of b) /\ s = fmt (sp_long_name sp)
    /\ (called_specification sp -> hidden_text (sp_long_name sp) s')
    /\ (~ called_specification sp -> s' = s).
Definition hidden_row (r r' : str * str) : Prop :=
  exists a, attribute_of a /\ r = value_row a /\ fst r' = fst r
    /\ match sa_type a with
       | AT_STRING => digest sha (snd r) (snd r')
       | AT_XHTML => exists s, digest sha s (snd r')
       | _ => snd r' = snd r
       end.
End Rows.

(** The values of enumeration attributes have no empty references. *)
Definition enumerations_filled (b : bundle) : Prop :=
  forall a l, attribute_of b a -> sa_value a = VList l -> ~ In None l.
