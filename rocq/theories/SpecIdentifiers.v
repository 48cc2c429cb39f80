(** SpecIdentifiers.v -- the identifiers of data types and of spec types *)
From Verif Require Import Base Models.

Definition data_type_identifier (d : data_type) : str :=
  dt_identifier match d with
                | DTString c _ | DTBoolean c | DTInteger c _ _ | DTReal c _ _ _ | DTEnumeration c _ | DTXhtml c | DTDate c => c
                end.
Definition spec_type_identifier (t : spec_type) : str :=
  match t with
  | STObject t => sot_identifier t
  | STRelation t => srt_identifier t
  | STSpecification t => spt_identifier t
  | STGroup t => rgt_identifier t
  end.
