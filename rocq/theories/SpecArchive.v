(** SpecArchive.v -- what passthrough should make of an archive *)
From Verif Require Import Base Xml Utf8 Lxml Py Models Zip Commands SpecZip.

(** [passed document a a']: [a'] holds, for every name in [a], one member of that
    name -- the documents first, then all other files, both in the order in which
    the names first appear in [a].  A document is what passthrough writes for it
    when it is a file of its own; any other file has its bytes. *)
Definition passed (document : str -> bool) (a a' : archive) : Prop :=
  exists docs others, a' = docs ++ others
    /\ Forall2 (fun n m => fst m = n /\ exists raw raw', holds a n (Some raw) /\ passthrough_reqif raw = Ok raw' /\ snd m = Some raw')
         (firsts [] (filter document (map fst a))) docs
    /\ Forall2 (fun n m => fst m = n /\ exists raw, holds a n (Some raw) /\ snd m = Some raw)
         (firsts [] (filter (fun n => negb (document n)) (map fst a))) others.
