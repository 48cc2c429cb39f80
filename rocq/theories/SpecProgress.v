(** SpecProgress.v -- what a run with a progress callback should look like. *)
From Verif Require Import Base Xml Utf8 Lxml Py Models Progress Parser.

(** Present the events [evs] to the callback one by one, starting from the
    history [h]; the first exception raised ends the run, otherwise the run ends
    with [r]. *)
Fixpoint play {A} (c : list event -> event -> option exn) (h : list event)
         (evs : list event) (r : result A) : list event * result A :=
  match evs with
  | [] => (h, r)
  | e :: evs' =>
      match c h e with
      | Some x => (h ++ [e], Raise x)
      | None => play c (h ++ [e]) evs' r
      end
  end.

(** (section,1,n) ... (section,n,n) *)
Definition count_up (section : str) (n : nat) : list event :=
  map (fun k => Event section (S k) n) (seq 0 n).

(** The sections in the order in which they are read / written. *)
Definition parse_order : list str :=
  ["DATATYPES"; "SPEC-TYPES"; "SPECIFICATIONS"; "SPEC-RELATIONS"; "SPEC-OBJECTS";
   "SPEC-RELATION-GROUPS"].

(** The REQ-IF-CONTENT element of a document text, as an lxml user sees it. *)
Definition document_content (s : str) : option node :=
  match lxml_parse s with
  | Some (_, root) =>
      match strip_if_namespaced root with
      | Ok r =>
          if tag_is "REQ-IF" r then
            match find_child "CORE-CONTENT" r with
            | Some c => find_child "REQ-IF-CONTENT" c
            | None => None
            end
          else None
      | Raise _ => None
      end
  | None => None
  end.
(** Each section that is present, counted by its direct children. *)
Definition content_events (rc : node) : list event :=
  flat_map (fun t => match find_child t rc with
                     | Some x => count_up t (length (children x))
                     | None => [] end) parse_order.
Definition document_events (s : str) : list event :=
  match s with
  | [] => []
  | _ => match document_content s with
         | Some rc => content_events rc
         | None => []
         end
  end.

(** Unparsing: the sections of the bundle in writing order. *)
Definition olen {A} (t : str) (o : option (list A)) : list event :=
  match o with Some l => count_up t (length l) | None => [] end.
Definition bundle_events (b : bundle) : list event :=
  match b_core_content b with
  | Some (Some c) =>
      olen "DATATYPES" (rc_data_types c) ++ olen "SPEC-TYPES" (rc_spec_types c)
      ++ olen "SPEC-OBJECTS" (rc_spec_objects c) ++ olen "SPEC-RELATIONS" (rc_spec_relations c)
      ++ olen "SPECIFICATIONS" (rc_specifications c)
      ++ olen "SPEC-RELATION-GROUPS" (rc_spec_relation_groups c)
  | _ => []
  end.

(** None of the calls [evs], made after the calls [h], raised. *)
Definition calls_ok (c : list event -> event -> option exn) (h evs : list event) : Prop :=
  forall evs1 e evs2, evs = evs1 ++ e :: evs2 -> c (h ++ evs1) e = None.
(** A run [m] under the callback [c] from history [h], where the same run
    without callback ends with [r0]: either no call raised and the outcome is
    the same, or the last call made raised and its exception is the outcome. *)
Definition unaffected {A} (c : list event -> event -> option exn) (h : list event)
           (m : list event * result A) (r0 : result A) : Prop :=
  exists evs, fst m = h ++ evs
    /\ ((calls_ok c h evs /\ snd m = r0)
        \/ exists evs1 e x, evs = evs1 ++ [e] /\ calls_ok c h evs1
                            /\ c (h ++ evs1) e = Some x /\ snd m = Raise x).
(** a callback that never raises *)
Definition quiet (c : list event -> event -> option exn) : Prop := forall h e, c h e = None.
