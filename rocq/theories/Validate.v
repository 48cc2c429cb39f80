(** Validate.v -- reqif/commands/validate/validate.py and the descriptions of
    models/error_handling.py *)
From Verif Require Import Base Xml Utf8 Lxml Py LxmlStr Models Progress Parser BundleModel SpecTraversal Paths.

(** ReqIFSemanticError and its subclasses, error_handling.py:13-78.  The two
    general warnings are told apart by constructor instead of by text. *)
Inductive semantic_error :=
| MissingDeclaration                                              (* validate.py:129-133 *)
| WrongEncoding                                                   (* validate.py:136-141 *)
| RelationMissing (xml_node : option node) (tag : str) (spec_object : option str)
| HierarchyMissing (xml_node : option node) (spec_object : option str).
(** ReqIFSchemaError: the library's own (a ReqIFMissingTagException from
    bundle.exceptions) or the schema library's message *)
Inductive schema_error := FromBundle (e : exn) | FromSchema (message : str).

(** ReqIFErrorBundle, validate.py:25-41 *)
Record error_bundle := ErrorBundle {
  eb_xml : list exn; eb_schema : list schema_error; eb_semantic : list semantic_error }.
(** has_any_errors, validate.py:36-41 *)
Definition has_any_errors (e : error_bundle) : bool :=
  (0 <? length (eb_xml e)) || (0 <? length (eb_schema e)) || (0 <? length (eb_semantic e)).

(** get_description, error_handling.py:42-78.  lxml_dump_node of an element also
    ends with the text that follows the element; it is left out here. *)
Definition dump_of (o : option node) (f : node -> str -> str) : result str :=
  match o with
  | None => Raise EAttributeError
  | Some n => let! d := stringify_node false n in Ok (f n d)
  end.
(** get_description of the semantic errors: validate.py:129-141, error_handling.py:57-78 *)
Definition describe_semantic (e : semantic_error) : result str :=
  match e with
  | MissingDeclaration =>
      Ok "Document is missing a valid XML declaration. Every ReqIFdocument should have the following line: <?xml version=""1.0"" encoding=""UTF-8""?>"
  | WrongEncoding =>
      Ok "ReqIF Implementation Guide recommends using UTF-8 encoding for ReqIF files. Every ReqIF document should have the following line: <?xml version=""1.0"" encoding=""UTF-8""?>"
  | RelationMissing o t i =>
      dump_of o (fun n d =>
        "schema error: A <" ++ fmt (tag n) ++ ">'s <" ++ t ++ "> contains a link to a non-existing <SPEC-OBJECT>: "
        ++ fmt i ++ nl ++ "Affected fragment:" ++ nl ++ d)
  | HierarchyMissing o i =>
      dump_of o (fun n d =>
        "schema error: A <SPEC-HIERARCHY>'s <SPEC-OBJECT-REF> contains a link to a non-existing <SPEC-OBJECT>: "
        ++ fmt i ++ nl ++ "Affected fragment:" ++ nl ++ d)
  end.
(** get_description of the schema errors, error_handling.py:23-24 and :42-47 *)
Definition describe_schema (e : schema_error) : result str :=
  match e with
  | FromSchema m => Ok m
  | FromBundle (EMissingTag n t) =>
      dump_of (Some n) (fun n d =>
        "schema error: Tag <" ++ fmt (tag n) ++ "> is missing a <" ++ t ++ "> child tag. "
        ++ "Affected fragment:" ++ nl ++ d)
  | FromBundle _ => Raise EAttributeError
  end.

(** _validate_spec_relations, validate.py:172-193 *)
Fixpoint validate_spec_relations (l : list spec_relation) (lk : lookup) : list semantic_error :=
  match l with
  | [] => []
  | r :: l' =>
      (if spec_object_exists lk (sr_source r) then []
       else [RelationMissing (sr_xml_node r) "SOURCE" (sr_source r)])
      ++ (if spec_object_exists lk (sr_target r) then []
          else [RelationMissing (sr_xml_node r) "TARGET" (sr_target r)])
      ++ validate_spec_relations l' lk
  end.
(** validate.py:203-212: the loop over the generator.  The fuel is the number of
    nodes plus one; [gen_next] has returned [None] by then (C07). *)
Fixpoint hierarchy_loop (k : nat) (g : gen) (lk : lookup) : list semantic_error :=
  match k with
  | O => []
  | S k' =>
      match gen_next g with
      | None => []
      | Some (h, g') =>
          (if spec_object_exists lk (h_spec_object h) then []
           else [HierarchyMissing (h_xml_node h) (h_spec_object h)])
          ++ hierarchy_loop k' g' lk
      end
  end.
(** _validate_specifications, validate.py:195-213: [idx] is the position of the
    first specification of [l] in the bundle's list *)
Fixpoint validate_specifications (l : list specification) (idx : nat) (b : bundle)
  : result (list semantic_error) :=
  match l with
  | [] => Ok []
  | sp :: l' =>
      let! g := iterate_specification_hierarchy b idx in
      let w := hierarchy_loop (S (fsize (resume g))) g (b_lookup b) in
      let! ws := validate_specifications l' (S idx) b in
      Ok (w ++ ws)
  end.
(** validate.py:128-170, on the parsed bundle *)
Definition validate_bundle (b : bundle) : result error_bundle :=
  let general :=
    (if ni_doctype_is_present (b_namespace_info b) then [] else [MissingDeclaration])
    ++ (if str_eqb (ni_encoding (b_namespace_info b)) "UTF-8" then [] else [WrongEncoding]) in
  let! refs :=
    match b_core_content b with
    | Some (Some c) =>
        let rel := match rc_spec_relations c with
                   | Some l => validate_spec_relations l (b_lookup b) | None => [] end in
        let! hier := match rc_specifications c with
                     | Some l => validate_specifications l 0 b | None => Ok [] end in
        Ok (rel ++ hier)
    | _ => Ok []
    end in
  Ok (ErrorBundle [] (map FromBundle (b_exceptions b)) (general ++ refs)).

(** ** The process: working directory, files, the schema library *)
Inductive schema_outcome := SchemaOk | SchemaInvalid (message : str) | SchemaRaises (e : exn).
(** The surroundings of the process; what they answer is arbitrary. *)
Record env := Env {
  files : str -> option bytes;             (* regular files by absolute path, which may
                                              contain "..", "." and links *)
  chdir_fails : str -> option exn;         (* does os.chdir(path) raise? *)
  getcwd_fails : option exn;               (* does os.getcwd() raise? *)
  schema : str -> str -> str * schema_outcome
    (* building the schema and validating: from the working directory and the
       input path to the working directory afterwards and the outcome *) }.
Definition reqif_root : str := "/reqif-root".    (* PATH_TO_REQIF_ROOT, reqif/__init__.py *)
(** What the operating system looks for when it is given [path]. *)
Definition opened (cwd path : str) : str :=
  if starts_with "/" path then path else cwd ++ "/" ++ path.
(** ValidateCommandConfig, cli_arg_parser.py:119-122 *)
Record config := Config { input_file : str; use_reqif_schema : bool }.

(** [os.chdir(path)] *)
Definition chdir (e : env) (cwd path : str) : str * result unit :=
  match chdir_fails e path with
  | Some x => (cwd, Raise x)
  | None => (path, Ok tt)
  end.
(** validate.py:92-117.  Result: the working directory afterwards and [Some] early
    result, or [None] to go on. *)
Definition schema_step (e : env) (cwd path : str) : str * result (option error_bundle) :=
  match getcwd_fails e with
  | Some x => (cwd, Raise x)
  | None =>
      let old_cwd := cwd in
      let '(cwd1, r1) := chdir e cwd reqif_root in
      let '(cwd2, body) :=
        match r1 with
        | Raise x => (cwd1, Raise x)
        | Ok _ => match schema e cwd1 path with
                  | (d, SchemaOk) => (d, Ok None)
                  | (d, SchemaInvalid m) => (d, Ok (Some (ErrorBundle [] [FromSchema m] [])))
                  | (d, SchemaRaises x) => (d, Raise x)
                  end
        end in
      (* finally *)
      let '(cwd3, rf) := chdir e cwd2 old_cwd in
      (cwd3, match rf with Raise x => Raise x | Ok _ => body end)
  end.
(** validate.py:84-90; abspath asks for the working directory *)
Definition input_path (e : env) (c : config) (cwd : str) : result str :=
  if starts_with "/" (input_file c) then Ok (input_file c)
  else match getcwd_fails e with
       | Some x => Raise x
       | None => Ok (abspath cwd (input_file c))
       end.
(** ValidateCommand._validate, validate.py:91-170 *)
Definition validate_path (e : env) (c : config) (cwd path : str) : str * result error_bundle :=
  let '(cwd1, early) := if use_reqif_schema c then schema_step e cwd path else (cwd, Ok None) in
  (cwd1,
   let! o := early in
   match o with
   | Some eb => Ok eb
   | None =>
       match snd (parse_file None (files e path) []) with
       | Raise EReqIFXMLParsingError => Ok (ErrorBundle [EReqIFXMLParsingError] [] [])
       | Raise x => Raise x
       | Ok b => validate_bundle b
       end
   end).

(** ValidateCommand._validate, validate.py:78-170 *)
Definition validate_file (e : env) (c : config) (cwd : str) : str * result error_bundle :=
  match input_path e c cwd with
  | Raise x => (cwd, Raise x)
  | Ok path => validate_path e c cwd path
  end.

(** ValidateCommand.execute, validate.py:45-76: what is printed and how the
    process ends.  The text of an XML error is lxml's and not modelled. *)
Inductive line :=
| LNoInput (path : str) | LXmlError | LSchema (d : str) | LSemantic (d : str)
| LSummary (xml_errors schema_errors semantic_warnings : nat) | LNote.
(** [sys.exit(code)], or an exception that leaves main *)
Inductive ending := Exit (code : nat) | Uncaught (e : exn).
(** a loop that prints, until a description fails *)
Fixpoint print_all {A} (f : A -> result line) (l : list A) : list line * option exn :=
  match l with
  | [] => ([], None)
  | x :: l' => match f x with
               | Raise e => ([], Some e)
               | Ok s => let '(ls, r) := print_all f l' in (s :: ls, r)
               end
  end.
(** the printing part of execute, validate.py:54-76 *)
Definition report_errors (c : config) (eb : error_bundle) : list line * ending :=
  let xml := map (fun _ => LXmlError) (eb_xml eb) in
  match print_all (fun x => let! d := describe_schema x in Ok (LSchema d)) (eb_schema eb) with
  | (l1, Some e) => (xml ++ l1, Uncaught e)
  | (l1, None) =>
      match print_all (fun x => let! d := describe_semantic x in Ok (LSemantic d)) (eb_semantic eb) with
      | (l2, Some e) => (xml ++ l1 ++ l2, Uncaught e)
      | (l2, None) =>
          (xml ++ l1 ++ l2
           ++ [LSummary (length (eb_xml eb)) (length (eb_schema eb)) (length (eb_semantic eb))]
           ++ (if use_reqif_schema c then [] else [LNote]),
           Exit (if has_any_errors eb then 1 else 0))
      end
  end.
(** ValidateCommand.execute, validate.py:45-76 *)
Definition validate (e : env) (c : config) (cwd : str) : str * (list line * ending) :=
  match files e (opened cwd (input_file c)) with      (* os.path.isfile *)
  | None => (cwd, ([LNoInput (input_file c)], Exit 1))
  | Some _ =>
      match validate_file e c cwd with
      | (cwd', Raise x) => (cwd', ([], Uncaught x))
      | (cwd', Ok eb) => (cwd', report_errors c eb)
      end
  end.
