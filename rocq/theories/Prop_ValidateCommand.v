(** Prop_ValidateCommand.v -- C34: the validate command as a process *)
From Verif Require Import Base Xml Utf8 Lxml Py Models Progress Parser BundleModel Validate Paths Zip Anonymize Dump Argparse Commands
  SpecTraversal SpecProgress SpecLookup SpecValidate SpecPaths SpecCommands Prop_Commands Prop_Validate Prop_Lookup Prop_Parser SpecParse.

(** For every command line that asks for validate: no file is changed, the exit code is 0
    exactly for a file that exists, is accepted by the schema if it is asked for, can be
    parsed and has no faults, dangling references or warnings; otherwise it is 1 or the
    process ends with an exception. *)
Theorem C34_command_line :
  forall t s cwd argv i x, asks argv (RValidate i x) -> working_directory cwd ->
    let e := t_environment t s cwd in
    let r := cli t s cwd argv in
    changes r = []
    /\ (ended r = Exit 0 <->
        files e (asked_for cwd i) <> None
        /\ exists path, read_from e cwd i path
           /\ (x = true -> schema_accepts e cwd path)
           /\ exists text b nodes, text_of e path = Some text /\ parse_string text = Ok b /\ all_nodes b nodes
              /\ b_exceptions b = [] /\ general_warnings b = [] /\ no_dangling b nodes)
    /\ (forall n, ended r = Exit n -> n = 0 \/ n = 1).
Proof.
  intros t s cwd argv i x A W e r. unfold r. rewrite (proj1 (C47_dispatch t s cwd argv) _ A). cbn [perform]. unfold validate_run. fold e.
  pose proof (C34_exit_code_zero e (Config i x) cwd W) as Z. pose proof (C34_exit_codes e (Config i x) cwd) as C. cbn [input_file use_reqif_schema] in Z.
  destruct (validate e (Config i x) cwd) as [d [ls z]]. cbn [snd changes ended] in *. split; [reflexivity|]. split; [exact Z|].
  intros n ->. lia.
Qed.
(** What is printed: that there is no such file, or every error, the numbers of errors,
    and the hint that there is a schema if it was not asked for. *)
Theorem C34_command_output :
  forall t s cwd argv i x n, asks argv (RValidate i x) ->
    let e := t_environment t s cwd in
    let r := cli t s cwd argv in
    ended r = Exit n ->
    (files e (asked_for cwd i) = None /\ n = 1 /\ said r = [SReport [LNoInput i]])
    \/ (files e (asked_for cwd i) <> None
        /\ exists eb d1 d2, snd (validate_file e (Config i x) cwd) = Ok eb
           /\ mapM describe_schema (eb_schema eb) = Ok d1 /\ mapM describe_semantic (eb_semantic eb) = Ok d2
           /\ said r = [SReport (map (fun _ => LXmlError) (eb_xml eb) ++ map LSchema d1 ++ map LSemantic d2
                                 ++ LSummary (length (eb_xml eb)) (length (eb_schema eb)) (length (eb_semantic eb))
                                 :: (if x then [] else [LNote]))]
           /\ (n = 0 <-> eb_xml eb = [] /\ eb_schema eb = [] /\ eb_semantic eb = [])).
Proof.
  intros t s cwd argv i x n A e r. unfold r. rewrite (proj1 (C47_dispatch t s cwd argv) _ A). cbn [perform]. unfold validate_run. fold e.
  unfold validate. cbn [input_file]. change (asked_for cwd i) with (opened cwd i). destruct (files e (opened cwd i)) as [raw|].
  - destruct (validate_file e (Config i x) cwd) as [d [eb|z]]; cbn [snd said ended]; [|discriminate].
    destruct (report_errors (Config i x) eb) as [ls z] eqn:E. cbn [said ended]. intros ->. right. split; [discriminate|].
    destruct (C34_report _ _ _ _ E) as ((d1 & d2 & E1 & E2 & ->) & N & _). exists eb, d1, d2. auto 10.
  - cbn [said ended]. intros H. left. split; [reflexivity|]. split; [congruence|reflexivity].
Qed.
Print Assumptions C34_command_line.
Print Assumptions C34_command_output.
Definition with_environment (e : env) : tools := Tools (fun _ => 0%N) (fun _ => None) (fun _ => []) (fun _ => []) (fun _ _ => e) [].
Definition no_files : fs := FS (fun _ => None) (fun _ => true) (fun _ => true).
Example C34_command_example :
  asks ["validate"; "a.reqif"] (RValidate "a.reqif" false) /\ working_directory "/home"
  /\ cli (with_environment (disk "/home/a.reqif" valid_text)) no_files "/home" ["validate"; "a.reqif"] = Run [SReport [LSummary 0 0 0; LNote]] [] (Exit 0)
  /\ ended (cli (with_environment (disk "/home/a.reqif" (dangling_text [] []))) no_files "/home" ["validate"; "a.reqif"]) = Exit 1
  /\ cli (with_environment (disk "/home/b.reqif" valid_text)) no_files "/home" ["validate"; "a.reqif"] = Run [SReport [LNoInput "a.reqif"]] [] (Exit 1).
Proof.
  split; [apply (asks_validate ["a.reqif"] "a.reqif" false); apply takes_word; [left; let r := fresh in intros r; discriminate|apply takes_nothing]|]. split; [split; vm_compute; [reflexivity|discriminate]|].
  split; [vm_compute; reflexivity|]. split; vm_compute; reflexivity.
Qed.
