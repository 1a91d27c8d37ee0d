(** * Properties C03, C04, C38: the file a line names.

    Vocabulary: [world], [knows] (the shell's directories and commands), [names_ok] in
    Tree.v, [denotes] (the file a name denotes), [findable] (the name fits in
    path_max_length), [called] (a line has been entered whose first word denotes the file)
    in Cmds.v, [entered], [answered], [message], [then_prompt] in Line.v, [file_exec] in
    History.v, [fed], [fair] in Sched.v. *)
From Verif Require Import Shell BaseFacts Sched Editor Words Line History LineFacts LineProofs Spec Tree Cmds CmdProofs Demo PropTree PropLine DemoCmd CompleteProofs NamesProofs.

(** C03: the exec callback of the file the first word denotes gets the words of the line. *)
Theorem C03_argv_of_file : forall own w cwd e l ws f s c s' cb, called e own w cwd l ws f s -> c = CR \/ c = LF ->
  fed e [c] s s' -> f_exec f = Some cb -> ws <> [] ->
  exists evs, lg s' = lg s ++ EvIn c :: map EvOut (eol_echo c) ++ hook_events (o_desc s) ws ++ EvExec cb (Some (f_name f)) ws :: evs.
Proof. exact C03_called_proof. Qed.
Print Assumptions C03_argv_of_file.

Example C03_example_file :
  let l := " run ""a  b"" c\x41\ d """" "%string in
  called demo_env demo_own demo_world [] (lit l) [lit "run"; lit "a  b"; lit "c\x41 d"; []] f_run (demo_line l) /\ f_exec f_run = Some (XUser 0) /\
  fed demo_env [CR] (demo_line l) (demo_next l).
Proof.
  cbv zeta. split; [|split; [reflexivity|]].
  - split; [eapply knows_core; [|exact demo_knows]; vm_compute; reflexivity|]. split; [reflexivity|].
    split; [change [lit "run"; lit "a  b"; lit "c\x41 d"; []] with (words (lit " run ""a  b"" c\x41\ d """" ")); apply typed_entered; eapply demo_typed_ok; vm_compute; reflexivity|].
    split; [apply demo_no_hook|]. split; [apply demo_findable; vm_compute; reflexivity|]. vm_compute; reflexivity.
  - eapply (key_ok 400); vm_compute; reflexivity.
Qed.

(** C04: after any history, a line causes the execution of the file its first word
    denotes, with the words of the line, if that is an executable file, and no other. *)
Theorem C04_which_execution : forall d0 b ib0 ob0 h d ib ob s0 ops s own w cwd e l ws c s',
  ush_init d ib ob (st_zero d0 b ib0 ob0 h []) = Ok s0 ->
  Forall (fun o => match o with OpService i => fair (io_env i) | OpApi a => fair_action a end) ops ->
  run ops s0 = Ok s -> fair e ->
  knows own s w -> w_cwd w = Some cwd -> entered l ws s -> findable s w (firstn 1 ws) ->
  c = CR \/ c = LF -> hook_prints e (o_desc s) ws -> fed e [c] s s' ->
  exists evs, lg s' = lg s ++ evs /\
    filter file_exec evs =
      match ws with
      | [] => []
      | name :: _ =>
          match denotes w name with
          | Some f => match f_exec f with Some cb => [EvExec cb (Some (f_name f)) ws] | None => [] end
          | None => []
          end
      end.
Proof. exact C04_denotes_proof. Qed.
Print Assumptions C04_which_execution.

(** C38: a first word that denotes nothing, or a file without exec callback. *)
Theorem C38_errors : forall own w cwd e l s c name rest x, knows own s w -> w_cwd w = Some cwd ->
  entered l (name :: rest) s -> findable s w [name] -> c = CR \/ c = LF -> hook_prints e (o_desc s) (name :: rest) ->
  match denotes w name with
  | None => x = ST_COMMAND_SYNTAX_ERROR
  | Some f => f_exec f = None /\ x = ST_FILE_NOT_EXECUTABLE
  end ->
  exists s', answered e c s (hook_events (o_desc s) (name :: rest) ++ then_prompt s (show cwd) (message s x)) s' /\ core s' = core s.
Proof. exact C38_denotes_proof. Qed.
Print Assumptions C38_errors.

Example C38_example :
  let s := demo_line "bogus 1" in
  let s2 := demo_line "/dev/time" in
  knows demo_own s demo_world /\ entered (lit "bogus 1") [lit "bogus"; lit "1"] s /\ findable s demo_world [lit "bogus"] /\
  denotes demo_world (lit "bogus") = None /\ message s ST_COMMAND_SYNTAX_ERROR = lit "error: syntax error" /\
  knows demo_own s2 demo_world /\ entered (lit "/dev/time") [lit "/dev/time"] s2 /\ findable s2 demo_world [lit "/dev/time"] /\
  denotes demo_world (lit "/dev/time") = Some f_time /\ f_exec f_time = None /\
  message s2 ST_FILE_NOT_EXECUTABLE = lit "error: file not executable" /\
  demo_said "bogus 1" = CRLF ++ lit "error: syntax error" ++ CRLF ++ demo_prompt.
Proof.
  cbv zeta.
  split; [eapply knows_core; [|exact demo_knows]; vm_compute; reflexivity|].
  split; [change [lit "bogus"; lit "1"] with (words (lit "bogus 1")); apply typed_entered; eapply demo_typed_ok; vm_compute; reflexivity|].
  split; [apply demo_findable; vm_compute; reflexivity|]. split; [vm_compute; reflexivity|]. split; [vm_compute; reflexivity|].
  split; [eapply knows_core; [|exact demo_knows]; vm_compute; reflexivity|].
  split; [change [lit "/dev/time"] with (words (lit "/dev/time")); apply typed_entered; eapply demo_typed_ok; vm_compute; reflexivity|].
  split; [apply demo_findable; vm_compute; reflexivity|]. split; [vm_compute; reflexivity|]. split; [reflexivity|]. split; vm_compute; reflexivity.
Qed.
