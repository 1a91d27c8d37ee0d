(** * Properties C05, C06, C07, C09, C32, C42: service calls, schedules, printing.

    Vocabulary in Sched.v: [pending], [delivered], [writes], [polling], [quiet],
    [fed], [drive], [prompt], [cwd_is], [bufs_ok], [editing], [core], [fair]. *)
From Verif Require Import Shell Sched Macro SchedFacts SchedProofs Demo.

(** C05: while fewer calls find the output ready than bytes are pending, exactly that
    many bytes have been delivered, in order, and the rest is still pending. *)
Theorem C05_back_pressure : forall s t l, o_cur s <> None -> pending s t -> ready_calls l < length t ->
  exists s', run (services l) s = Ok s' /\ writes s (firstn (ready_calls l) t) s' /\
    pending s' (skipn (ready_calls l) t) /\ s' = delivered s (firstn (ready_calls l) t).
Proof. exact C05_short. Qed.
Print Assumptions C05_back_pressure.

(** C05: after exactly [length t] ready calls the whole text has been delivered, nothing
    else has changed, and the next call moves on. *)
Theorem C05_delivered : forall s t l, o_cur s <> None -> pending s t -> length t <= ready_calls l ->
  exists l1 l2, l = l1 ++ l2 /\ ready_calls l1 = length t /\
    run (services l1) s = Ok (delivered s t) /\ writes s t (delivered s t) /\ pending (delivered s t) [] /\
    forall i, ush_service i (delivered s t) = Ok (true, set_state (o_wnext s) (delivered s t)).
Proof. exact C05_all. Qed.
Print Assumptions C05_delivered.

(** C05: printing a string makes exactly its characters pending. *)
Theorem C05_print_makes_pending : forall p t s, wptr_str p s = Ok t ->
  (exists s', ush_print p s = Ok s' /\ pending s' t /\ lg s' = lg s) /\
  (exists s', ush_print_no_newline p s = Ok s' /\ pending s' t /\ lg s' = lg s).
Proof. exact C05_api. Qed.
Print Assumptions C05_print_makes_pending.

(** The freshly initialised demo shell has the banner pending; three of five calls
    find the output ready. *)
Example C05_example :
  pending demo0 (lit "uShell 0.1.0" ++ CRLF) /\
  ready_calls [mkIo None true demo_env; mkIo None false demo_env; mkIo None true demo_env;
               mkIo None false demo_env; mkIo None true demo_env] = 3 /\
  outs (lg (from (run (services [mkIo None true demo_env; mkIo None false demo_env; mkIo None true demo_env;
               mkIo None false demo_env; mkIo None true demo_env]) demo0))) = lit "uSh".
Proof.
  split; [|split; vm_compute; reflexivity].
  split; [reflexivity|]. split; [reflexivity|]. intros j c H.
  do 14 (destruct j as [|j]; [vm_compute in H; injection H as <-; vm_compute; reflexivity|]).
  destruct j; discriminate H.
Qed.

(** C06: a call that finds no input to read, or a busy output, changes nothing. *)
Theorem C06_idle_call : forall i s b s', ush_service i s = Ok (b, s') ->
  (polling s /\ io_rd i = None) \/ (exists c t, pending s (c :: t) /\ io_wr i = false) -> s' = s.
Proof. exact C06_idle_proof. Qed.
Print Assumptions C06_idle_call.

(** C06: the input is looked at only when polling, the output only when writing. *)
Theorem C06_blind : forall r r' w w' e s,
  (polling s -> r = r') -> (o_state s = S_WRITE_CHAR -> w = w') ->
  ush_service (mkIo r w e) s = ush_service (mkIo r' w' e) s.
Proof. exact C06_blind_proof. Qed.
Print Assumptions C06_blind.

(** C06: two schedules that have consumed the same input and are both polling are in the
    same state (with the same history of events).  The application has a memory: its
    callbacks may answer differently after every event. *)
Theorem C06_any_two_schedules : forall a q l1 l2 s q' s1 s2,
  drive a q l1 s = Ok (q', s1) -> drive a q l2 s = Ok (q', s2) ->
  polling s1 -> polling s2 -> s1 = s2.
Proof. exact drive_det. Qed.
Print Assumptions C06_any_two_schedules.

(** C06: if the shell, fed with [cs] under ideal conditions, ends in [s'], then no
    schedule makes it fail, every schedule that has consumed [cs] and polls is in [s'],
    and enough calls with both sides ready get there. *)
Theorem C06_ideal_run_decides : forall a cs s s', fed_by a cs s s' -> o_cur s' <> None ->
  (forall l, exists q s1, drive a cs l s = Ok (q, s1) /\ (q = [] -> polling s1 -> s1 = s')) /\
  exists n, forall l, n <= both_ready l -> drive a cs l s = Ok ([], s').
Proof. exact fed_drive. Qed.
Print Assumptions C06_ideal_run_decides.

(** The same without input. *)
Theorem C06_ideal_quiet_decides : forall a s s', quiet_by a s s' -> o_cur s' <> None ->
  (forall l, exists s1, drive a [] l s = Ok ([], s1) /\ (polling s1 -> s1 = s')) /\
  exists n, forall l, n <= both_ready l -> drive a [] l s = Ok ([], s').
Proof. exact C06_quiet_proof. Qed.
Print Assumptions C06_ideal_quiet_decides.

(** An application without memory: [quiet] and [fed] in other properties are such runs. *)
Theorem C06_fixed_callbacks : forall e cs s s',
  (fed e cs s s' <-> fed_by (always e) cs s s') /\ (quiet e s s' <-> quiet_by (always e) s s').
Proof. intros e cs s s'. split; [apply fed_always|apply quiet_always]. Qed.
Print Assumptions C06_fixed_callbacks.

(** Two different schedules for "ab" on the demo shell; the callbacks depend on the number
    of events so far. *)
Example C06_example :
  let a := fun l => mkEnv (fun _ _ _ => [APrint (repeat "x"%char (length l))]) (e_get demo_env) (e_set demo_env) (e_proc demo_env) in
  let l1 := repeat (true, true) 160 in let l2 := concat (repeat [(false, true); (true, false); (false, true); (true, true)] 160) in
  let s1 := st_of (drive a (lit "run" ++ [CR]) l1 demo) in
    drive a (lit "run" ++ [CR]) l1 demo = Ok ([], s1) /\ drive a (lit "run" ++ [CR]) l2 demo = Ok ([], s1) /\
    polling s1 /\ writes demo (lit "run" ++ CRLF ++ repeat "x"%char (length (lg demo) + 9) ++ CRLF ++ prompt demo_desc (lit "/")) s1.
Proof. vm_compute. auto 10. Qed.

(** C07: exactly when the result is false. *)
Theorem C07_result : forall i s b s', ush_service i s = Ok (b, s') -> serviceable s ->
  (b = false <-> o_state s = S_READ_PREPARE \/ (polling s /\ io_rd i = None)).
Proof. exact C07_proof. Qed.
Print Assumptions C07_result.

(** C07: after false the shell only waits for input: nothing was logged by that call and
    further calls without input do nothing. *)
Theorem C07_false_means_idle : forall i s s', ush_service i s = Ok (false, s') -> serviceable s ->
  polling s' /\ lg s' = lg s /\ forall w e, ush_service (mkIo None w e) s' = Ok (false, s').
Proof. exact C07_idle_proof. Qed.
Print Assumptions C07_false_means_idle.

Example C07_example : serviceable demo /\
  ush_service (mkIo None true demo_env) demo = Ok (false, demo) /\
  let r := ush_service (mkIo (Some "a"%char) false demo_env) demo in r = Ok (true, st_of r).
Proof. split; [exact I|]. split; vm_compute; reflexivity. Qed.

(** C09: whenever a line is about to be read, the last bytes written are the prompt of
    the current directory: in every run of service calls (with callbacks that use the
    API freely), from a state that is about to print the prompt or is polling. *)
Theorem C09_prompt_before_reading : forall l s0 s p,
  Forall (fun i => fair (io_env i)) l ->
  o_pnext s0 = S_RESET \/ o_pnext s0 = S_READ_PREPARE \/ o_pnext s0 = S_AC_RECALL ->
  (o_state s0 = S_WRITE_CHAR /\ o_wnext s0 = S_RESET_PROMPT) \/ polling s0 ->
  run (services l) s0 = Ok s -> o_state s = S_READ_PREPARE -> cwd_is s p ->
  exists before, outs (lg s) = before ++ prompt (o_desc s) p.
Proof. exact C09_before_reading_proof. Qed.
Print Assumptions C09_prompt_before_reading.

(** C09: exactly the prompt, nothing more, is printed from the point where a command has
    finished... *)
Theorem C09_exactly_the_prompt : forall e s p, o_state s = S_RESET_PROMPT -> cwd_is s p -> bufs_ok s ->
  exists s', quiet e s s' /\ editing 0 [] s' /\ core s' = core s /\ bufs_ok s' /\
    lg s' = lg s ++ map EvOut (prompt (o_desc s) p).
Proof. exact quiet_reset_prompt. Qed.
Print Assumptions C09_exactly_the_prompt.

(** ... or new line and prompt. *)
Theorem C09_new_line_and_prompt : forall e s p, o_state s = S_RESET -> cwd_is s p -> bufs_ok s ->
  exists s', quiet e s s' /\ editing 0 [] s' /\ core s' = core s /\ bufs_ok s' /\
    lg s' = lg s ++ map EvOut (CRLF ++ prompt (o_desc s) p).
Proof. exact quiet_reset. Qed.
Print Assumptions C09_new_line_and_prompt.

Example C09_example :
  o_state demo0 = S_WRITE_CHAR /\ o_wnext demo0 = S_RESET_PROMPT /\ o_pnext demo0 = S_RESET /\
  fair demo_env /\
  let s := from (run (demo_ticks 45) demo0) in run (demo_ticks 45) demo0 = Ok s /\ o_state s = S_READ_PREPARE /\ cwd_is s (lit "/") /\
   outs (lg s) = lit "uShell 0.1.0" ++ CRLF ++ ESC :: lit "[35m[host /]$ " ++ ESC :: lit "[0m".
Proof.
  split; [reflexivity|]. split; [reflexivity|]. split; [reflexivity|]. split; [exact demo_fair|].
  vm_compute. split; [reflexivity|]. split; [reflexivity|]. split; [|reflexivity].
  eexists. split; reflexivity.
Qed.

(** C32: in whatever state it is called.  The banner is spelled out (USH_NAME, USH_VERSION). *)
Theorem C32_reset : forall e s r nd cw, o_root s = Some r -> getn (hp s) r = Ok nd -> n_path nd = Some cw -> bufs_ok s ->
  exists s', quiet e (ush_reset s) s' /\ editing 0 [] s' /\ core s' = core (set_cur (o_root s) s) /\
    bufs_ok s' /\ lg s' = lg s ++ map EvOut ((lit "uShell 0.1.0" ++ [CR; LF]) ++ prompt (o_desc s) cw).
Proof. exact C32_proof. Qed.
Print Assumptions C32_reset.

(** Reset in the middle of an unfinished output, from directory /dev. *)
Example C32_example :
  let s := from (run [OpApi (ASetDir (lit "/dev")); OpApi (APrint (lit "hello")); OpService (tick demo_env None)] demo) in
  o_root s = Some 1 /\ o_cur s = Some 2 /\ o_state s = S_WRITE_CHAR /\ bufs_ok s /\
  (exists nd, getn (hp s) 1 = Ok nd /\ n_path nd = Some (lit "/")).
Proof.
  vm_compute. repeat (split; [solve [reflexivity|repeat split; repeat constructor]|]).
  eexists. split; reflexivity.
Qed.

(** C42: what each printing function prints ([printed]), from any state. *)
Theorem C42_printing : forall e a s cw t, cwd_is s cw -> bufs_ok s -> printed s cw a = Some t ->
  exists s1 s', do_action [] a s = Ok s1 /\ quiet e s1 s' /\ editing 0 [] s' /\ core s' = core s /\
    bufs_ok s' /\ lg s' = lg s ++ map EvOut t.
Proof. exact C42_proof. Qed.
Print Assumptions C42_printing.

(** C42: of several calls before servicing, the last one wins. *)
Theorem C42_last_call_wins : forall e l a s s0 cw t, cwd_is s cw -> bufs_ok s ->
  Forall prints l -> do_actions [] l s = Ok s0 -> printed s cw a = Some t ->
  exists s1 s', do_actions [] (l ++ [a]) s = Ok s1 /\ quiet e s1 s' /\ editing 0 [] s' /\ core s' = core s /\
    bufs_ok s' /\ lg s' = lg s ++ map EvOut t.
Proof. exact C42_last_proof. Qed.
Print Assumptions C42_last_call_wins.

Example C42_example : cwd_is demo (lit "/") /\ bufs_ok demo /\
  printed demo (lit "/") (APrint (lit "hi")) =
    Some (lit "hi" ++ CRLF ++ ESC :: lit "[35m[host /]$ " ++ ESC :: lit "[0m") /\
  is_ok (do_actions [] [APrintStatus ST_FILE_NOT_FOUND; AFlush] demo) = true.
Proof.
  split; [exact demo_cwd|]. split; [exact demo_bufs|]. split; vm_compute; reflexivity.
Qed.
