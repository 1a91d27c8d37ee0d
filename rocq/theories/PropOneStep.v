(** * Property C60: one call of ush_service does one small thing.

    Vocabulary: [one_thing], [file_callback], [service_calls], [callback_events] in OneStep.v. *)
From Coq Require Import Arith Lia.
From Verif Require Import Shell Sched OneStep OneStepProofs Demo PropLine DemoCmd.

(** C60: whatever the state, the input and the application: a call of ush_service reads one
    byte, or writes one byte, or calls one getter, setter or process, or runs one line, or
    does nothing that can be seen. *)
Theorem C60_one_thing : forall i s b s', ush_service i s = Ok (b, s') ->
  exists evs, lg s' = lg s ++ evs /\ one_thing (o_desc s) (polling s) i evs.
Proof. exact C60_step_proof. Qed.
Print Assumptions C60_one_thing.

(** C60: in every history, with calls of the API in between, the bytes read and written
    together are no more than the calls of ush_service, and the calls of callbacks no more
    than three times as many.  The calls of the API themselves read and write nothing. *)
Theorem C60_count : forall l s s', run l s = Ok s' ->
  exists evs, lg s' = lg s ++ evs /\
    length (ins evs) + length (outs evs) <= service_calls l /\ length (callback_events evs) <= 3 * service_calls l.
Proof. exact C60_count_proof. Qed.
Print Assumptions C60_count.

(** On the demo shell: a call that reads a byte, one that finds the output busy and one that
    writes the echo; then, of the calls that run the line [xxd dev/time], the one that calls
    the command, which calls the getter. *)
Example C60_example :
  let l := services [mkIo (Some "a"%char) true demo_env; mkIo (Some "b"%char) false demo_env; mkIo (Some "b"%char) true demo_env] in
  let r := run l demo in
  r = Ok (from r) /\ service_calls l = 3 /\ lg (from r) = lg demo ++ [EvIn "a"%char; EvOut "a"%char] /\
  let i := mkIo (Some CR) true demo_env in
  let s := from (run (services (repeat i 17)) (demo_line "xxd dev/time")) in
  exists s', ush_service i s = Ok (true, s') /\
    lg s' = lg s ++ [EvExec XXxd (Some (lit "xxd")) [lit "xxd"; lit "dev/time"]; EvGet 0 (lit "time")].
Proof.
  cbv zeta. split; [vm_compute; reflexivity|]. split; [vm_compute; reflexivity|]. split; [vm_compute; reflexivity|].
  eexists. split; vm_compute; reflexivity.
Qed.
