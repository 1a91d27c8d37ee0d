(** * Which callbacks are called, and with what (C66).

    Vocabulary in Calls.v ([registered], [may_call], [handed], [known_call]) and Tree.v ([knows],
    [world]).  The states range over everything: no invariant of the shell is assumed. *)
From Verif Require Import Shell Tree Session Calls CallsProofs CmdProofs Demo PropTree.

(** C66: one service call, from any state. *)
Theorem C66_calls : forall i s b s', ush_service i s = Ok (b, s') ->
  exists evs, lg s' = lg s ++ evs /\ Forall (may_call (io_env i) s) evs.
Proof. exact C66_calls_proof. Qed.
Print Assumptions C66_calls.

(** C66: any history of service calls and API calls, from any state: each callback was called
    by a service call, and was allowed in the state that call found. *)
Theorem C66_history : forall ops s s', run ops s = Ok s' ->
  exists evs, lg s' = lg s ++ evs /\
    Forall (fun ev => exists o1 i o2 m, ops = o1 ++ OpService i :: o2 /\ run o1 s = Ok m /\ may_call (io_env i) m ev) evs.
Proof. exact C66_history_proof. Qed.
Print Assumptions C66_history.

(** C66: what is handed to callbacks during any history fits in the input buffer. *)
Theorem C66_arguments : forall ops s s', run ops s = Ok s' ->
  exists evs, lg s' = lg s ++ evs /\ Forall (handed (length (inb s))) evs /\ length (inb s') = length (inb s).
Proof. exact C66_arguments_proof. Qed.
Print Assumptions C66_arguments.

(** C66: the registered files are those of the mounted directories and of the registered groups. *)
Theorem C66_registered : forall own s w, knows own s w -> forall g, registered s g <-> file_of w g.
Proof. exact C66_registered_proof. Qed.
Print Assumptions C66_registered.

(** C66: without an application-wide hook only callbacks of files of the world are called:
    nothing of a directory after it was unmounted, nothing of a group after it was removed. *)
Theorem C66_only_known : forall own w i s b s' evs, knows own s w -> d_exec (o_desc s) = None ->
  ush_service i s = Ok (b, s') -> lg s' = lg s ++ evs -> Forall (known_call w) evs.
Proof. exact C66_only_known_proof. Qed.
Print Assumptions C66_only_known.

(** "xxd /dev/time" typed into the demo shell, up to the call that runs the line. *)
Definition idle : op := OpService (mkIo None true demo_env).
Definition xxd_ops : list op := flat_map (fun c => OpService (mkIo (Some c) true demo_env) :: repeat idle 3) (lit "xxd /dev/time" ++ [CR]) ++ repeat idle 14.
Definition calls_of (l : list event) : list event := filter (fun x => match x with EvIn _ | EvOut _ => false | _ => true end) l.
Definition xxd_typed : st := Eval vm_compute in match run xxd_ops demo with Ok s => s | Err _ => demo end.
Definition xxd_run : st := Eval vm_compute in match ush_service (mkIo None true demo_env) xxd_typed with Ok (_, s) => s | Err _ => demo end.

Example C66_example :
  run xxd_ops demo = Ok xxd_typed /\ (exists b, ush_service (mkIo None true demo_env) xxd_typed = Ok (b, xxd_run)) /\
  knows demo_own xxd_typed demo_world /\ d_exec (o_desc xxd_typed) = None /\ length (inb demo) = 32 /\
  lg xxd_run = lg xxd_typed ++ [EvExec XXxd (Some (lit "xxd")) [lit "xxd"; lit "/dev/time"]; EvGet 0 (lit "time")].
Proof.
  split; [vm_compute; reflexivity|]. split; [eexists; vm_compute; reflexivity|].
  split; [apply (knows_core demo_own demo); [vm_compute; reflexivity|exact demo_knows]|].
  split; [reflexivity|]. split; [reflexivity|]. vm_compute. reflexivity.
Qed.
