(** * Property C42, continued: the messages of the shipped configuration.

    Vocabulary: [cwd_is], [quiet], [prompt] in Sched.v; [editing] in Editor.v;
    [shipped], the texts as a user sees them, in Texts.v.
    [cfg_posix] is src/config/posix/ush_config.h; src/config/arduino/ush_config.h has the same
    values. *)
From Verif Require Import Texts Shell Sched Editor SchedProofs TextProofs Demo.

(** C42: ush_print_status prints the text of its status, a new line and the prompt; each status has
    one text. *)
Theorem C42_shipped_texts : forall e x s cw, cwd_is s cw -> bufs_ok s -> d_cfg (o_desc s) = cfg_posix ->
  exists t, In (x, t) shipped /\ (forall t', In (x, t') shipped -> t' = t) /\
  exists s1 s', do_action [] (APrintStatus x) s = Ok s1 /\ quiet e s1 s' /\ editing 0 [] s' /\ core s' = core s /\
    bufs_ok s' /\ lg s' = lg s ++ map EvOut (t ++ CRLF ++ prompt (o_desc s) cw).
Proof. exact C42_shipped_proof. Qed.
Print Assumptions C42_shipped_texts.

Example C42_shipped_example : cwd_is demo (lit "/") /\ bufs_ok demo /\ d_cfg (o_desc demo) = cfg_posix.
Proof. split; [eexists; split; reflexivity|]. split; [exact demo_bufs|reflexivity]. Qed.
