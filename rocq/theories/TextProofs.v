(** * TextProofs: the messages of the shipped configuration (C42). *)
From Verif Require Import Texts Shell Sched Editor SchedProofs.

Lemma shipped_all : forall x t, In (x, t) shipped <-> t = status_text cfg_posix x.
Proof.
  intros x t. split.
  - intros I. repeat (destruct I as [E|I]; [injection E as <- <-; reflexivity|]). destruct I.
  - intros ->. destruct x; cbn; auto 20.
Qed.
Lemma C42_shipped_proof : forall e x s cw, cwd_is s cw -> bufs_ok s -> d_cfg (o_desc s) = cfg_posix ->
  exists t, In (x, t) shipped /\ (forall t', In (x, t') shipped -> t' = t) /\
  exists s1 s', do_action [] (APrintStatus x) s = Ok s1 /\ quiet e s1 s' /\ editing 0 [] s' /\ core s' = core s /\
    bufs_ok s' /\ lg s' = lg s ++ map EvOut (t ++ CRLF ++ prompt (o_desc s) cw).
Proof.
  intros e x s cw C B F. exists (status_text cfg_posix x). split; [apply shipped_all; reflexivity|]. split; [intros t'; apply shipped_all|].
  apply (C42_proof e (APrintStatus x) s cw); auto. cbn [printed]. rewrite F. reflexivity.
Qed.
