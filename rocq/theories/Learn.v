(** * Learn: applications that learn at any moment (C63, C64).

    In Memory.v the application answers, while the shell works on a byte, from what it knew when
    that byte had been read.  Here it answers from what it knows at the moment it is asked. *)
From Verif Require Import Shell Sched.

(** What an application may learn from: the bytes read, the data written to its files, and the
    calls of its commands. *)
Definition lesson (x : event) : Prop :=
  match x with EvIn _ | EvSet _ _ _ | EvExec (XUser _) (Some _) _ => True | _ => False end.
(** The callbacks do not change by anything else: by bytes printed, getters and the hook. *)
Definition learns (m : application) : Prop := forall log x, ~ lesson x -> m (log ++ [x]) = m log.
