(** * Processes of the application

    Specification for property C59: a command whose exec callback starts a process (the
    [process] callback of a file) that the shell calls again and again until it prints. *)
From Verif Require Import Shell Sched Tree Cmds.

(** How many times process callbacks have been called. *)
Definition procs (l : list event) : nat :=
  length (filter (fun x => match x with EvProc _ _ => true | _ => false end) l).

(** The callbacks behave as [e], except that the process callback makes the calls [b j] when it
    is called after [j] calls of process callbacks. *)
Definition counting (e : env) (b : nat -> list action) : application :=
  fun log => mkEnv (e_exec e) (e_get e) (e_set e) (fun _ _ => b (procs log)).

(** Calls that change directories or commands and print nothing. *)
Definition silent (l : list action) : Prop := Forall (fun a => tree_call a <> None /\ proper_call [] a) l.
(** Correct calls, one of which prints (or is ush_reset). *)
Definition speaking (l : list action) : Prop := Forall (proper_call []) l /\ exists a, In a l /\ tree_call a = None.

(** The calls of the process that change directories or commands: call number [j] to [j + m]. *)
Definition calls_of (b : nat -> list action) (j m : nat) : list treeop :=
  flat_map (fun i => tree_calls (b i)) (seq j (S m)).
