(** * OneStep: vocabulary of C60, the work of a single call. *)
From Verif Require Import Shell Sched.

(** A callback of a file other than an exec callback: a getter, a setter or a process. *)
Definition file_callback (x : event) : Prop :=
  match x with EvGet _ _ | EvSet _ _ _ | EvProc _ _ => True | _ => False end.

(** What one call of ush_service may do: nothing that can be seen; read one byte, which the
    read callback has delivered, while polling; have one byte accepted by the write callback;
    call one getter, setter or process; or run a line: the hook of the descriptor if there
    is one, then at most one file, whose command may call one getter or setter. *)
Inductive one_thing (d : desc) (polls : Prop) (i : io) : list event -> Prop :=
| Nothing : one_thing d polls i []
| ReadsOne : forall c, polls -> io_rd i = Some c -> one_thing d polls i [EvIn c]
| WritesOne : forall c, io_wr i = true -> one_thing d polls i [EvOut c]
| CallsOne : forall x, file_callback x -> one_thing d polls i [x]
| RunsLine : forall ws h f r, ws <> [] ->
    h = match d_exec d with Some n => [EvExec (XUser n) None ws] | None => [] end ->
    f = [] \/ (exists x name, f = [EvExec x (Some name) ws]) ->
    r = [] \/ (f <> [] /\ exists x, file_callback x /\ r = [x]) ->
    one_thing d polls i (h ++ f ++ r).

(** The calls of ush_service in a history. *)
Definition service_calls (l : list op) : nat :=
  length (filter (fun o => match o with OpService _ => true | OpApi _ => false end) l).

(** The calls of callbacks of the application and the commands in a history of events. *)
Definition callback_events (l : list event) : list event :=
  filter (fun x => match x with EvIn _ | EvOut _ => false | _ => true end) l.
