(** * Reach: a command line from any state (C72). *)
From Verif Require Import Shell Spec Words Sched Editor Line Tree Cmds Complete Session Builtin.

(** ^C, a line with the words [ws] in quotes, ENTER. *)
Definition fresh_line (ws : list bytes) : bytes := ETX :: command_line ws ++ [CR].
(** No file is executed in [l]. *)
Definition no_file_run (l : list event) : Prop := forall cb n ws, ~ In (EvExec cb (Some n) ws) l.
