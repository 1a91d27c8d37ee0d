(** * Alias: the same files and directories by other names, from other directories (C83). *)
From Verif Require Import Shell Spec Words Sched Editor Tree Cmds Complete Session.

(** The name [n] typed in the world [w] and the name [n'] typed in [w'] lead to the same place of
    the tree, and neither is the name of a command. *)
Definition same_place (w w' : world) (n n' : bytes) : Prop :=
  n <> [] /\ n' <> [] /\ resolve_text (here w) n = resolve_text (here w') n' /\
  file_named n (flat_map snd (w_groups w)) = None /\ file_named n' (flat_map snd (w_groups w')) = None.

(** The arguments of the built-in command, with other names of the same places. *)
Definition renamed (cb : exec_cb) (w w' : world) (ws ws' : list bytes) : Prop :=
  match cb with
  | XHelp | XLs | XCd | XCat | XXxd => ws <> [] /\ Forall2 (same_place w w') ws ws'
  | XEcho => exists t n n', ws = [t; lit ">"; n] /\ ws' = [t; lit ">"; n'] /\ same_place w w' n n'
  | _ => False
  end.
