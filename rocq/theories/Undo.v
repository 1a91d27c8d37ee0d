(** * Undo: calls that take back another (C77). *)
From Verif Require Import Shell Spec Tree Session.

(** ush_node_unmount with the path given to ush_node_mount, ush_commands_remove with the node
    object given to ush_commands_add. *)
Definition takes_back (o o' : treeop) : Prop :=
  match o, o' with
  | TMount p _ _, TUnmount t => t = show p
  | TAdd i _, TRemove j => j = i
  | _, _ => False
  end.

(** The current directory [c] is not the one mounted by [o]. *)
Definition outside (o : treeop) (c : option dirpath) : Prop :=
  match o with TMount p _ _ => c <> Some p | _ => True end.

(** The session [a] after the call [o]. *)
Definition called_in (o : treeop) (a : sess) : sess := mkSess (snd (spec_op o (se_world a))) (se_read a) (se_esc a) (se_line a).

(** The session [b], with the directories and commands of [a]. *)
Definition tree_of (a b : sess) : sess :=
  mkSess (mkWorld (w_fs (se_world a)) (w_groups (se_world a)) (w_cwd (se_world b))) (se_read b) (se_esc b) (se_line b).
