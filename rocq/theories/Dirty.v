(** * Dirty: objects that are not zeroed before ush_init (C67). *)
From Verif Require Import Shell Tree.

(** A shell object with arbitrary contents, except that its list of command groups is NULL; [b] is
    the node object in it for the built-in commands.  Of the node objects of [own] only the
    [children] pointers are NULL. *)
Definition dirty_object (own : list nat) (b : nat) (s : st) : Prop :=
  o_cmds s = None /\ o_buildin s = b /\ In b own /\
  forall i, In i own -> exists nd, nth_error (hp s) i = Some nd /\ n_children nd = None.
