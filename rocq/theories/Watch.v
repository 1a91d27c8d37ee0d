(** * Watch: the same shell without its exec hook (C84). *)
From Verif Require Import Shell Session.

Definition unhooked_desc (d : desc) : desc := mkDesc (d_insize d) (d_outsize d) (d_pathmax d) (d_host d) None (d_cfg d).
Definition unhooked (x : setting) : setting := mkSetting (unhooked_desc (x_desc x)) (x_app x).

(** The hook, if there is one, makes no calls into the library: it only looks at the words. *)
Definition only_watches (x : setting) : Prop :=
  forall h k ws, d_exec (x_desc x) = Some k -> e_exec (x_app x h) k None ws = [].

(** What happened, without the calls of the hook. *)
Definition unwatched (l : list event) : list event := filter (fun e => match e with EvExec _ None _ => false | _ => true end) l.
