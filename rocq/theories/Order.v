(** * Order: trees that differ in the order of mounting only (C74). *)
From Verif Require Import Shell Spec Words Editor Tree Cmds Complete Session.

(** The same directories are mounted, with the same files, in whatever order and with
    whatever node objects. *)
Definition same_dirs (f g : fsys) : Prop :=
  forall p fl, (exists d, In d f /\ de_path d = p /\ de_files d = fl) <-> (exists d, In d g /\ de_path d = p /\ de_files d = fl).

(** Two sessions alike but for that: the same commands in the same order, the same current
    directory, the same input. *)
Definition same_but_order (a b : sess) : Prop :=
  same_dirs (w_fs (se_world a)) (w_fs (se_world b)) /\
  flat_map snd (w_groups (se_world a)) = flat_map snd (w_groups (se_world b)) /\
  w_cwd (se_world a) = w_cwd (se_world b) /\
  se_read a = se_read b /\ se_esc a = se_esc b /\ se_line a = se_line b.

(** No line in [cs] runs the command ls, and no TAB in it lists the names that fit (it does when
    there are several and their common prefix has been typed). *)
Fixpoint never_lists (x : setting) (a : sess) (cs : bytes) : Prop :=
  match cs with
  | [] => True
  | c :: r =>
      (ends_line a c = true -> forall f, denotes (se_world a) (hd [] (line_argv x a)) = Some f -> f_exec f <> Some XLs) /\
      (completes x c = true -> let w := se_world a in let word := last_word (se_line a) in let names := candidates w (here w) word in
         length names <= 1 \/ common names <> word) /\
      never_lists x (snd (sess_step x a c)) r
  end.
