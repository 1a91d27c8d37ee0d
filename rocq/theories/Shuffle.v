(** * Shuffle: trees that differ in the order of files and commands as well (C87). *)
From Coq Require Import Permutation.
From Verif Require Import Shell Spec Words Editor Tree Cmds Complete Session.

(** Every directory of [f] is one of [g], with the same files in whatever order. *)
Definition dirs_in (f g : fsys) : Prop :=
  forall d, In d f -> exists e, In e g /\ de_path e = de_path d /\ Permutation (de_files d) (de_files e).

(** Two sessions alike but for the order of directories, of files in their directory, and of
    commands.  No two commands, and no two files of a directory, have the same name. *)
Definition same_but_shuffled (a b : sess) : Prop :=
  dirs_in (w_fs (se_world a)) (w_fs (se_world b)) /\ dirs_in (w_fs (se_world b)) (w_fs (se_world a)) /\
  Permutation (flat_map snd (w_groups (se_world a))) (flat_map snd (w_groups (se_world b))) /\
  (forall d, In d (w_fs (se_world a)) -> NoDup (map f_name (de_files d))) /\
  NoDup (map f_name (flat_map snd (w_groups (se_world a)))) /\
  w_cwd (se_world a) = w_cwd (se_world b) /\
  se_read a = se_read b /\ se_esc a = se_esc b /\ se_line a = se_line b.

(** No line in [cs] runs ls, or help without a name, and no TAB in it lists the names that fit. *)
Fixpoint never_tells (x : setting) (a : sess) (cs : bytes) : Prop :=
  match cs with
  | [] => True
  | c :: r =>
      (ends_line a c = true -> forall f, denotes (se_world a) (hd [] (line_argv x a)) = Some f ->
         f_exec f <> Some XLs /\ (f_exec f = Some XHelp -> 1 < length (line_argv x a))) /\
      (completes x c = true -> let w := se_world a in let word := last_word (se_line a) in let names := candidates w (here w) word in
         length names <= 1 \/ common names <> word) /\
      never_tells x (snd (sess_step x a c)) r
  end.
