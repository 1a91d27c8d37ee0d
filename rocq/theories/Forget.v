(** * Forget: applications without memory, and applications that leave the tree alone (C69, C70). *)
From Verif Require Import Shell Spec Words Editor Tree Cmds Session.

(** Whatever is read from now on, the callbacks answer alike after the two histories [h1], [h2]. *)
Definition no_memory_of (x : setting) (h1 h2 : bytes) : Prop := forall h, x_app x (h1 ++ h) = x_app x (h2 ++ h).

(** The two sessions stand alike; what was read before may differ. *)
Definition stand_alike (a b : sess) : Prop := se_world a = se_world b /\ se_esc a = se_esc b /\ se_line a = se_line b.

(** No callback mounts, unmounts, registers, removes, changes the directory or resets. *)
Definition leaves_tree (x : setting) : Prop :=
  forall h, let e := x_app x h in
  (forall k f ws, tree_calls (e_exec e k f ws) = []) /\
  (forall k f t, tree_calls (e_set e k f t) = []) /\
  (forall k f, tree_calls (g_calls (e_get e k f)) = []).

(** No line in [cs] runs the command cd. *)
Fixpoint never_cd (x : setting) (a : sess) (cs : bytes) : Prop :=
  match cs with
  | [] => True
  | c :: r =>
      (ends_line a c = true -> forall f, denotes (se_world a) (hd [] (line_argv x a)) = Some f -> f_exec f <> Some XCd) /\
      never_cd x (snd (sess_step x a c)) r
  end.
