(** * Calls: which callbacks of the application may be called, and with what (C66). *)
From Verif Require Import Shell Tree Session.

(** A command group that can be reached from the list of groups. *)
Inductive in_list (h : list node) : option nat -> nat -> Prop :=
| il_here : forall i, in_list h (Some i) i
| il_next : forall i n j, nth_error h i = Some n -> in_list h (n_next n) j -> in_list h (Some i) j.

(** A directory that can be reached from the root. *)
Inductive in_tree (h : list node) (root : option nat) : nat -> Prop :=
| it_root : forall i, root = Some i -> in_tree h root i
| it_child : forall i n j, in_tree h root i -> nth_error h i = Some n -> n_children n = Some j -> in_tree h root j
| it_next : forall i n j, in_tree h root i -> nth_error h i = Some n -> n_next n = Some j -> in_tree h root j.

(** A file of a registered command group or of a mounted directory. *)
Definition registered (s : st) (g : file) : Prop :=
  exists i n, (in_list (hp s) (o_cmds s) i \/ in_tree (hp s) (o_root s) i) /\
    nth_error (hp s) i = Some n /\ In g (n_files n).

(** The same groups and directories. *)
Definition same_tree (s m : st) : Prop := hp m = hp s /\ o_cmds m = o_cmds s /\ o_root m = o_root s.

(** The groups and directories when the line [argv] is looked up: those of [s], after the API
    calls of the application-wide hook if there is one. *)
Definition looked_up (e : env) (argv : list bytes) (s m : st) : Prop :=
  match d_exec (o_desc s) with
  | None => same_tree s m
  | Some cb => exists args x, same_tree s x /\ do_actions args (e_exec e cb None argv) x = Ok m
  end.
(** ... or, for a command already at work, those of [s]. *)
Definition at_hand (e : env) (s m : st) : Prop := same_tree s m \/ exists argv, looked_up e argv s m.

(** Strings, at least one, which with their terminators fit in [n] bytes together. *)
Definition args_fit (n : nat) (argv : list bytes) : Prop :=
  argv <> [] /\ Forall no_nul argv /\ list_sum (map (fun a => S (length a)) argv) <= n.

(** What a service call that begins in [s] may do, [e] being the application. *)
Definition may_call (e : env) (s : st) (ev : event) : Prop :=
  match ev with
  | EvIn _ | EvOut _ => True
  | EvExec cb None argv => (exists n, d_exec (o_desc s) = Some n /\ cb = XUser n) /\ args_fit (length (inb s)) argv
  | EvExec cb (Some f) argv =>
      args_fit (length (inb s)) argv /\
      exists m g, looked_up e argv s m /\ registered m g /\ f_name g = f /\ f_exec g = Some cb
  | EvGet cb f => exists m g, at_hand e s m /\ registered m g /\ f_name g = f /\ f_get g = Some cb
  | EvSet cb f data => length data < length (inb s) /\
      exists m g, at_hand e s m /\ registered m g /\ f_name g = f /\ f_set g = Some cb
  | EvProc n f => exists g, o_pfile s = Some g /\ f_name g = f /\ f_proc g = Some (PUser n)
  end.

(** What is handed to a callback fits in an input buffer of [n] bytes. *)
Definition handed (n : nat) (ev : event) : Prop :=
  match ev with
  | EvExec _ _ argv => args_fit n argv
  | EvSet _ _ data => length data < n
  | _ => True
  end.

(** A call of a callback of a file of the world [w] (mounted directories and registered
    command groups), under the name of that file. *)
Definition known_call (w : world) (ev : event) : Prop :=
  match ev with
  | EvExec cb (Some f) _ => exists g, file_of w g /\ f_name g = f /\ f_exec g = Some cb
  | EvExec _ None _ => False
  | EvGet cb f => exists g, file_of w g /\ f_name g = f /\ f_get g = Some cb
  | EvSet cb f _ => exists g, file_of w g /\ f_name g = f /\ f_set g = Some cb
  | _ => True
  end.
