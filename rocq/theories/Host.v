(** * Host: vocabulary of C61, an application that changes the host name.

    [struct ush_descriptor] holds a pointer to the host name (ush_types.h:248, [char *hostname]);
    the application may write to that memory at any time, as examples/demo_linux does
    (examples/demo_linux/shell.c:70-74, fs/path/etc.c:53-60: [echo name > /etc/hostname]).  ush_prompt.c:48-50 reads it
    when the prompt is printed.  Simplification: the name does not change while the name itself
    is being printed (Live.v, C57, is about texts that change while they are printed). *)
From Verif Require Import Shell Sched Session.

Definition with_host (t : bytes) (d : desc) : desc :=
  mkDesc (d_insize d) (d_outsize d) (d_pathmax d) t (d_exec d) (d_cfg d).
(** The application has written [t] to the memory of the host name. *)
Definition renamed (t : bytes) (s : st) : st := set_desc (with_host t (o_desc s)) s.

(** What the application has seen: everything but the bytes printed. *)
Definition seen (log : list event) : list event :=
  filter (fun x => match x with EvOut _ => false | _ => true end) log.

(** [drive] (Sched.v) with an application that keeps the host name: at every moment it is
    [h] of what the application has seen. *)
Fixpoint drive_host (a : application) (h : list event -> bytes) (q : bytes) (l : list (bool * bool)) (s : st) : res (bytes * st) :=
  match l with
  | [] => Ok (q, s)
  | (r, w) :: l' =>
      let rd := if r : bool then hd_error q else None in
      '(_, s') <- ush_service (mkIo rd w (a (lg s))) (renamed (h (seen (lg s))) s) ;;
      let q' := match o_state s, rd with S_READ_CHAR, Some _ => tl q | _, _ => q end in
      drive_host a h q' l' s'
  end.

(** The state [s] as the application has it: with the host name of the moment. *)
Definition current (h : list event -> bytes) (s : st) : st := renamed (h (seen (lg s))) s.

(** The session of Session.v with such an application, [log] being the events so far: while
    the shell answers a byte, the host name is the one after the callbacks of that answer. *)
Definition called_host (t : bytes) (x : setting) : setting := mkSetting (with_host t (x_desc x)) (x_app x).
Fixpoint sess_host (h : list event -> bytes) (x : setting) (log : list event) (a : sess) (cs : bytes) : list event * sess :=
  match cs with
  | [] => ([], a)
  | c :: r =>
      let t := h (seen (log ++ EvIn c :: fst (sess_step x a c))) in
      let (evs, a1) := sess_step (called_host t x) a c in
      let (evs2, a2) := sess_host h x (log ++ EvIn c :: evs) a1 r in (EvIn c :: evs ++ evs2, a2)
  end.
(** The setting with the host name after the events [log]. *)
Definition named_at (h : list event -> bytes) (x : setting) (log : list event) : setting := called_host (h (seen log)) x.
