(** * Room: a command that runs past the output buffer (specification). *)
From Coq Require Import Arith.
From Verif Require Import Shell Spec Words Sched Editor Line Tree Cmds Complete.

(** [breaks e c s evs x]: polling in [s], the shell reads the byte [c] and works on without
    reading; after the events [evs] a call of ush_service runs into the error [x]. *)
Definition breaks (e : env) (c : byte) (s : st) (evs : list event) (x : err) : Prop :=
  polling s /\ exists b s1 n s2, ush_service (tick e (Some c)) s = Ok (b, s1) /\ serves e n s1 s2 /\
    lg s2 = lg s ++ EvIn c :: evs /\ ~ polling s2 /\ ush_service (tick e None) s2 = Err x.

(** The same for the command [f] with callback [x0], called with the words [ws]: [evs] are its calls and
    [t] what it has printed when it fails. *)
Definition breaks_off (e : env) (c : byte) (s : st) (x0 : exec_cb) (f : file) (ws : list bytes) (evs : list event) (t : bytes) (x : err) : Prop :=
  breaks e c s (map EvOut (eol_echo c) ++ hook_events (o_desc s) ws ++ EvExec x0 (Some (f_name f)) ws :: evs ++ map EvOut t) x.

(** [too_long d f]: what is put in the output buffer for the file [f] in a list of files does not fit. *)
Definition too_long (d : desc) (f : file) : Prop := d_outsize d <= name_room (d_cfg d) f.

(** [ls_stops d pre f t]: of the files of a directory, [pre] are listed, and [t] is printed of the line of [f]
    when the output buffer is too small. *)
Definition ls_stops (d : desc) (pre : list file) (f : file) (t : bytes) : Prop :=
  (pre = [] /\ d_outsize d <= 6 /\ t = []) \/
  (6 < d_outsize d /\ Forall (listable d) pre /\ too_long d f /\ t = file_flags f).

(** [xxd_stops d t]: [t] is printed of the first line of a dump when the output buffer is too small. *)
Definition xxd_stops (d : desc) (t : bytes) : Prop :=
  (d_outsize d <= 10 /\ t = []) \/
  (10 < d_outsize d /\ d_outsize d <= 3 * cfg_cols (d_cfg d) + 1 /\ t = address 0 ++ lit ": ").
