(** * Interrupt: what has happened when the shell is stopped at some point. *)
From Verif Require Import Shell Sched Cmds Tree Session.

(** The calls that change directories or commands made by a callback that has been called, or
    by the command cd. *)
Definition deed (e : env) (ev : event) : list treeop :=
  match ev with
  | EvExec XCd (Some _) [_; t] => [TChdir t]
  | EvExec (XUser k) n ws => tree_calls (e_exec e k n ws)
  | EvGet k n => tree_calls (g_calls (e_get e k n))
  | EvSet k n t => tree_calls (e_set e k n t)
  | _ => []
  end.
(** Those of the callbacks called since the log was [h], in order. *)
Fixpoint deeds (x : setting) (h : list event) (evs : list event) : list treeop :=
  match evs with
  | [] => []
  | ev :: r => deed (app_of x h) ev ++ deeds x (h ++ [ev]) r
  end.

(** The shell waits for input, or has printed nothing since ush_init. *)
Definition at_rest (own : list nat) (x : setting) (w : world) (s : st) : Prop :=
  o_desc s = x_desc x /\ knows own s w /\ w_cwd w <> None /\ bufs_ok s /\
  (polling s \/ (pending s greeting /\ o_wnext s = S_RESET_PROMPT)).

(** [reached own x W w0 s0 ops s]: the shell has come from [s0] to [s] by calls of ush_service
    with any input and any readiness of the output, and by API calls at any points between
    them; [ops] are the calls that change directories or commands and the callbacks' and cd's
    calls, in order. *)
Inductive reached (own : list nat) (x : setting) (W : world -> Prop) (w0 : world) (s0 : st) : list treeop -> st -> Prop :=
| reached_start : reached own x W w0 s0 [] s0
| reached_service : forall ops s i b s' evs, reached own x W w0 s0 ops s -> io_env i = app_of x (lg s) -> ush_service i s = Ok (b, s') -> lg s' = lg s ++ evs ->
    reached own x W w0 s0 (ops ++ deeds x (lg s) evs) s'
| reached_call : forall ops s o r s', reached own x W w0 s0 ops s ->
    (let w := snd (spec_ops ops w0) in allowed (d_pathmax (x_desc x)) own w o /\ w_cwd (snd (spec_op o w)) <> None /\ W (snd (spec_op o w))) ->
    do_op o s = Ok (r, s') -> reached own x W w0 s0 (ops ++ [o]) s'
| reached_print : forall ops s a s', reached own x W w0 s0 ops s -> printing_call [] a -> do_action [] a s = Ok s' -> reached own x W w0 s0 ops s'
| reached_flush : forall ops s u s', reached own x W w0 s0 ops s -> do_actions [] [AWriteOut u; AFlush] s = Ok s' -> reached own x W w0 s0 ops s'
| reached_reset : forall ops s, reached own x W w0 s0 ops s -> reached own x W w0 s0 (ops ++ [TChdir (lit "/")]) (ush_reset s).

(** Calls that print whatever the shell is doing: ush_print and others, the first of which is
    not ush_printf (that one continues the text in the output buffer); a text written into
    the output buffer and ush_flush; ush_reset. *)
Definition interrupting (x : setting) (t : turn) : Prop :=
  match t with
  | Says (a :: l) => (forall u, a <> APrintf u) /\ Forall (printing_call []) (a :: l) /\ length (formatted l) < d_outsize (x_desc x)
  | Flushes u => ~ In NUL u /\ length u < d_outsize (x_desc x)
  | Resets => True
  | _ => False
  end.

(** Calls, then input [q] and calls of ush_service with the schedule [l], again and again:
    each call is made wherever the schedule before it has ended. *)
Fixpoint interrupted (x : setting) (ts : list (turn * bytes * list (bool * bool))) (s : st) : res st :=
  match ts with
  | [] => Ok s
  | (t, q, l) :: r =>
      s1 <- do_actions [] (turn_calls t) s ;;
      d <- drive (app_of x) q l s1 ;;
      interrupted x r (snd d)
  end.
