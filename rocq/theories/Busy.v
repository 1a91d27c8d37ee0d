(** * Busy: an application that changes directories and commands while the shell is at work. *)
From Verif Require Import Shell Words Sched Cmds Tree Complete Session Interrupt.

(** The node objects in use. *)
Definition used_ids (w : world) : list nat := map de_node (w_fs w) ++ map fst (w_groups w).
(** The node object handed over by a call. *)
Definition handed (o : treeop) : option nat :=
  match o with TMount _ id _ | TAdd id _ => Some id | _ => None end.
(** What the shell is at work on: the exec callback called since the last byte was read, or
    else completion if that byte was TAB. *)
Inductive job := Runs (cb : exec_cb) | Completes.
Definition last_job (log : list event) : option job :=
  fold_left (fun j ev => match ev with
    | EvIn c => if ceq c TAB then Some Completes else None
    | EvExec cb _ _ => Some (Runs cb)
    | _ => j
    end) log None.
(** The node objects in use now or at some moment since the shell last polled ([held]: the
    same, one step before). *)
Definition note (s : st) (w : world) (held : list nat) : list nat :=
  match o_state s with S_READ_CHAR => used_ids w | _ => used_ids w ++ held end.
(** When the call may be made from the main loop: while the shell polls, always.  From the
    moment help or ls was called or TAB was read until the shell polls again: not with a node
    object that has been in use since it last polled.  From the moment cat was called until the shell polls
    again: not if it makes a readable name unreadable.  Otherwise always. *)
Definition considerate (s : st) (w : world) (held : list nat) (o : treeop) : Prop :=
  polling s \/
  match last_job (lg s) with
  | Some (Runs XHelp) | Some (Runs XLs) | Some Completes => forall id, handed o = Some id -> ~ In id held
  | Some (Runs XCat) => forall n, unreadable w n = None -> unreadable (snd (spec_op o w)) n = None
  | _ => True
  end.

(** The shell polls and nothing of the output buffer remains to be printed, or it has printed
    nothing since ush_init. *)
Definition begins (own : list nat) (x : setting) (w : world) (s : st) : Prop :=
  (exists a, se_world a = w /\ shows own x a s /\ settled s) \/
  (o_desc s = x_desc x /\ knows own s w /\ w_cwd w <> None /\ bufs_ok s /\
   pending s greeting /\ o_wnext s = S_RESET_PROMPT /\ o_wbuf s <> Some WOut).

(** The name of a file or of a directory; the root is called "/". *)
Definition named (w : world) (n : bytes) : Prop :=
  (exists f, file_of w f /\ n = f_name f) \/
  (exists d, In d (w_fs w) /\ n = match de_path d with [] => lit "/" | _ => dir_name d end).
(** The line typed so far has no NUL, and every name there may be is a C string without CR and
    LF and fits in the input buffer in place of the last word of that line. *)
Definition tab_fine (x : setting) (W : world -> Prop) (s : st) : Prop :=
  forall k l, editing k l s -> ~ In NUL l /\
  forall w n, W w -> named w n -> ~ In NUL n /\ eol_free n /\ length (before_word l) + length n < d_insize (x_desc x).

(** [lived own x W w0 s0 ops held s]: the shell has come from [s0] to [s] by calls of
    ush_service with any input (TAB, if there is completion, only where there is room for it)
    and any readiness of the output,
    and by API calls at any points between them; [ops] are the calls that change directories
    or commands and the callbacks' and cd's calls, in order; [held] are the node objects used
    since the shell last polled. *)
Inductive lived (own : list nat) (x : setting) (W : world -> Prop) (w0 : world) (s0 : st) : list treeop -> list nat -> st -> Prop :=
| lived_start : lived own x W w0 s0 [] (used_ids w0) s0
| lived_service : forall ops held s i b s' evs, lived own x W w0 s0 ops held s -> io_env i = app_of x (lg s) ->
    (polling s -> io_rd i = Some TAB -> cfg_autocomp (d_cfg (x_desc x)) = true -> tab_fine x W s) ->
    ush_service i s = Ok (b, s') -> lg s' = lg s ++ evs -> let ops' := ops ++ deeds x (lg s) evs in
    lived own x W w0 s0 ops' (note s' (snd (spec_ops ops' w0)) held) s'
| lived_call : forall ops held s o r s', lived own x W w0 s0 ops held s ->
    (let w := snd (spec_ops ops w0) in
     allowed (d_pathmax (x_desc x)) own w o /\ w_cwd (snd (spec_op o w)) <> None /\ W (snd (spec_op o w)) /\ considerate s w held o) ->
    do_op o s = Ok (r, s') -> let ops' := ops ++ [o] in lived own x W w0 s0 ops' (note s' (snd (spec_ops ops' w0)) held) s'
| lived_print : forall ops held s a s', lived own x W w0 s0 ops held s -> printing_call [] a -> (forall u, a = APrintf u -> 20 <= d_outsize (x_desc x)) ->
    do_action [] a s = Ok s' -> lived own x W w0 s0 ops held s'
| lived_flush : forall ops held s u s', lived own x W w0 s0 ops held s -> ~ In NUL u -> length u < d_outsize (x_desc x) ->
    do_actions [] [AWriteOut u; AFlush] s = Ok s' -> lived own x W w0 s0 ops held s'
| lived_reset : forall ops held s, lived own x W w0 s0 ops held s -> lived own x W w0 s0 (ops ++ [TChdir (lit "/")]) held (ush_reset s).

(** ** ush_printf at any moment *)

(** What remains to be printed of the text in the output buffer, and how many bytes of the
    buffer that text takes; nothing if the shell writes, or wrote last, from elsewhere. *)
Definition unprinted (s : st) : bytes :=
  match o_wbuf s with Some WOut => firstn (o_wsize s - o_wpos s) (skipn (o_wpos s) (outb s)) | _ => [] end.
Definition in_buffer (s : st) : nat := match o_wbuf s with Some WOut => o_wsize s | _ => 0 end.

(** The exec hook and the callbacks that are asked for data do not use the output buffer; no
    callback assigns a state or starts a process. *)
Definition no_state (a : action) : Prop := match a with ASetState _ | AProcessStart _ => False | _ => True end.
Definition plain_call (a : action) : Prop := match a with APrintf _ | AFlush => False | _ => no_state a end.
Definition plain_app (x : setting) : Prop := forall h,
  (forall ws, Forall plain_call (hook_calls (x_app x h) (x_desc x) ws)) /\ (forall k n, Forall plain_call (g_calls (e_get (x_app x h) k n))) /\
  (forall k n ws, Forall no_state (e_exec (x_app x h) k n ws)) /\ (forall k n t, Forall no_state (e_set (x_app x h) k n t)).
