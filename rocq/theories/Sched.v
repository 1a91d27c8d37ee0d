(** * Sched: vocabulary for statements about executions.

    Definitions only; used in the statements of the properties. *)
From Verif Require Import Shell.

(** The shell polls for input. *)
Definition polling (s : st) : Prop := o_state s = S_READ_CHAR.

(** A schedule of service calls during which the callbacks behave as [e]; the
    read and write callbacks answer arbitrarily. *)
Definition sched (e : env) (l : list io) : Prop := Forall (fun i => io_env i = e) l.

(** Number of calls in which the write callback accepts a byte if offered one. *)
Definition ready_calls (l : list io) : nat := length (filter io_wr l).

(** One service call with a ready output; [r] is what the read callback would
    deliver. *)
Definition tick (e : env) (r : option byte) : io := mkIo r true e.

(** [quiet e s s']: serviced with a ready output from [s], the shell gets to [s'],
    the first state in which it polls for input. *)
Inductive quiet (e : env) : st -> st -> Prop :=
| quiet_here : forall s, polling s -> quiet e s s
| quiet_step : forall s b s1 s2,
    ~ polling s -> ush_service (tick e None) s = Ok (b, s1) -> quiet e s1 s2 -> quiet e s s2.

(** [fed e cs s s']: polling in [s], the shell reads the bytes [cs] one after the
    other, each time working until it polls again; it ends in [s']. *)
Inductive fed (e : env) : bytes -> st -> st -> Prop :=
| fed_nil : forall s, polling s -> fed e [] s s
| fed_cons : forall c cs s b s1 s2 s3,
    polling s -> ush_service (tick e (Some c)) s = Ok (b, s1) ->
    quiet e s1 s2 -> fed e cs s2 s3 -> fed e (c :: cs) s s3.

(** The same for an application with a memory: its callbacks behave as [a] says after
    everything that has happened so far (the log). *)
Definition application := list event -> env.
Definition always (e : env) : application := fun _ => e.
Inductive quiet_by (a : application) : st -> st -> Prop :=
| quiet_by_here : forall s, polling s -> quiet_by a s s
| quiet_by_step : forall s b s1 s2,
    ~ polling s -> ush_service (tick (a (lg s)) None) s = Ok (b, s1) -> quiet_by a s1 s2 -> quiet_by a s s2.
Inductive fed_by (a : application) : bytes -> st -> st -> Prop :=
| fed_by_nil : forall s, polling s -> fed_by a [] s s
| fed_by_cons : forall c cs s b s1 s2 s3,
    polling s -> ush_service (tick (a (lg s)) (Some c)) s = Ok (b, s1) ->
    quiet_by a s1 s2 -> fed_by a cs s2 s3 -> fed_by a (c :: cs) s s3.

(** The bytes read, respectively written, between [s] and [s']. *)
Definition reads (s : st) (cs : bytes) (s' : st) : Prop := ins (lg s') = ins (lg s) ++ cs.
Definition writes (s : st) (t : bytes) (s' : st) : Prop := outs (lg s') = outs (lg s) ++ t.

(** The world as an input queue [q] and a readiness schedule: for each service call,
    whether the next queued byte has arrived and whether the output accepts a byte.
    A byte leaves the queue when the shell reads it.  The callbacks behave as [a] says.
    The result is the queue and the state after the calls. *)
Fixpoint drive (a : application) (q : bytes) (l : list (bool * bool)) (s : st) : res (bytes * st) :=
  match l with
  | [] => Ok (q, s)
  | (r, w) :: l' =>
      let rd := if r : bool then hd_error q else None in
      '(_, s') <- ush_service (mkIo rd w (a (lg s))) s ;;
      let q' := match o_state s, rd with S_READ_CHAR, Some _ => tl q | _, _ => q end in
      drive a q' l' s'
  end.

(** Number of calls with both sides ready. *)
Definition both_ready (l : list (bool * bool)) : nat :=
  length (filter (fun p => fst p && snd p) l).

(** [pending s t]: the shell is writing and exactly the bytes [t] are still to be
    handed to the write callback. *)
Definition pending (s : st) (t : bytes) : Prop :=
  o_state s = S_WRITE_CHAR /\ o_wsize s = o_wpos s + length t /\
  forall j c, nth_error t j = Some c -> wbuf_rd s (o_wpos s + j) = Ok c.

(** [delivered s t]: [s] after the write callback has accepted the bytes [t]. *)
Definition delivered (s : st) (t : bytes) : st :=
  set_wpos (o_wpos s + length t) (set_lg (lg s ++ map EvOut t) s).

(** Texts, spelled out here independently of the code: a colour code (nothing if styles are
    switched off), the greeting of ush_init and ush_reset, and the message for a status. *)
Definition colour (c : config) (code : string) : bytes := if cfg_styles c then ESC :: lit code else [].
Definition crlf : bytes := CR :: [LF].
Definition greeting : bytes := lit "uShell 0.1.0" ++ crlf.
Definition status_text (c : config) (x : status) : bytes :=
  match x with ST_OK => cfg_msg c ST_OK | _ => cfg_error c ++ lit ": " ++ cfg_msg c x end.

(** The text after the last slash of a path; of a single character, that character. *)
Fixpoint after_slashes (p : bytes) : bytes :=
  match p with
  | [] => []
  | c :: r => if existsb (fun x => ceq x SL) (c :: r) then after_slashes r else c :: r
  end.
Definition label (p : bytes) : bytes := match p with [c] => [c] | _ => after_slashes p end.

(** The prompt for a current directory with path text [p]. *)
Definition prompt (d : desc) (p : bytes) : bytes :=
  colour (d_cfg d) "[35m" ++ lit "[" ++ d_host d ++ lit " " ++ label p ++ lit "]$ " ++ colour (d_cfg d) "[0m".

(** Path text of the current directory. *)
Definition cwd_is (s : st) (p : bytes) : Prop :=
  exists nd, getp (hp s) (o_cur s) = Ok nd /\ n_path nd = Some p.

(** The buffers are those of the descriptor, with usable sizes. *)
Definition bufs_ok (s : st) : Prop :=
  length (inb s) = d_insize (o_desc s) /\ length (outb s) = d_outsize (o_desc s) /\
  2 <= d_insize (o_desc s) /\ 4 <= d_outsize (o_desc s).

(** The parts of the state that only commands and API calls change. *)
Definition core (s : st) := (o_desc s, o_cmds s, o_root s, o_cur s, o_buildin s, hp s).

(** The shell polls for input, [l] has been typed so far, and [k] bytes of an escape
    sequence have been seen. *)
Definition editing (k : nat) (l : bytes) (s : st) : Prop :=
  polling s /\ o_esc s = k /\ o_inpos s = length l /\
  exists r, inb s = l ++ NUL :: r.

(** States a process callback may legally assign to the shell (as the built-in ones
    do): start over with or without a new line, or keep processing. *)
Definition fair_state (x : fsm) : Prop :=
  match x with
  | S_RESET | S_RESET_PROMPT | S_PROCESS_START | S_PROCESS_SERVICE | S_PROCESS_FINISH => True
  | _ => False
  end.
Definition fair_action (a : action) : Prop :=
  match a with ASetState x => fair_state x | _ => True end.
(** Callbacks that use the API in any way but assign only such states. *)
Definition fair (e : env) : Prop :=
  (forall n f a, Forall fair_action (e_exec e n f a)) /\
  (forall n f d, Forall fair_action (e_set e n f d)) /\
  (forall n f, Forall fair_action (g_calls (e_get e n f))) /\
  (forall n f, Forall fair_action (e_proc e n f)).

(** The string a write pointer points to. *)
Definition wptr_str (p : wptr) (s : st) : res bytes :=
  match p with
  | WIn off => c_str (inb s) off
  | WOut => c_str (outb s) 0
  | WStr t => Ok t
  end.

(** The state is one the service function handles: the autocompletion states are not
    reachable when the feature is compiled out. *)
Definition serviceable (s : st) : Prop :=
  match o_state s with
  | S_AC_PREPARE | S_AC_START | S_AC_COUNT | S_AC_OPTIMISE | S_AC_PRINT | S_AC_FINISH
  | S_AC_PROMPT_PREPARE | S_AC_PROMPT | S_AC_RECALL | S_AC_RECALL_SUFFIX => cfg_autocomp (d_cfg (o_desc s)) = true
  | _ => True
  end.

(** What one call of a printing function makes the shell print. *)
Definition printed (s : st) (cw : bytes) (a : action) : option bytes :=
  let pr := prompt (o_desc s) cw in
  match a with
  | APrint t => Some (t ++ CRLF ++ pr)
  | APrintNoNl t => Some (t ++ pr)
  | APrintStatus x => Some (status_text (d_cfg (o_desc s)) x ++ CRLF ++ pr)
  | AFlush => match c_str (outb s) 0 with Ok t => Some (t ++ pr) | Err _ => None end
  | _ => None
  end.

(** The plain printing functions. *)
Definition prints (a : action) : Prop :=
  match a with APrint _ | APrintNoNl _ | APrintStatus _ | AFlush => True | _ => False end.
