(** * Sessions in which commands start processes

    Specification for property C59: the abstract shell of Session.v, extended with lines that
    start a process of the application. *)
From Coq Require Import Arith.
From Verif Require Import Shell Spec Words Sched Editor Line Tree Cmds Session Process.

(** The callbacks are those of the setting; the process callback makes the calls [b h j] when
    the bytes [h] have been read and process callbacks have been called [j] times. *)
Definition at_work (x : setting) (b : bytes -> nat -> list action) : application :=
  fun log => counting (x_app x (ins log)) (b (ins log)) log.

(** [last_call d c ws hk acts t]: a process whose last call makes the calls [acts] ends, and
    what is printed then is [t].  ([hk]: the calls of the hook before the command.) *)
Inductive last_call (d : desc) (c : byte) (ws : list bytes) (hk : list action) : list action -> bytes -> Prop :=
| last_prints : forall acts, speaking acts -> room_for d (hk ++ acts) -> last_call d c ws hk acts (said d c ws (hk ++ acts))
| last_resets : forall pre, silent pre -> last_call d c ws hk (pre ++ [ASetState S_RESET]) crlf
| last_prompts : forall pre, silent pre -> last_call d c ws hk (pre ++ [ASetState S_RESET_PROMPT]) [].

(** The line of the session [a] is ended by [c]: its first word denotes [f], whose callback [k]
    starts the process [n] of the file [g] and does nothing else. *)
Definition starts_process (x : setting) (a : sess) (c : byte) (f : file) (k : nat) (g : file) (n : nat) : Prop :=
  let d := x_desc x in let e := env_at x a c in let w := se_world a in let ws := line_argv x a in
  ends_line a c = true /\ ws <> [] /\ hook_prints e d ws /\ names_ok (d_pathmax d) (w_fs w) /\ sought d w (hd [] ws) /\
  denotes w (hd [] ws) = Some f /\ f_exec f = Some (XUser k) /\
  e_exec e k (Some (f_name f)) ws = [AProcessStart g] /\ f_proc g = Some (PUser n).

(** [task_run own x b j a cs evs j' a']: process callbacks have been called [j] times and the
    session stands at [a]; reading [cs] makes exactly the events [evs] happen and leads to
    [a'], and then process callbacks have been called [j'] times. *)
Inductive task_run (own : list nat) (x : setting) (b : bytes -> nat -> list action) : nat -> sess -> bytes -> list event -> nat -> sess -> Prop :=
| task_end : forall j a, task_run own x b j a [] [] j a
| task_key : forall j a c cs evs j' a', step_limits own x a c ->
    task_run own x b j (snd (sess_step x a c)) cs evs j' a' ->
    task_run own x b j a (c :: cs) (EvIn c :: fst (sess_step x a c) ++ evs) j' a'
| task_line : forall j a c f k g n m t cs evs j' a', starts_process x a c f k g n ->
    let d := x_desc x in let h := se_read a ++ [c] in let ws := line_argv x a in
    let calls := calls_of (b h) j m in let w' := snd (spec_ops calls (se_world a)) in
    (forall i, j <= i < j + m -> silent (b h i)) ->
    last_call d c ws (hook_calls (env_at x a c) d ws) (b h (j + m)) t ->
    all_allowed (d_pathmax d) own calls (se_world a) -> w_cwd w' <> None ->
    task_run own x b (j + S m) (mkSess w' h 0 []) cs evs j' a' ->
    task_run own x b j a (c :: cs)
      (EvIn c :: (map EvOut (eol_echo c) ++ hook_events d ws ++ EvExec (XUser k) (Some (f_name f)) ws ::
         repeat (EvProc n (f_name g)) (S m) ++ map EvOut (t ++ prompt d (show (here w')))) ++ evs) j' a'.
