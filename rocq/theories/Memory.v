(** * Memory: sessions with an application that remembers everything (C63), and files that keep
    what is written to them (C64).

    In Session.v the callbacks may depend on the bytes read so far.  Here they may depend on the
    whole log: bytes read and printed, and all calls of callbacks with their arguments. *)
From Verif Require Import Shell Spec Words Sched Editor Line Tree Cmds Complete Session Builtin Examples.

(** The log up to and including the last byte read. *)
Fixpoint up_to_read (log : list event) : list event :=
  match log with
  | [] => []
  | x :: r =>
      match up_to_read r with
      | [] => match x with EvIn _ => [x] | _ => [] end
      | u => x :: u
      end
  end.
(** An application that answers, while the shell works on a byte, from what it knew when that
    byte had been read. *)
Definition at_reads (m : application) : application := fun log => m (up_to_read log).

(** The setting in which the callbacks behave as the application [m] does after [log]. *)
Definition fixed (m : application) (d : desc) (log : list event) : setting := mkSetting d (fun _ => m log).

(** The session of Session.v with such an application; [log] is what has happened before. *)
Fixpoint mem_run (m : application) (d : desc) (log : list event) (a : sess) (cs : bytes) : list event * sess :=
  match cs with
  | [] => ([], a)
  | c :: r =>
      let (evs, a1) := sess_step (fixed m d (log ++ [EvIn c])) a c in
      let (evs2, a2) := mem_run m d (log ++ EvIn c :: evs) a1 r in (EvIn c :: evs ++ evs2, a2)
  end.
(** The limits of Session.v hold for every byte. *)
Fixpoint mem_limits (own : list nat) (m : application) (d : desc) (log : list event) (a : sess) (cs : bytes) : Prop :=
  match cs with
  | [] => True
  | c :: r =>
      let x := fixed m d (log ++ [EvIn c]) in
      step_limits own x a c /\ mem_limits own m d (log ++ EvIn c :: fst (sess_step x a c)) (snd (sess_step x a c)) r
  end.

(** ** Files that keep what is written to them *)

(** What a file named [fn] with the setter [k] holds after [log]: [init] at first; data [t] given to
    the setter turn the contents [u] into [upd u t]. *)
Definition contents (k : nat) (fn : bytes) (upd : bytes -> bytes -> bytes) (init : bytes) (log : list event) : bytes :=
  fold_left (fun u x => match x with EvSet k' n t => if (k' =? k) && beq n fn then upd u t else u | _ => u end) log init.
(** The getter [kg] of such a file delivers the contents, and its setter [ks] calls nothing. *)
Definition keeps (m : application) (ks kg : nat) (fn : bytes) (upd : bytes -> bytes -> bytes) (init : bytes) : Prop :=
  forall log, let t := contents ks fn upd init log in
    e_get (m log) kg fn = mkGet (GData t) (length t) [] /\ forall u, e_set (m log) ks fn u = [].
(** The setter replaces the contents; or it copies the data to the start of a memory, as in
    examples/demo_linux/fs/path/dev.c:104-110, 121-127. *)
Definition replace (u t : bytes) : bytes := t.
Definition overwrite (u t : bytes) : bytes := t ++ skipn (length t) u.

(** The lines that write [t] to the file [name], print it and dump it. *)
Definition write_line (upper : bool) (t name : bytes) : bytes := command_line [lit "echo"; encode upper t; lit ">"; name].
Definition cat_line (name : bytes) : bytes := command_line [lit "cat"; name].
Definition dump_line (name : bytes) : bytes := command_line [lit "xxd"; name].
(** Nothing has been typed since the prompt. *)
Definition at_prompt (a : sess) : Prop := se_esc a = 0 /\ se_line a = [].
(** The name of the command stands for the command, and [name] for a file named [fn] with the
    given setter, or getter. *)
Definition writable (a : sess) (name fn : bytes) (ks : nat) : Prop :=
  at_prompt a /\ denotes (se_world a) (lit "echo") = Some cmd_echo /\
  exists g, denotes (se_world a) name = Some g /\ f_set g = Some ks /\ f_name g = fn.
Definition readable (a : sess) (cmd : file) (name fn : bytes) (kg : nat) : Prop :=
  at_prompt a /\ denotes (se_world a) (f_name cmd) = Some cmd /\
  exists g, denotes (se_world a) name = Some g /\ f_get g = Some kg /\ f_name g = fn.
(** No call of the setter [k] for a file named [fn]. *)
Definition unwritten (k : nat) (fn : bytes) (evs : list event) : Prop := forall t, ~ In (EvSet k fn t) evs.
(** The session after a line that changes neither directories nor commands. *)
Definition after_line (a : sess) (t : bytes) : sess := mkSess (se_world a) (se_read a ++ t ++ [CR]) 0 [].

(** ** The memories of examples/demo_linux *)

(** memcpy to the start of a memory (dev.c:109, 126); data longer than the memory, which would be
    written past its end (see [setter_room], Examples.v), are cut here. *)
Definition fill (u t : bytes) : bytes := firstn (length u) (overwrite u t).
(** dev.c:91-93: static, hence zero; [mc]: clock and rand().  Simplification: the host name is not changed. *)
Definition linux_memory (mc : list event -> machine) (log : list event) : machine :=
  mkMachine (m_uptime (mc log)) (m_random (mc log))
    (contents 2 (lit "ram") fill (repeat NUL 256) log) (contents 3 (lit "eeprom") fill (repeat NUL 32) log) (m_rom (mc log)) (lit "host").
Definition linux_app (null : bytes) (mc : list event -> machine) : application := fun log => linux_env (GData null) (linux_memory mc log).
(** A file of these, its setter and getter, and the size of its memory. *)
Definition linux_memfile (name : bytes) (f : file) (ks kg n : nat) : Prop :=
  (name, f, ks, kg, n) = (lit "/dev/mem/ram", ram_file, 2, 5, 256) \/ (name, f, ks, kg, n) = (lit "/dev/mem/eeprom", eeprom_file, 3, 6, 32).
