(** * Time: vocabulary for "how many service calls does it take" (C65). *)
From Verif Require Import Shell Sched Tree Line Complete Session Memory.

(** What an event is worth in service calls; [room] is the size of the input buffer and
    [nodes] the number of node objects of the program.  The end of a line pays for the
    calls that split the line into words, one per byte; a callback pays for the walk over
    the node objects that [help] makes. *)
Definition toll (room nodes : nat) (x : event) : nat :=
  match x with
  | EvIn c => if ceq c CR || ceq c LF then room + 5 else 2
  | EvOut _ => 13
  | _ => nodes + 13
  end.

(** What happened is worth this many calls. *)
Definition tolls (room nodes : nat) (l : list event) : nat := list_sum (map (toll room nodes) l).

(** [count f l]: how many of the events are of this kind. *)
Definition is_in (x : event) : bool := match x with EvIn _ => true | _ => false end.
Definition is_enter (x : event) : bool := match x with EvIn c => ceq c CR || ceq c LF | _ => false end.
Definition is_out (x : event) : bool := match x with EvOut _ => true | _ => false end.
Definition is_call (x : event) : bool := match x with EvIn _ | EvOut _ => false | _ => true end.
Definition count (f : event -> bool) (l : list event) : nat := length (filter f l).

(** Completion goes through all names again and again: this is what one pass takes, printing apart. *)
Definition one_pass (w : world) : nat := 5 * (length (names_in w (here w)) + length (w_fs w)) + length (w_groups w) + 5.
(** One pass for each character tried in addition to the word typed, and at most three more. *)
Definition search (w : world) (l : bytes) : nat :=
  (3 + (length (common (candidates w (here w) (last_word l))) - length (last_word l))) * one_pass w + 16.
(** What the completions asked for by [cs] take in a session; with an application that remembers. *)
Fixpoint searches (x : setting) (a : sess) (cs : bytes) : nat :=
  match cs with
  | [] => 0
  | c :: r => (if completes x c then search (se_world a) (se_line a) else 0) + searches x (snd (sess_step x a c)) r
  end.
Fixpoint mem_searches (m : application) (d : desc) (log : list event) (a : sess) (cs : bytes) : nat :=
  match cs with
  | [] => 0
  | c :: r =>
      let x := fixed m d (log ++ [EvIn c]) in
      (if completes x c then search (se_world a) (se_line a) else 0) +
      mem_searches m d (log ++ EvIn c :: fst (sess_step x a c)) (snd (sess_step x a c)) r
  end.

(** No completion is asked for: TAB is not typed, or the feature is compiled out. *)
Definition no_completion (d : desc) (cs : bytes) : Prop := In TAB cs -> cfg_autocomp (d_cfg d) = false.

(** Callbacks that, whatever has happened, use the API in any way but assign only the states
    a process may assign ([fair], Sched.v). *)
Definition fair_app (a : application) : Prop := forall l, fair (a l).
