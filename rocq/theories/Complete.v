(** * Complete: specification of completion with TAB (independent of the state machine). *)
From Coq Require Import Arith.
From Verif Require Import Shell Spec Words Sched Editor Line Tree Cmds.

(** The text after the last space of a line. *)
Fixpoint after_space (l : bytes) : bytes :=
  match l with
  | [] => []
  | c :: r => if existsb (ceq SP) r then after_space r else if ceq c SP then r else l
  end.
(** The word that is completed.  A space at the very beginning of the line is not seen
    as a separator if something follows it. *)
Definition last_word (l : bytes) : bytes :=
  match l with
  | _ :: (_ :: _) as r => if existsb (ceq SP) r then after_space r else l
  | _ => after_space l
  end.
(** What stands before it. *)
Definition before_word (l : bytes) : bytes := firstn (length l - length (last_word l)) l.

(** The names that TAB offers in directory [cwd]: commands, files, sub-directories. *)
Definition names_in (w : world) (cwd : dirpath) : list bytes :=
  map f_name (flat_map snd (w_groups w)) ++
  map f_name (match dir_at cwd (w_fs w) with Some d => de_files d | None => [] end) ++
  map dir_name (children cwd (w_fs w)).
Definition candidates (w : world) (cwd : dirpath) (x : bytes) : list bytes := filter (prefixb x) (names_in w cwd).

(** Names of commands and files have no '/' and no NUL, and no directory name starts
    with a dot. *)
Definition tidy (w : world) : Prop :=
  (forall f, In f (flat_map snd (w_groups w)) -> plain_comp (f_name f)) /\
  (forall d f, In d (w_fs w) -> In f (de_files d) -> plain_comp (f_name f)) /\
  (forall d r, In d (w_fs w) -> dir_name d <> "."%char :: r).

(** The longest common prefix. *)
Fixpoint common2 (a b : bytes) : bytes :=
  match a, b with x :: a', y :: b' => if ceq x y then x :: common2 a' b' else [] | _, _ => [] end.
Fixpoint common (l : list bytes) : bytes :=
  match l with [] => [] | [n] => n | n :: r => common2 n (common r) end.

(** The longest text that is put in place of the word [x] to try it: the candidate, if there is
    just one; with several, the common prefix and one character more of the last candidate. *)
Definition tried (x : bytes) (cs : list bytes) : bytes :=
  match cs with [] => x | [n] => n | _ => firstn (S (length (common cs))) (last cs []) end.
(** The longest text that is looked up as a path. *)
Definition probed (x : bytes) (cs : list bytes) : bytes :=
  match cs with _ :: _ :: _ => tried x cs | _ => x end.
(** These fit in path_max_length and in the input buffer. *)
Definition tab_room (d : desc) (cwd : dirpath) (l : bytes) (cs : list bytes) : Prop :=
  length (full_text cwd (probed (last_word l) cs)) < d_pathmax d /\
  length (before_word l) + length (tried (last_word l) cs) < d_insize d.

(** TAB is pressed: in world [w] and directory [cwd], with the line [l] typed. *)
Definition at_tab (own : list nat) (w : world) (cwd : dirpath) (k : nat) (l : bytes) (s : st) : Prop :=
  knows own s w /\ w_cwd w = Some cwd /\ editing k l s /\ bufs_ok s /\ ~ In NUL l /\
  tidy w /\ cfg_autocomp (d_cfg (o_desc s)) = true.

(** [tabbed e s out l' s']: TAB prints [out], and the line is [l'] then. *)
Definition tabbed (e : env) (k : nat) (s : st) (out : bytes) (l' : bytes) (s' : st) : Prop :=
  fed e [TAB] s s' /\ editing k l' s' /\ bufs_ok s' /\ core s' = core s /\ lg s' = lg s ++ EvIn TAB :: map EvOut out.

(** [fails e c s x]: polling in [s], the shell reads the byte [c] and then some service
    call before it polls again runs into the error [x]. *)
Inductive stuck (e : env) (x : err) : st -> Prop :=
| stuck_here : forall s, ~ polling s -> ush_service (tick e None) s = Err x -> stuck e x s
| stuck_step : forall s b s1, ~ polling s -> ush_service (tick e None) s = Ok (b, s1) -> stuck e x s1 -> stuck e x s.
Definition fails (e : env) (c : byte) (s : st) (x : err) : Prop :=
  polling s /\ exists b s1, ush_service (tick e (Some c)) s = Ok (b, s1) /\ stuck e x s1.

(** [serves e n s s']: [n] service calls lead from [s] to [s'], none of them in a polling state. *)
Inductive serves (e : env) : nat -> st -> st -> Prop :=
| serves_none : forall s, serves e 0 s s
| serves_one : forall n s b s1 s2, ~ polling s -> ush_service (tick e None) s = Ok (b, s1) -> serves e n s1 s2 -> serves e (S n) s s2.
(** [endless e c s]: polling in [s], the shell reads the byte [c], and then it works for ever
    without an error and without polling again. *)
Definition endless (e : env) (c : byte) (s : st) : Prop :=
  polling s /\ exists b s1, ush_service (tick e (Some c)) s = Ok (b, s1) /\
    forall n, exists s2, serves e n s1 s2.
